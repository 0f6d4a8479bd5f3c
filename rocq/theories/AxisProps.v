(** * C153, C154: the two axes, and the width of the display *)
From Coq Require Import ZArith QArith Qcanon Qround Lia Lqa Bool List.
From Verif Require Import PyNum NumFacts Units UnitsSpec BoxModel BoxSpec BoxFacts Engine EnginePure EngineSpec EngineExamples
  RefLayout RefFacts RefProps HistSpec HistProps MoveSpec MoveProps LocalProps PushSpec PushProps PixelSpec OkProps SymProps AxisSpec.
Import ListNotations.
Open Scope Qc_scope.

Section On.
Context {A : Type} (f : used -> A).
Lemma on_last l l' : Forall2 (same_on f) l l' -> (last_kid l = None /\ last_kid l' = None) \/ exists u v, last_kid l = Some u /\ last_kid l' = Some v /\ f u = f v.
Proof.
  intros H. unfold last_kid. assert (R : Forall2 (same_on f) (rev l) (rev l')).
  { clear -H. induction H; [constructor|]. cbn. apply Forall2_app; [assumption|constructor; [assumption|constructor]]. }
  destruct R as [|x x' r r' Hx _]; [left; split; reflexivity|right]. destruct Hx as [u v us vs Hu Hs| |]; do 2 eexists; (split; [reflexivity|]); (split; [reflexivity|]); [exact Hu|reflexivity..].
Qed.
End On.

Section A.
Context {S : Type} (sty : S -> style) (d : display_t).
Notation node := (node S).
(** ** C153, horizontally *)
Definition across_area (a a' : area) : Prop := a_w a' = a_w a /\ a_left a' = a_left a.
Lemma across_hedges s t H H' : same_across s t -> hedges d H' t = hedges d H s /\ border_len d H' (st_border_left t) = border_len d H (st_border_left s)
  /\ border_len d H' (st_border_right t) = border_len d H (st_border_right s) /\ len d H' (st_padding_left t) = len d H (st_padding_left s) /\ len d H' (st_padding_right t) = len d H (st_padding_right s).
Proof.
  intros (_ & _ & _ & E1 & E2 & _ & P & B). injection E1 as E1 E3. injection E2 as E2 E4. cbn [forallb] in P, B. rewrite !andb_true_iff in P, B.
  unfold hedges. rewrite <- E1, <- E2, <- E3, <- E4. rewrite (len_no_pct d H' H _ (proj1 P)), (len_no_pct d H' H _ (proj1 (proj2 P))), (border_no_pct d H' H _ (proj1 B)), (border_no_pct d H' H _ (proj1 (proj2 B))). repeat split.
Qed.
Lemma across_wmargins a a' dk s t i j : same_across s t -> same_across_size s i j -> across_area a a' -> wmargins d a' dk t j = wmargins d a dk s i.
Proof.
  intros H (R & Sw & Im) (Aw & _). pose proof (across_hedges s t (or0 (a_h a)) (or0 (a_h a')) H) as (Eh & _). destruct H as (E1 & E2 & E3 & _). injection E1 as _ _ Ed. injection E2 as Ew En Ex. injection E3 as El Er.
  unfold wmargins. rewrite Aw, Eh, <- El, <- Er, <- R, <- Sw. destruct (isinl dk).
  - destruct (s_replaced i) eqn:Ri; [|reflexivity]. set (r := _ - _). assert (image_width d (or0 (a_w a)) r t j = image_width d (or0 (a_w a)) r s i) as ->; [|reflexivity].
    unfold image_width. rewrite <- Ew, <- Sw. destruct (st_width s); [|reflexivity]. destruct (s_width i); [reflexivity|]. destruct (Im eq_refl); congruence.
  - assert (widths d (or0 (a_w a)) (hedges d (or0 (a_h a)) s) t = widths d (or0 (a_w a)) (hedges d (or0 (a_h a)) s) s) as ->; [|reflexivity].
    unfold widths, limited_width. rewrite <- Ew, <- Ex, <- En, <- El, <- Er, <- Ed. reflexivity.
Qed.
Lemma across_lefts a a' dk s t i j : same_across s t -> same_across_size s i j -> across_area a a' -> lefts d a' dk t j = lefts d a dk s i.
Proof.
  intros H Hi Ha. unfold lefts. rewrite (across_wmargins _ _ _ _ _ _ _ H Hi Ha). destruct (across_hedges s t (or0 (a_h a)) (or0 (a_h a')) H) as (_ & -> & _ & -> & _). rewrite <- (proj1 Hi). reflexivity.
Qed.
Lemma across_down r q u v : across_used u = across_used v -> across_used (move_down r u) = across_used (move_down q v).
Proof. destruct u, v. unfold across_used. cbn. auto. Qed.
Lemma across_stack l l' : Forall2 (same_on across_used) l l' -> forall top prev top' prev', Forall2 (same_on across_used) (stack top prev l) (stack top' prev' l').
Proof.
  induction 1 as [|x x' l l' Hx Hl IH]; intros top prev top' prev'; [constructor|]. destruct Hx as [u v us vs Hu Hs| |]; cbn [stack]; constructor; try apply IH; try constructor; [|exact Hs]. apply across_down, Hu.
Qed.
Lemma across_block n m : alike_across sty n m -> block_level (sty (n_style m)) = block_level (sty (n_style n)).
Proof. intros H. inversion H as [s s' i i' b b' ks ks' Z]; subst. cbn [n_style]. destruct Z as (E & _). injection E as E _ _. unfold block_level. rewrite E. reflexivity. Qed.
Lemma format_across (n : node) : forall m, alike_across sty n m -> forall a a', across_area a a' -> same_on across_used (format sty d a n) (format sty d a' m).
Proof.
  induction n as [s i b ks IH] using node_ind'. intros m Hm a a' Ha. inversion Hm as [s1 s' i1 i' b1 b' ks1 ks' Z Zi Zk]; subst. rewrite !format_split.
  pose proof Z as (E & _ & _ & _ & _ & E6 & _). injection E as Ed Ep _. injection E6 as El Er. rewrite <- Ed. destruct (st_display (sty s)) as [dk|]; [|constructor].
  assert (St : stacks_ sty dk ks' = stacks_ sty dk ks).
  { unfold stacks_. destruct dk; try reflexivity; clear -Zk; (induction Zk as [|x y l l' Hx _ IH']; [reflexivity|]; cbn [existsb]; rewrite (across_block _ _ Hx), IH'; reflexivity). }
  rewrite St. set (st := stacks_ sty dk ks).
  assert (Hi : across_area (inner_of d a dk (sty s) i) (inner_of d a' dk (sty s') i')).
  { split; cbn [inner_of a_w a_left]; [rewrite (across_wmargins _ _ _ _ _ _ _ Z Zi Ha); reflexivity|apply across_lefts; assumption]. }
  set (inner := inner_of d a dk (sty s) i) in *. set (inner' := inner_of d a' dk (sty s') i') in *.
  assert (Fk : Forall2 (same_on across_used) (map (MoveProps.laid_kid sty d inner st) ks) (map (MoveProps.laid_kid sty d inner' st) ks')).
  { clearbody st inner inner'. clear -IH Zk Hi. induction Zk as [|x y l l' Hx Hl IHl]; [constructor|]. cbn [map]. constructor; [|apply IHl; intros z Iz; apply IH; right; exact Iz].
    unfold MoveProps.laid_kid. rewrite (across_block _ _ Hx). destruct (_ && _); [constructor|]. apply IH; [left; reflexivity|assumption..]. }
  assert (Fs : Forall2 (same_on across_used) (kids_of sty d inner st ks) (kids_of sty d inner' st ks')).
  { unfold kids_of. destruct st; [apply across_stack|]; exact Fk. }
  unfold node_of. cbv zeta. constructor; [|exact Fs]. unfold across_used. cbn [u_ml u_mr u_bl u_br u_pl u_pr u_left u_w].
  rewrite (across_wmargins _ _ _ _ _ _ _ Z Zi Ha), (across_lefts _ _ _ _ _ _ _ Z Zi Ha). destruct (across_hedges _ _ (or0 (a_h a)) (or0 (a_h a')) Z) as (_ & -> & -> & -> & ->).
  destruct Ha as [-> ->]. unfold isrel. rewrite <- Ep, <- El, <- Er. reflexivity.
Qed.
(** ** C153, vertically *)
Definition along_area (a a' : area) : Prop := a_h a' = a_h a /\ a_top a' = a_top a /\ a_spec_h a' = a_spec_h a.
Lemma along_edges_len s t H H' : same_along s t -> border_len d H' (st_border_top t) = border_len d H (st_border_top s) /\ border_len d H' (st_border_bottom t) = border_len d H (st_border_bottom s)
  /\ len d H' (st_padding_top t) = len d H (st_padding_top s) /\ len d H' (st_padding_bottom t) = len d H (st_padding_bottom s).
Proof.
  intros (_ & _ & _ & E1 & E2 & _ & P & B). injection E1 as E1 E3. injection E2 as E2 E4. cbn [forallb] in P, B. rewrite !andb_true_iff in P, B.
  rewrite <- E1, <- E2, <- E3, <- E4. rewrite (len_no_pct d H' H _ (proj1 P)), (len_no_pct d H' H _ (proj1 (proj2 P))), (border_no_pct d H' H _ (proj1 B)), (border_no_pct d H' H _ (proj1 (proj2 B))). repeat split.
Qed.
Lemma along_edges a a' dk s t : same_along s t -> along_area a a' -> edges d a' dk t = edges d a dk s.
Proof.
  intros H (Ah & _). unfold edges. destruct (along_edges_len s t (or0 (a_w a)) (or0 (a_w a')) H) as (-> & _ & -> & _). destruct H as (_ & _ & E & _). injection E as E _. rewrite Ah, <- E. reflexivity.
Qed.
Lemma along_bottoms a a' dk s t i j : same_along s t -> same_along_size s t i j -> along_area a a' -> bottoms d a' dk t j = bottoms d a dk s i.
Proof. intros (_ & _ & E & _) (R & _) (Ah & _). injection E as _ E. unfold bottoms. rewrite Ah, <- E, <- R. reflexivity. Qed.
Lemma along_bb u v : along_used u = along_used v -> border_height v = border_height u /\ border_bottom v = border_bottom u.
Proof. intros H. unfold along_used in H. injection H as E1 E2 E3 E4 E5 E6 E7 E8 E9 E10. unfold border_height, border_bottom. rewrite E2, E3, E4, E5, E6, E8. split; reflexivity. Qed.
Lemma along_hgt a a' dk s t i j l l' : same_along s t -> same_along_size s t i j -> along_area a a' ->
  match l, l' with None, None => True | Some u, Some v => border_bottom v = border_bottom u | _, _ => False end ->
  hgt d a' dk t j l' = hgt d a dk s i l.
Proof.
  intros (_ & E & _) (R & Eh & Im) (Ah & _ & As) L. injection E as E1 E2 E3. unfold hgt. rewrite Ah, As, <- R, <- Eh. destruct (isinl dk).
  - destruct (s_replaced i) eqn:Ri; [|reflexivity]. f_equal. unfold image_height. rewrite <- E1. destruct (st_height s); [|reflexivity]. destruct (Im eq_refl) as [N|(Ws & Wt & N)]; [congruence|]. rewrite Ws, Wt, <- Eh. destruct (s_height i); [reflexivity|congruence].
  - f_equal. unfold used_block_height, spec_height. rewrite <- E1, <- E2, <- E3. destruct (st_height s); [|reflexivity]. destruct l, l'; try contradiction; [exact L|reflexivity].
Qed.
Lemma along_down r u v : along_used u = along_used v -> along_used (move_down r u) = along_used (move_down r v).
Proof. destruct u, v. unfold along_used. cbn. intros H. injection H as -> -> -> -> -> -> -> -> -> ->. reflexivity. Qed.
Lemma along_stack l l' : Forall2 (same_on along_used) l l' -> forall top prev, Forall2 (same_on along_used) (stack top prev l) (stack top prev l').
Proof.
  induction 1 as [|x x' l l' Hx Hl IH]; intros top prev; [constructor|]. destruct Hx as [u v us vs Hu Hs| |]; cbn [stack]; [|constructor; [constructor|apply IH]..].
  assert (Em : u_mt v = u_mt u) by (unfold along_used in Hu; injection Hu; congruence). assert (Ec : u_cb v = u_cb u) by (unfold along_used in Hu; injection Hu; congruence).
  rewrite Em, Ec, (proj1 (along_bb _ _ Hu)). constructor; [constructor; [apply along_down, Hu|exact Hs]|apply IH].
Qed.
Lemma along_block n m : alike_along sty n m -> block_level (sty (n_style m)) = block_level (sty (n_style n)).
Proof. intros H. inversion H as [s s' i i' b b' ks ks' Z]; subst. cbn [n_style]. destruct Z as (E & _). injection E as E _. unfold block_level. rewrite E. reflexivity. Qed.
Lemma format_along (n : node) : forall m, alike_along sty n m -> forall a a', along_area a a' -> same_on along_used (format sty d a n) (format sty d a' m).
Proof.
  induction n as [s i b ks IH] using node_ind'. intros m Hm a a' Ha. inversion Hm as [s1 s' i1 i' b1 b' ks1 ks' Z Zi Zk]; subst. rewrite !format_split.
  pose proof Z as (E & Eh & Em & _ & _ & E6 & _). injection E as Ed Ep. injection E6 as El Er. injection Eh as Eh _ _. injection Em as Em _. rewrite <- Ed. destruct (st_display (sty s)) as [dk|]; [|constructor].
  assert (St : stacks_ sty dk ks' = stacks_ sty dk ks).
  { unfold stacks_. destruct dk; try reflexivity; clear -Zk; (induction Zk as [|x y l l' Hx _ IH']; [reflexivity|]; cbn [existsb]; rewrite (along_block _ _ Hx), IH'; reflexivity). }
  rewrite St. set (st := stacks_ sty dk ks). assert (Rl : isrel (sty s') = isrel (sty s)) by (unfold isrel; rewrite Ep; reflexivity).
  assert (Hi : along_area (inner_of d a dk (sty s) i) (inner_of d a' dk (sty s') i')).
  { unfold inner_of, along_area. cbn [a_h a_top a_spec_h]. rewrite Rl, (along_edges _ _ _ _ _ Z Ha), (along_hgt a a' dk _ _ i i' (Some used0) (Some used0) Z Zi Ha eq_refl), <- Eh. repeat split. }
  set (inner := inner_of d a dk (sty s) i) in *. set (inner' := inner_of d a' dk (sty s') i') in *.
  assert (Fk : Forall2 (same_on along_used) (map (MoveProps.laid_kid sty d inner st) ks) (map (MoveProps.laid_kid sty d inner' st) ks')).
  { clearbody st inner inner'. clear -IH Zk Hi. induction Zk as [|x y l l' Hx Hl IHl]; [constructor|]. cbn [map]. constructor; [|apply IHl; intros z Iz; apply IH; right; exact Iz].
    unfold MoveProps.laid_kid. rewrite (along_block _ _ Hx). destruct (_ && _); [constructor|]. apply IH; [left; reflexivity|assumption..]. }
  assert (Fs : Forall2 (same_on along_used) (kids_of sty d inner st ks) (kids_of sty d inner' st ks')).
  { unfold kids_of. destruct st; [apply along_stack|]; exact Fk. }
  set (kk := kids_of sty d inner st ks) in *. set (kk' := kids_of sty d inner' st ks') in *. pose proof (on_last _ _ _ Fs) as L.
  unfold node_of. cbv zeta. constructor; [|exact Fs]. unfold along_used. cbn [u_mt u_bt u_bb u_pt u_pb u_top u_mb u_h u_ct u_cb].
  rewrite (along_edges _ _ _ _ _ Z Ha), (along_bottoms _ _ _ _ _ _ _ Z Zi Ha). destruct (along_edges_len _ _ (or0 (a_w a)) (or0 (a_w a')) Z) as (-> & -> & -> & ->).
  assert (Ek : hgt d a' dk (sty s') i' (last_kid kk') = hgt d a dk (sty s) i (last_kid kk)).
  { apply along_hgt; try assumption. destruct L as [[-> ->]|(u & v & -> & -> & L)]; [exact I|apply (along_bb _ _ L)]. }
  rewrite Ek, Rl. destruct Ha as (-> & -> & _). rewrite <- El, <- Er, <- Em, <- Eh.
  assert (E1 : (if st then match kk' with UNode u _ :: _ => u_ct u | _ => 0%Z end else 0%Z) = (if st then match kk with UNode u _ :: _ => u_ct u | _ => 0%Z end else 0%Z)).
  { destruct st; [|reflexivity]. destruct Fs as [|x x' r r' Hx _]; [reflexivity|]. destruct Hx as [u v us vs Hu Hs| |]; try reflexivity. unfold along_used in Hu. injection Hu. congruence. }
  rewrite E1. f_equal. f_equal. f_equal. destruct (st_height (sty s)); [|reflexivity]. destruct L as [[-> ->]|(u & v & -> & -> & L)]; [reflexivity|]. unfold along_used in L. injection L as _ _ _ _ _ _ _ _ _ ->. reflexivity.
Qed.
(** C153. *)
Theorem C153_across : forall h5 h5' (n m n' m' : node), history sty n -> history sty m -> alike_across sty n m ->
  layout sty d h5 n = (n', Ok tt) -> layout sty d h5' m = (m', Ok tt) ->
  exists t t', shows n' t /\ shows m' t' /\ same_on across_used t t'.
Proof.
  intros h5 h5' n m n' m' Hn Hm Z Ln Lm. exists (page sty d h5 n), (page sty d h5' m).
  split; [apply (C122_any_history sty); assumption|]. split; [apply (C122_any_history sty); assumption|].
  rewrite !page_draft. unfold draft. set (a := mkArea (Some (nval (disp_width d))) (Some (nval (disp_height d))) 0 0 None).
  pose proof (format_across n m Z a a (conj eq_refl eq_refl)) as F. destruct F as [u v us vs Hu Hs| |]; cbn [finished]; constructor; [|exact Hs].
  destruct u, v. unfold across_used in *. exact Hu.
Qed.
Theorem C153_along : forall h5 (n m n' m' : node), history sty n -> history sty m -> alike_along sty n m ->
  layout sty d h5 n = (n', Ok tt) -> layout sty d h5 m = (m', Ok tt) ->
  exists t t', shows n' t /\ shows m' t' /\ same_on along_used t t'.
Proof.
  intros h5 n m n' m' Hn Hm Z Ln Lm. exists (page sty d h5 n), (page sty d h5 m).
  split; [apply (C122_any_history sty); assumption|]. split; [apply (C122_any_history sty); assumption|].
  rewrite !page_draft. unfold draft. set (a := mkArea (Some (nval (disp_width d))) (Some (nval (disp_height d))) 0 0 None).
  pose proof (format_along n m Z a a (conj eq_refl (conj eq_refl eq_refl))) as F. destruct F as [u v us vs Hu Hs| |]; cbn [finished]; constructor; [|exact Hs].
  destruct u as [a1 a2 a3 a4 a5 a6 a7 a8 a9 a10 a11 a12 a13 a14 a15 a16 a17 a18], v as [b1 b2 b3 b4 b5 b6 b7 b8 b9 b10 b11 b12 b13 b14 b15 b16 b17 b18].
  unfold along_used, completed in *. cbn [u_mt u_bt u_bb u_pt u_pb u_top u_mb u_h u_ct u_cb] in *. injection Hu as -> -> -> -> -> -> -> -> -> ->. reflexivity.
Qed.
End A.
Print Assumptions C153_across.
Print Assumptions C153_along.

(** ** C154 *)
Section W.
Context {S : Type} (sty : S -> style) (t : Qc) (d d' : display_t) (Hd : wider_display t d d').
Notation node := (node S).
Lemma w_len p p' u : rigid u = true -> len d' p' u = len d p u.
Proof.
  destruct Hd as (_ & Eh & Ed & _). unfold rigid, len, exact_len. rewrite Eh, Ed. destruct (u_kind u) as [| | |? []| |]; try discriminate; reflexivity.
Qed.
Lemma w_len0 p p' v : rigid_auto v = true -> len0 d' p' v = len0 d p v.
Proof. destruct v; [reflexivity|apply w_len]. Qed.
Lemma w_border p p' v : rigid_border v = true -> border_len d' p' v = border_len d p v.
Proof. destruct v; [intros _; apply (proj2 (proj2 (proj2 Hd)))|apply w_len]. Qed.
Lemma w_shift p p' e e' a b : rigid_offset a = true -> rigid_offset b = true -> shift d' p' e' a b = shift d p e a b.
Proof.
  intros A B. destruct a as [| |u], b as [| |v]; cbn in *; try discriminate; try reflexivity; try (f_equal; apply w_len; assumption); apply w_len; assumption.
Qed.
Ltac rigid_parts H :=
  unfold rigid_style in H; cbn [forallb] in H; rewrite !andb_true_iff in H;
  destruct H as (((((Hpd & Hw & Hh & Hnw & Hnh & Hmt & Hmr & Hmb & Hml & _) & Hxw & Hxh & _) & Hpt & Hpr & Hpb & Hpl & _) & Hbt & Hbr & Hbb & Hbl & _) & Hot & Hor & Hob & Hol & _).
Lemma w_hedges s H H' : rigid_style s = true -> hedges d' H' s = hedges d H s.
Proof. intros R. rigid_parts R. unfold hedges. rewrite (w_border H H' _ Hbl), (w_border H H' _ Hbr), (w_len H H' _ Hpl), (w_len H H' _ Hpr). reflexivity. Qed.
Lemma w_limited s W W' u : rigid_style s = true -> st_width s = Len u -> limited_width d' W' s u = limited_width d W s u.
Proof.
  intros R E. rigid_parts R. rewrite E in Hw. cbn [rigid_auto] in Hw. unfold limited_width. rewrite (w_len W W' _ Hw).
  destruct (st_max_width s) as [m|], (st_min_width s) as [|mm]; cbn [rigid_auto rigid_opt] in *; rewrite ?(w_len W W' _ Hxw), ?(w_len W W' _ Hnw); reflexivity.
Qed.
Lemma w_same_widths s W e : rigid_style s = true -> widths d' W e s = widths d W e s.
Proof.
  intros R. unfold widths. destruct (st_width s) as [|u] eqn:E; [|rewrite (w_limited s W W u R E)]; rigid_parts R; rewrite (w_len0 W W _ Hml), (w_len0 W W _ Hmr); reflexivity.
Qed.
Lemma w_image_height H H' w s i : rigid_style s = true -> image_height d' H' w s i = image_height d H w s i.
Proof. intros R. rigid_parts R. unfold image_height. destruct (st_height s); [reflexivity|]. apply w_len, Hh. Qed.
Lemma w_spec_height H H' ph ph' s : rigid_style s = true -> spec_height d' H' ph' s = spec_height d H ph s.
Proof.
  intros R. rigid_parts R. unfold spec_height. destruct (st_height s) as [|u]; [reflexivity|]. rewrite (w_len (match ph with Some pu => len d H pu | None => H end) _ u Hh).
  destruct (st_max_height s) as [m|]; [|reflexivity]. rewrite (w_len H H' m Hxh). reflexivity.
Qed.
Lemma w_block_height H H' ph ph' s l l' : rigid_style s = true ->
  match l, l' with None, None => True | Some u, Some v => border_bottom v = border_bottom u | _, _ => False end ->
  used_block_height d' H' ph' s l' = used_block_height d H ph s l.
Proof.
  intros R L. unfold used_block_height. rewrite (w_spec_height H H' ph ph' s R). destruct (spec_height _ _ _ _); [reflexivity|]. destruct l, l'; try contradiction; [exact L|]. rigid_parts R. apply w_len0, Hnh.
Qed.
Lemma w_edges a a' dk s : rigid_style s = true -> edges d' a' dk s = edges d a dk s.
Proof. intros R. rigid_parts R. unfold edges. rewrite (w_len0 (or0 (a_h a)) _ _ Hmt), (w_border (or0 (a_w a)) _ _ Hbt), (w_len (or0 (a_w a)) _ _ Hpt). reflexivity. Qed.
Lemma w_bottoms a a' dk s i : rigid_style s = true -> bottoms d' a' dk s i = bottoms d a dk s i.
Proof. intros R. rigid_parts R. unfold bottoms. rewrite (w_len0 (or0 (a_h a)) _ _ Hmb). reflexivity. Qed.
(** Inline boxes do not notice. *)
Lemma w_inline_wmargins a a' dk s i : rigid_style s = true -> rigid_image s i = true -> isinl dk = true -> wmargins d' a' dk s i = wmargins d a dk s i.
Proof.
  intros R Ri D. unfold wmargins. rewrite D. pose proof R as R0. rigid_parts R0. rewrite (w_len0 (or0 (a_w a)) _ _ Hml), (w_len0 (or0 (a_w a)) _ _ Hmr). unfold rigid_image in Ri.
  destruct (s_replaced i); [|reflexivity]. cbn [negb orb] in Ri. set (r := _ - _ - _ - _). set (r' := _ - _ - _ - _).
  assert (image_width d' (or0 (a_w a')) r s i = image_width d (or0 (a_w a)) r' s i) as ->; [|reflexivity].
  unfold image_width. destruct (st_width s); [|apply w_len, Hw]. destruct (s_width i); [reflexivity|]. destruct (st_height s); [|reflexivity]. destruct (s_height i), (s_ratio i); try discriminate; reflexivity.
Qed.
(** In a containing block of the same width nothing changes. *)
Lemma w_same_wmargins a a' dk s i : rigid_style s = true -> rigid_image s i = true -> a_w a' = a_w a -> wmargins d' a' dk s i = wmargins d a dk s i.
Proof.
  intros R Ri Aw. destruct (isinl dk) eqn:D; [apply w_inline_wmargins; assumption|]. unfold wmargins. rewrite D, Aw, (w_hedges s (or0 (a_h a)) _ R), (w_same_widths s _ _ R). reflexivity.
Qed.
Lemma w_same_node a a' dk s i st ks : rigid_style s = true -> wmargins d' a' dk s i = wmargins d a dk s i -> node_of d' a' dk s i st ks = node_of d a dk s i st ks.
Proof.
  intros R Ew.
  assert (El : lefts d' a' dk s i = lefts d a dk s i).
  { unfold lefts. rewrite Ew. destruct (_ && _); [reflexivity|]. rigid_parts R. rewrite (w_border (or0 (a_h a)) _ _ Hbl), (w_len (or0 (a_h a)) _ _ Hpl). reflexivity. }
  assert (Eh : forall l, hgt d' a' dk s i l = hgt d a dk s i l).
  { intros l. unfold hgt. rewrite Ew, (w_image_height (or0 (a_h a)) _ _ _ _ R), (w_block_height (or0 (a_h a)) (or0 (a_h a')) (a_spec_h a) (a_spec_h a') s l l R); [reflexivity|destruct l; [reflexivity|exact I]]. }
  unfold node_of. cbv zeta. rewrite Ew, El, Eh, (w_edges a a' dk s R), (w_bottoms a a' dk s i R). rigid_parts R.
  rewrite (w_shift (a_left a) _ (a_w a) _ _ _ Hol Hor), (w_shift (a_top a) _ (a_h a) _ _ _ Hot Hob).
  rewrite (w_len0 (or0 (a_h a)) _ _ Hmt), (w_border (or0 (a_w a)) _ _ Hbt), (w_border (or0 (a_h a)) _ _ Hbr), (w_border (or0 (a_w a)) _ _ Hbb), (w_border (or0 (a_h a)) _ _ Hbl).
  rewrite (w_len (or0 (a_w a)) _ _ Hpt), (w_len (or0 (a_h a)) _ _ Hpr), (w_len (or0 (a_w a)) _ _ Hpb), (w_len (or0 (a_h a)) _ _ Hpl). reflexivity.
Qed.
Lemma rigid_same (n : node) : rigid_doc sty n -> forall a a', a_w a' = a_w a -> format sty d' a' n = format sty d a n.
Proof.
  induction n as [s i b ks IH] using node_ind'. intros Rn a a' Ha. inversion Rn as [s1 i1 b1 ks1 R Ri Rk]; subst. rewrite !format_split. destruct (st_display (sty s)) as [dk|]; [|reflexivity].
  pose proof (w_same_wmargins a a' dk (sty s) i R Ri Ha) as Ew. rewrite (w_same_node a a' dk (sty s) i _ _ R Ew). f_equal.
  assert (K : map (MoveProps.laid_kid sty d' (inner_of d' a' dk (sty s) i) (stacks_ sty dk ks)) ks = map (MoveProps.laid_kid sty d (inner_of d a dk (sty s) i) (stacks_ sty dk ks)) ks).
  { apply map_ext_in. intros k I. unfold MoveProps.laid_kid. destruct (_ && _); [reflexivity|]. apply IH; [exact I|apply Rk, I|]. cbn [inner_of a_w]. rewrite Ew. reflexivity. }
  unfold kids_of. rewrite K. reflexivity.
Qed.
Lemma floor_half x y : Z2Qc 2 * Z2Qc (Qfloor (this ((x + y) / Z2Qc 2))) < Z2Qc 2 * Z2Qc (Qfloor (this (x / Z2Qc 2))) + y + Z2Qc 2.
Proof.
  pose proof (Qfloor_le (this ((x + y) / Z2Qc 2))) as A. pose proof (Qlt_floor (this (x / Z2Qc 2))) as B. rewrite inject_Z_plus in B.
  set (f := Qfloor (this ((x + y) / Z2Qc 2))) in *. set (g := Qfloor (this (x / Z2Qc 2))) in *. clearbody f g.
  rewrite this_div, this_add, this_Z2Qc in A. rewrite this_div, this_Z2Qc in B. unfold Qclt. rewrite !this_add, !this_mul, !this_Z2Qc.
  assert (E2 : (inject_Z 2 == 2)%Q) by reflexivity. rewrite E2 in *. assert (E1 : (inject_Z 1 == 1)%Q) by reflexivity. rewrite E1 in *.
  assert (X1 : ((this x + this y) / 2 == (1 # 2) * (this x + this y))%Q) by field. rewrite X1 in A. assert (X2 : (this x / 2 == (1 # 2) * this x)%Q) by field. rewrite X2 in B. lra.
Qed.
(** A containing block [t] px wider. *)
Definition margins_widened (s : style) (o p : Qc * Qc * Qc) : Prop :=
  let '(x, l, r) := o in let '(x', l', r') := p in
  match st_width s, st_direction s, st_margin_left s, st_margin_right s with
  | Auto, _, _, _ => x' = x + t /\ l' = l /\ r' = r
  | Len _, LTR, Len _, _ => x' = x /\ l' = l /\ r' = r + t
  | Len _, RTL, _, Len _ => x' = x /\ l' = l + t /\ r' = r
  | Len _, _, Auto, Auto => exists y, x' = x /\ l' = l + y
      /\ (0 <= l -> 0 <= r -> 0 <= l' -> 0 <= r' -> r' = r + y /\ t < Z2Qc 2 * y + Z2Qc 2 /\ Z2Qc 2 * y < t + Z2Qc 2)
  | Len _, LTR, Auto, Len _ | Len _, RTL, Len _, Auto => exists y, x' = x /\ l' = l + y /\ r' = r + (t - y) /\ (0 <= t -> 0 <= y /\ y <= t)
  end.
Lemma w_widths W e s : rigid_style s = true -> margins_widened s (widths d W e s) (widths d' (W + t) e s).
Proof.
  intros R. unfold widths. destruct (st_width s) as [|u] eqn:E.
  - rigid_parts R. rewrite (w_len0 W (W + t) _ Hml), (w_len0 W (W + t) _ Hmr). unfold margins_widened. rewrite E. repeat split. ring.
  - rewrite (w_limited s W (W + t) u R E). rigid_parts R. rewrite (w_len0 W (W + t) _ Hml), (w_len0 W (W + t) _ Hmr). unfold margins_widened. rewrite E.
    set (x := limited_width d W s u). clearbody x. set (l := len0 d W (st_margin_left s)). set (r := len0 d W (st_margin_right s)).
    assert (Zl : st_margin_left s = Auto -> l = 0) by (unfold l; intros ->; reflexivity). assert (Zr : st_margin_right s = Auto -> r = 0) by (unfold r; intros ->; reflexivity). clearbody l r.
    destruct (qc_ltb_spec W (e + x + l + r)) as [C|C], (qc_ltb_spec (W + t) (e + x + l + r)) as [C'|C']; try apply Qcnot_lt_le in C; try apply Qcnot_lt_le in C'.
    all: destruct (st_direction s), (st_margin_left s) as [|ul], (st_margin_right s) as [|ur]; try specialize (Zl eq_refl); try specialize (Zr eq_refl); subst;
      try (split; [reflexivity|]; split; [try reflexivity; ring|try reflexivity; ring]).
    all: match goal with |- exists y, _ = _ /\ ?l' = ?l + y /\ _ => exists (l' - l); split; [reflexivity|]; split; [ring|] end.
    all: try (split; [ring|]; intros; split; qclra).
    all: try (intros; exfalso; qclra).
    all: intros _ _ _ _; split; [ring|]; pose proof (floor_half (W - e - x) t) as F1; pose proof (floor_half (W - e - x + t) (- t)) as F2;
      replace (W - e - x + t + - t) with (W - e - x) in F2 by ring; replace (W + t - e - x) with (W - e - x + t) by ring;
      set (f := Z2Qc (Qfloor (this ((W - e - x) / Z2Qc 2)))) in *; set (g := Z2Qc (Qfloor (this ((W - e - x + t) / Z2Qc 2)))) in *; clearbody f g; clear -F1 F2.
    all: split; unfold Qclt in *; repeat rewrite ?this_add, ?this_mul, ?this_sub, ?this_opp, ?this_Z2Qc in *; unfold inject_Z in *; lra.
Qed.
Lemma upright_facts u v : upright v = upright u -> u_mt v = u_mt u /\ u_cb v = u_cb u /\ u_ct v = u_ct u /\ border_height v = border_height u /\ border_bottom v = border_bottom u.
Proof.
  intros H. unfold upright in H. injection H as E1 E2 E3 E4 E5 E6 E7 E8 E9 E10 E11 E12 E13 E14. unfold border_height, border_bottom. rewrite E1, E3, E5, E7, E9, E11, E12, E13, E14. repeat split.
Qed.
Lemma w_down r s u v : widened t s u v -> widened t s (move_down r u) (move_down r v).
Proof.
  intros [H1 H2]. split.
  - destruct u as [a1 a2 a3 a4 a5 a6 a7 a8 a9 a10 a11 a12 a13 a14 a15 a16 a17 a18], v as [b1 b2 b3 b4 b5 b6 b7 b8 b9 b10 b11 b12 b13 b14 b15 b16 b17 b18].
    unfold upright in *. cbn [move_down u_mt u_mb u_bt u_br u_bb u_bl u_pt u_pr u_pb u_pl u_h u_top u_ct u_cb] in *. injection H1 as -> -> -> -> -> -> -> -> -> -> -> -> -> ->. reflexivity.
  - destruct u, v. exact H2.
Qed.
Lemma w_node_used n u us v vs : widened_tree sty t n (UNode u us) (UNode v vs) -> widened t (sty (n_style n)) u v.
Proof. intros H. inversion H; subst; assumption. Qed.
Lemma w_tree_down n u us v vs r : widened_tree sty t n (UNode u us) (UNode v vs) -> widened_tree sty t n (UNode (move_down r u) us) (UNode (move_down r v) vs).
Proof. intros H. inversion H; subst; [apply widened_filling|apply widened_other]; try assumption; apply w_down; assumption. Qed.
Lemma w_tree_kinds n k k' : widened_tree sty t n k k' -> (exists u us v vs, k = UNode u us /\ k' = UNode v vs) \/ (k = UHidden /\ k' = UHidden) \/ (k = USkipped /\ k' = USkipped).
Proof. intros H. inversion H; subst; [left; do 4 eexists; split; reflexivity..|right; left; split; reflexivity|right; right; split; reflexivity]. Qed.
Lemma w_stack ks l l' : all3 (widened_tree sty t) ks l l' -> forall top prev, all3 (widened_tree sty t) ks (stack top prev l) (stack top prev l').
Proof.
  induction 1 as [|n x x' ks l l' Hx Hl IH]; intros top prev; [constructor|]. destruct (w_tree_kinds _ _ _ Hx) as [(u & us & v & vs & -> & ->)|[[-> ->]|[-> ->]]]; cbn [stack]; [|constructor; [exact Hx|apply IH]..].
  destruct (upright_facts _ _ (proj1 (w_node_used _ _ _ _ _ Hx))) as (-> & -> & _ & -> & _). constructor; [apply w_tree_down, Hx|apply IH].
Qed.
Lemma w_last ks l l' : all3 (widened_tree sty t) ks l l' -> (last_kid l = None /\ last_kid l' = None) \/ exists u v, last_kid l = Some u /\ last_kid l' = Some v /\ border_bottom v = border_bottom u /\ u_cb v = u_cb u.
Proof.
  intros H. induction H as [|n x x' ks l l' Hx Hl IH]; [left; split; reflexivity|right]. destruct Hl as [|n2 y y' ks l l' Hy Hl].
  - unfold last_kid. cbn [rev app]. destruct (w_tree_kinds _ _ _ Hx) as [(u & us & v & vs & -> & ->)|[[-> ->]|[-> ->]]]; do 2 eexists; (split; [reflexivity|]); (split; [reflexivity|]); [|split; reflexivity..].
    destruct (upright_facts _ _ (proj1 (w_node_used _ _ _ _ _ Hx))) as (_ & -> & _ & _ & ->). split; reflexivity.
  - assert (C : forall z (w : utree) q, last_kid (z :: w :: q) = last_kid (w :: q)) by (intros z w q; exact (last_kid_app [z] w q)). rewrite !C.
    destruct IH as [[IH _]|IH]; [|exact IH]. exfalso. unfold last_kid in IH. cbn [rev] in IH. destruct (rev l) as [|[]]; cbn in IH; try discriminate. destruct y; discriminate.
Qed.
Lemma rigid_wide (n : node) : rigid_doc sty n -> forall a a', or0 (a_w a') = or0 (a_w a) + t -> widened_tree sty t n (format sty d a n) (format sty d' a' n).
Proof.
  induction n as [s i b ks IH] using node_ind'. intros Rn a a' Ha. inversion Rn as [s1 i1 b1 ks1 R Ri Rk]; subst. rewrite !format_split. destruct (st_display (sty s)) as [dk|] eqn:Dk; [|constructor].
  assert (B : block_level (sty s) = negb (isinl dk)).
  { pose proof R as R0. rigid_parts R0. unfold plain_display in Hpd. unfold block_level in *. rewrite Dk in *. destruct dk; try discriminate; reflexivity. }
  destruct (isinl dk) eqn:D.
  - (* inline *)
    pose proof (w_inline_wmargins a a' dk (sty s) i R Ri D) as Ew. rewrite (w_same_node a a' dk (sty s) i _ _ R Ew).
    assert (K : kids_of sty d' (inner_of d' a' dk (sty s) i) (stacks_ sty dk ks) ks = kids_of sty d (inner_of d a dk (sty s) i) (stacks_ sty dk ks) ks).
    { assert (Km : map (MoveProps.laid_kid sty d' (inner_of d' a' dk (sty s) i) (stacks_ sty dk ks)) ks = map (MoveProps.laid_kid sty d (inner_of d a dk (sty s) i) (stacks_ sty dk ks)) ks); [|unfold kids_of; rewrite Km; reflexivity].
      apply map_ext_in; intros k I; unfold MoveProps.laid_kid; (destruct (_ && _); [reflexivity|]); (apply rigid_same; [apply Rk, I|]); cbn [inner_of a_w]; rewrite Ew; reflexivity. }
    rewrite K. unfold node_of at 1 2. cbv zeta. apply widened_other; [left; exact B|]. split; [reflexivity|]. rewrite B. reflexivity.
  - (* blocks *)
    cbn [negb] in B.
    set (st := stacks_ sty dk ks). set (inner := inner_of d a dk (sty s) i). set (inner' := inner_of d' a' dk (sty s) i).
    pose proof (w_widths (or0 (a_w a)) (hedges d (or0 (a_h a)) (sty s)) (sty s) R) as Wd.
    assert (E1 : wmargins d a dk (sty s) i = let '(x, y, z) := widths d (or0 (a_w a)) (hedges d (or0 (a_h a)) (sty s)) (sty s) in (Some x, y, z)) by (unfold wmargins; rewrite D; reflexivity).
    assert (E2 : wmargins d' a' dk (sty s) i = let '(x, y, z) := widths d' (or0 (a_w a) + t) (hedges d (or0 (a_h a)) (sty s)) (sty s) in (Some x, y, z)) by (unfold wmargins; rewrite D, Ha, (w_hedges (sty s) (or0 (a_h a)) _ R); reflexivity).
    destruct (widths d (or0 (a_w a)) (hedges d (or0 (a_h a)) (sty s)) (sty s)) as [[x l] r] eqn:X1. destruct (widths d' (or0 (a_w a) + t) (hedges d (or0 (a_h a)) (sty s)) (sty s)) as [[x' l'] r'] eqn:X2. clear X1 X2.
    (* the node itself, when the children have the same last one *)
    assert (Nd : forall kk kk', ((last_kid kk = None /\ last_kid kk' = None) \/ exists u v, last_kid kk = Some u /\ last_kid kk' = Some v /\ border_bottom v = border_bottom u /\ u_cb v = u_cb u) ->
      (if st then match kk' with UNode u _ :: _ => u_ct u | _ => 0%Z end else 0%Z) = (if st then match kk with UNode u _ :: _ => u_ct u | _ => 0%Z end else 0%Z) ->
      exists u v, node_of d a dk (sty s) i st kk = UNode u kk /\ node_of d' a' dk (sty s) i st kk' = UNode v kk' /\ widened t (sty s) u v).
    { intros kk kk' L F. unfold node_of. cbv zeta. do 2 eexists. split; [reflexivity|]. split; [reflexivity|].
      assert (Eh : hgt d' a' dk (sty s) i (last_kid kk') = hgt d a dk (sty s) i (last_kid kk)).
      { unfold hgt. rewrite D. f_equal. apply w_block_height; [exact R|]. destruct L as [[-> ->]|(u & v & -> & -> & L & _)]; [exact I|exact L]. }
      rewrite Eh, F, (w_edges a a' dk (sty s) R), (w_bottoms a a' dk (sty s) i R). unfold lefts. rewrite D. cbn [andb]. rewrite E1, E2. cbn [fst snd]. rigid_parts R.
      rewrite (w_shift (a_left a) _ (a_w a) _ _ _ Hol Hor), (w_shift (a_top a) _ (a_h a) _ _ _ Hot Hob).
      rewrite (w_len0 (or0 (a_h a)) _ _ Hmt), (w_border (or0 (a_w a)) _ _ Hbt), (w_border (or0 (a_h a)) _ _ Hbr), (w_border (or0 (a_w a)) _ _ Hbb), (w_border (or0 (a_h a)) _ _ Hbl).
      rewrite (w_len (or0 (a_w a)) _ _ Hpt), (w_len (or0 (a_h a)) _ _ Hpr), (w_len (or0 (a_w a)) _ _ Hpb), (w_len (or0 (a_h a)) _ _ Hpl).
      assert (Ec : forall q, match st_height (sty s), last_kid kk' with Auto, Some k => Z.max q (u_cb k) | _, _ => q end = match st_height (sty s), last_kid kk with Auto, Some k => Z.max q (u_cb k) | _, _ => q end).
      { intros q. destruct (st_height (sty s)); [|reflexivity]. destruct L as [[-> ->]|(u & v & -> & -> & _ & ->)]; reflexivity. }
      rewrite Ec. split; [reflexivity|]. rewrite B. unfold across. cbn [u_w u_left u_ml u_mr or0].
      set (bl := border_len _ _ _). set (pl := len _ _ _). set (dx := if isrel (sty s) then _ else 0). clearbody bl pl dx. unfold margins_widened in Wd.
      destruct (st_width (sty s)), (st_direction (sty s)), (st_margin_left (sty s)), (st_margin_right (sty s)).
      all: try (destruct Wd as (-> & -> & ->); reflexivity).
      all: try (destruct Wd as (-> & -> & ->); replace (l + bl + pl + dx + t) with (l + t + bl + pl + dx) by ring; reflexivity).
      all: destruct Wd as (y & -> & -> & Wd); exists y; (split; [reflexivity|]); (split; [ring|]); (split; [reflexivity|]); exact Wd. }
    destruct (st_width (sty s)) as [|wu] eqn:Ws.
    + (* fills *)
      assert (Fk : all3 (widened_tree sty t) ks (map (MoveProps.laid_kid sty d inner st) ks) (map (MoveProps.laid_kid sty d' inner' st) ks)).
      { assert (Iw : or0 (a_w inner') = or0 (a_w inner) + t).
        { unfold inner, inner', inner_of. cbn [a_w]. rewrite E1, E2. cbn [fst or0]. unfold margins_widened in Wd. rewrite Ws in Wd. apply Wd. }
        clearbody st inner inner'. clear -IH Rk Iw. induction ks as [|x l IHl]; [constructor|]. cbn [map]. constructor; [|apply IHl; [intros z Iz; apply IH; right; exact Iz|intros z Iz; apply Rk; right; exact Iz]].
        unfold MoveProps.laid_kid. destruct (_ && _); [constructor|]. apply IH; [left; reflexivity|apply Rk; left; reflexivity|exact Iw]. }
      assert (Fs : all3 (widened_tree sty t) ks (kids_of sty d inner st ks) (kids_of sty d' inner' st ks)).
      { unfold kids_of. destruct st; [apply w_stack|]; exact Fk. }
      destruct (Nd (kids_of sty d inner st ks) (kids_of sty d' inner' st ks)) as (u & v & -> & -> & W).
      * exact (w_last _ _ _ Fs).
      * destruct st; [|reflexivity]. destruct Fs as [|n0 y y' ? ? ? Hy _]; [reflexivity|]. destruct (w_tree_kinds _ _ _ Hy) as [(u & us & v & vs & -> & ->)|[[-> ->]|[-> ->]]]; try reflexivity.
        apply (upright_facts _ _ (proj1 (w_node_used _ _ _ _ _ Hy))).
      * apply widened_filling; assumption.
    + (* has a width *)
      assert (K : kids_of sty d' inner' st ks = kids_of sty d inner st ks).
      { assert (Iw : a_w inner' = a_w inner).
        { unfold inner, inner', inner_of. cbn [a_w]. rewrite E1, E2. cbn [fst]. f_equal. unfold margins_widened in Wd. rewrite Ws in Wd.
          destruct (st_direction (sty s)), (st_margin_left (sty s)), (st_margin_right (sty s)); try (destruct Wd as (-> & _); reflexivity); destruct Wd as (y & -> & _); reflexivity. }
        assert (Km : map (MoveProps.laid_kid sty d' inner' st) ks = map (MoveProps.laid_kid sty d inner st) ks); [|unfold kids_of; rewrite Km; reflexivity].
        apply map_ext_in; intros k I; unfold MoveProps.laid_kid; (destruct (_ && _); [reflexivity|]); (apply rigid_same; [apply Rk, I|exact Iw]). }
      rewrite K. destruct (Nd (kids_of sty d inner st ks) (kids_of sty d inner st ks)) as (u & v & -> & -> & W).
      * destruct (last_kid (kids_of sty d inner st ks)) as [u|]; [right; exists u, u; repeat split|left; split; reflexivity].
      * reflexivity.
      * apply widened_other; [right; rewrite Ws; discriminate|exact W].
Qed.
(** C154. *)
Theorem C154_wider_display : forall h5 (n n' : node), history sty n -> rigid_doc sty n -> layout sty d h5 n = (n', Ok tt) ->
  exists m' k k', layout sty d' h5 n = (m', Ok tt) /\ shows n' k /\ shows m' k' /\ widened_tree sty t n k k'.
Proof.
  intros h5 n n' Hn R Ln. destruct (C124_any_display sty d h5 d' h5 n n' Hn Ln) as [m' Lm]. exists m', (page sty d h5 n), (page sty d' h5 n). split; [exact Lm|].
  split; [apply (C122_any_history sty); assumption|]. split; [apply (C122_any_history sty); assumption|].
  rewrite !page_draft. unfold draft. set (a := mkArea (Some (nval (disp_width d))) (Some (nval (disp_height d))) 0 0 None). set (a' := mkArea (Some (nval (disp_width d'))) (Some (nval (disp_height d'))) 0 0 None).
  pose proof (rigid_wide n R a a' (proj1 Hd)) as F. destruct (w_tree_kinds _ _ _ F) as [(u & us & v & vs & E1 & E2)|[[-> ->]|[-> ->]]]; [|constructor..]. rewrite E1, E2 in *. cbn [finished].
  assert (Cm : forall s, widened t s u v -> widened t s (completed h5 d u) (completed h5 d' v)).
  { intros s [H1 H2]. destruct Hd as (_ & Eh & _). clear -H1 H2 Eh.
    destruct u as [a1 a2 a3 a4 a5 a6 a7 a8 a9 a10 a11 a12 a13 a14 a15 a16 a17 a18], v as [b1 b2 b3 b4 b5 b6 b7 b8 b9 b10 b11 b12 b13 b14 b15 b16 b17 b18].
    unfold upright, completed in *. split; [|exact H2]. unfold upright. cbn [u_mt u_mb u_bt u_br u_bb u_bl u_pt u_pr u_pb u_pl u_h u_top u_ct u_cb] in *. injection H1 as -> -> -> -> -> -> -> -> -> -> -> -> -> ->. rewrite Eh. reflexivity. }
  inversion F; subst; [apply widened_filling|apply widened_other]; try assumption; apply Cm; assumption.
Qed.
End W.
Print Assumptions C154_wider_display.

(** ** Examples *)
Open Scope Z_scope.
(** Other vertical declarations, the same lefts and widths. *)
Definition adoc (v w : Z) : doc :=
  el (s_margin (Len (pxu v)) (Len (pxu 5)) (Len (pxu v)) (Len (pxu 7)) block_style)
    [el (s_size (Len (pctu 40)) (Len (pxu v)) (s_margin (Len (pctu v)) Auto (Len (pxu v)) (Len (pxu w)) block_style)) [];
     el (s_padding (pxu 3) (pxu 4) (pxu 5) (pxu w) (s_offsets (OLen (pxu v)) OAuto OAuto (OLen (pxu w)) (s_position PRelative block_style)))
       [el (hpx v block_style) []]].
Ltac alike := repeat match goal with |- Forall2 _ (_ :: _) _ => constructor | |- Forall2 _ [] _ => constructor | |- alike_across _ _ _ => apply alike_across_node | |- alike_along _ _ _ => apply alike_along_node end;
  try (unfold same_across, same_along; repeat split; reflexivity); repeat split; intros; discriminate.
Example C153_example : history idsty (adoc 10 30) /\ history idsty (adoc 20 30) /\ history idsty (adoc 10 50) /\ alike_across idsty (adoc 10 30) (adoc 20 30) /\ alike_along idsty (adoc 10 30) (adoc 10 50)
  /\ layout idsty screen false (adoc 10 30) = (out false (adoc 10 30), Ok tt) /\ layout idsty screen true (adoc 20 30) = (out true (adoc 20 30), Ok tt) /\ layout idsty screen false (adoc 10 50) = (out false (adoc 10 50), Ok tt)
  /\ (lefts_of (out false (adoc 10 30)), tops (out false (adoc 10 30))) = ([30; 60]%Q, [0; 36]%Q)
  /\ (lefts_of (out true (adoc 20 30)), tops (out true (adoc 20 30))) = ([30; 60]%Q, [0; 66]%Q)
  /\ (lefts_of (out false (adoc 10 50)), tops (out false (adoc 10 50))) = ([50; 100]%Q, [0; 36]%Q).
Proof.
  do 3 (split; [apply history_new; solve_new|]). split; [unfold adoc, el; alike|]. split; [unfold adoc, el; alike|].
  do 3 (split; [apply ok_layout; vm_compute; reflexivity|]). do 2 (split; [vm_compute; reflexivity|]). vm_compute. reflexivity.
Qed.
(** 101 px more: one block fills, the others stay at the left, at the right and in the middle. *)
Definition wdoc : doc :=
  el (s_padding (pxu 3) (pxu 4) (pxu 5) (pxu 6) block_style)
    [el (s_margin (Len (pxu 1)) (Len (pxu 5)) (Len (pxu 1)) (Len (pxu 7)) block_style) [];
     el (s_size (Len (pxu 70)) Auto (s_margin (Len (pxu 2)) Auto (Len (pxu 3)) (Len (pxu 1)) block_style)) [el block_style []];
     el (s_direction RTL (s_size (Len (pxu 70)) Auto (s_margin (Len (pxu 2)) (Len (pxu 9)) (Len (pxu 3)) Auto block_style))) [];
     el (s_size (Len (pxu 70)) Auto (s_margin Auto Auto Auto Auto block_style)) []].
Definition wide_screen : display_t := mkDisp (NI 96) (NI 1101) (NI 600) (fun k => match k with Thin => NI 1 | Medium => NI 3 | Thick => NI 5 end).
Definition widths_of (n : doc) : list (option Q) := map (fun k => lq (content_width (bx k))) (n_kids n).
Example C154_example : wider_display (Z2Qc 101) screen wide_screen /\ history idsty wdoc /\ rigid_doc idsty wdoc
  /\ exists n' m', layout idsty screen false wdoc = (n', Ok tt) /\ layout idsty wide_screen false wdoc = (m', Ok tt)
  /\ (lefts_of n', widths_of n') = ([7; 1; 911; 460]%Q, [Some 978; Some 70; Some 70; Some 70]%Q)
  /\ (lefts_of m', widths_of m') = ([7; 1; 1012; 510]%Q, [Some 1079; Some 70; Some 70; Some 70]%Q).
Proof.
  split; [split; [apply Qc_is_canon; reflexivity|]; split; [reflexivity|]; split; [reflexivity|]; intros []; reflexivity|].
  split; [apply history_new; solve_new|]. split.
  { unfold wdoc, el. repeat match goal with |- rigid_doc _ (Node _ _ _ _) => apply rigid_node; [reflexivity|reflexivity|intros k Ik; repeat destruct Ik as [<- |Ik]; try contradiction] end. }
  do 2 eexists. split; [vm_compute; reflexivity|]. split; [vm_compute; reflexivity|]. split; vm_compute; reflexivity.
Qed.
