(** * C199: horizontal margins of elements with a declared width *)
From Coq Require Import ZArith QArith Qcanon Qround Lia Lqa Bool List.
From Verif Require Import PyNum NumFacts Units BoxModel BoxSpec BoxFacts Engine EngineSpec EngineExamples
  RefLayout RefFacts RefProps OkSpec OkFacts HistSpec HistProps MoveSpec MoveProps LocalProps PushSpec PushProps PixelSpec OkProps SymProps AxisSpec AxisProps TradeSpec AsideSpec.
Import ListNotations.
Open Scope Qc_scope.

Section T.
Context {S : Type} (sty : S -> style) (d : display_t).
Notation node := (node S).
(** Containing blocks that differ in nothing but where they start. *)
Definition aside_area (a a' : area) : Prop := a_w a' = a_w a /\ a_h a' = a_h a /\ a_top a' = a_top a /\ a_spec_h a' = a_spec_h a.
Lemma s_sides s t P : sideways s t -> hedges d P t = hedges d P s.
Proof. intros (_ & _ & _ & _ & B & Pd & _). injection B as _ B1 _ B2. injection Pd as _ P1 _ P2. unfold hedges. rewrite B1, B2, P1, P2. reflexivity. Qed.
Lemma widths_declared W e s u : st_width s = Len u -> fst (fst (widths d W e s)) = limited_width d W s u.
Proof. intros E. unfold widths. rewrite E. destruct (qc_ltb _ _), (st_direction s), (st_margin_left s), (st_margin_right s); reflexivity. Qed.
Lemma s_width a a' dk s t i : st_display s = Some dk -> sideways s t -> aside_area a a' ->
  fst (fst (wmargins d a' dk t i)) = fst (fst (wmargins d a dk s i))
  /\ (isinl dk = true -> snd (fst (wmargins d a' dk t i)) = snd (fst (wmargins d a dk s i))).
Proof.
  intros Dk H (Aw & Ah & _). pose proof (s_sides s t (or0 (a_h a)) H) as Eh. destruct H as (E1 & E2 & E3 & _ & _ & _ & _ & M & _).
  injection E2 as Ew En Ex. injection E3 as E3 _ _. unfold wmargins. rewrite Aw, Ah, Eh. destruct (isinl dk) eqn:Di.
  - assert (dk = DInline) as -> by (destruct dk; try discriminate; reflexivity). destruct M as [M|[M _]]; [|congruence]. injection M as Ml Mr. rewrite <- Ml, <- Mr.
    unfold image_width. rewrite <- Ew, <- E3. split; reflexivity.
  - split; [|discriminate]. assert (X : fst (fst (widths d (or0 (a_w a)) (hedges d (or0 (a_h a)) s) t)) = fst (fst (widths d (or0 (a_w a)) (hedges d (or0 (a_h a)) s) s))).
    { destruct (st_width s) as [|u] eqn:W.
      - destruct M as [M|[_ M]]; [|congruence]. injection M as Ml Mr. unfold widths. rewrite <- Ew, W, <- Ml, <- Mr. reflexivity.
      - rewrite (widths_declared _ _ s u W), (widths_declared _ _ t u (eq_sym Ew)). unfold limited_width. rewrite <- En, <- Ex. reflexivity. }
    destruct (widths d _ _ t) as [[x y] z], (widths d _ _ s) as [[x' y'] z']. cbn in *. congruence.
Qed.
Lemma s_lefts a a' dk s t i : st_display s = Some dk -> sideways s t -> aside_area a a' ->
  lefts d a' dk t i - snd (fst (wmargins d a' dk t i)) = lefts d a dk s i - snd (fst (wmargins d a dk s i)).
Proof.
  intros Dk H Ha. pose proof (proj2 (s_width a a' dk s t i Dk H Ha)) as M. destruct Ha as (Aw & Ah & _). destruct H as (_ & _ & _ & _ & B & Pd & _). injection B as _ _ _ B. injection Pd as _ _ _ P.
  unfold lefts. destruct (isinl dk && negb (s_replaced i)) eqn:X.
  - apply andb_true_iff in X. rewrite (M (proj1 X)). reflexivity.
  - rewrite Ah, B, P. ring.
Qed.
Lemma s_edges a a' dk s t : sideways s t -> aside_area a a' -> edges d a' dk t = edges d a dk s.
Proof.
  intros (_ & _ & _ & M & B & P & _) (Aw & Ah & _). injection M as M _. injection B as B _ _ _. injection P as P _ _ _. unfold edges. rewrite Aw, Ah, M, B, P. reflexivity.
Qed.
Lemma s_bottoms a a' dk s t i : sideways s t -> aside_area a a' -> bottoms d a' dk t i = bottoms d a dk s i.
Proof. intros (_ & _ & _ & M & _) (_ & Ah & _). injection M as _ M. unfold bottoms. rewrite Ah, <- M. reflexivity. Qed.
Lemma ba_inv u v : but_aside u = but_aside v ->
  u_mt u = u_mt v /\ u_bt u = u_bt v /\ u_br u = u_br v /\ u_bb u = u_bb v /\ u_bl u = u_bl v /\ u_pt u = u_pt v /\ u_pr u = u_pr v /\ u_pb u = u_pb v /\ u_pl u = u_pl v
  /\ u_left u - u_ml u = u_left v - u_ml v /\ u_top u = u_top v /\ u_mb u = u_mb v /\ u_w u = u_w v /\ u_h u = u_h v /\ u_ct u = u_ct v /\ u_cb u = u_cb v.
Proof.
  intros H. split; [exact (f_equal (fun p => nth 0 (fst (fst p)) 0) H)|]. split; [exact (f_equal (fun p => nth 1 (fst (fst p)) 0) H)|]. split; [exact (f_equal (fun p => nth 2 (fst (fst p)) 0) H)|].
  split; [exact (f_equal (fun p => nth 3 (fst (fst p)) 0) H)|]. split; [exact (f_equal (fun p => nth 4 (fst (fst p)) 0) H)|]. split; [exact (f_equal (fun p => nth 5 (fst (fst p)) 0) H)|].
  split; [exact (f_equal (fun p => nth 6 (fst (fst p)) 0) H)|]. split; [exact (f_equal (fun p => nth 7 (fst (fst p)) 0) H)|]. split; [exact (f_equal (fun p => nth 8 (fst (fst p)) 0) H)|].
  split; [exact (f_equal (fun p => nth 9 (fst (fst p)) 0) H)|]. split; [exact (f_equal (fun p => nth 10 (fst (fst p)) 0) H)|]. split; [exact (f_equal (fun p => nth 0 (snd (fst p)) None) H)|].
  split; [exact (f_equal (fun p => nth 1 (snd (fst p)) None) H)|]. split; [exact (f_equal (fun p => nth 2 (snd (fst p)) None) H)|]. split; [exact (f_equal (fun p => nth 0 (snd p) 0%Z) H)|exact (f_equal (fun p => nth 1 (snd p) 0%Z) H)].
Qed.
Ltac parts H := apply ba_inv in H; destruct H as (E1 & E2 & E3 & E4 & E5 & E6 & E7 & E8 & E9 & E10 & E11 & E12 & E13 & E14 & E15 & E16).
Lemma s_bb u v : but_aside u = but_aside v -> border_height v = border_height u /\ border_bottom v = border_bottom u.
Proof. intros H. parts H. unfold border_height, border_bottom. rewrite E2, E4, E6, E8, E11, E14. split; reflexivity. Qed.
Lemma s_hgt a a' dk s t i l l' : st_display s = Some dk -> sideways s t -> aside_area a a' ->
  match l, l' with None, None => True | Some u, Some v => border_bottom v = border_bottom u | _, _ => False end ->
  hgt d a' dk t i l' = hgt d a dk s i l.
Proof.
  intros Dk H Ha L. pose proof (proj1 (s_width a a' dk s t i Dk H Ha)) as Ew. destruct Ha as (_ & Ah & _ & As). destruct H as (_ & E0 & E & _). injection E as E1 E2 E3. injection E0 as E0 _ _. unfold hgt. rewrite Ew, Ah, As. destruct (isinl dk).
  - destruct (s_replaced i); [|reflexivity]. unfold image_height. rewrite <- E1, <- E0. reflexivity.
  - f_equal. unfold used_block_height, spec_height. rewrite <- E1, <- E2, <- E3. destruct (st_height s); [|reflexivity]. destruct l, l'; try contradiction; [exact L|reflexivity].
Qed.
Lemma s_down r u v : but_aside u = but_aside v -> but_aside (move_down r u) = but_aside (move_down r v).
Proof.
  intros H. parts H. destruct u as [a1 a2 a3 a4 a5 a6 a7 a8 a9 a10 a11 a12 a13 a14 a15 a16 a17 a18], v as [b1 b2 b3 b4 b5 b6 b7 b8 b9 b10 b11 b12 b13 b14 b15 b16 b17 b18]. unfold but_aside, move_down. cbn [u_mt u_mr u_mb u_ml u_bt u_br u_bb u_bl u_pt u_pr u_pb u_pl u_w u_h u_left u_top u_ct u_cb] in *.
  rewrite E10. subst. reflexivity.
Qed.
Lemma s_stack l l' : Forall2 (same_on but_aside) l l' -> forall top prev, Forall2 (same_on but_aside) (stack top prev l) (stack top prev l').
Proof.
  induction 1 as [|x x' l l' Hx Hl IH]; intros top prev; [constructor|]. destruct Hx as [u v us vs Hu Hs| |]; cbn [stack]; [|constructor; [constructor|apply IH]..].
  assert (Em : u_mt v = u_mt u) by (apply ba_inv in Hu; symmetry; apply Hu). assert (Ec : u_cb v = u_cb u) by (apply ba_inv in Hu; symmetry; apply Hu).
  rewrite Em, Ec, (proj1 (s_bb _ _ Hu)). constructor; [constructor; [apply s_down, Hu|exact Hs]|apply IH].
Qed.
Lemma s_block n m : everywhere sty sideways n m -> block_level (sty (n_style m)) = block_level (sty (n_style n)).
Proof. intros H. inversion H as [s s' i b b' ks ks' Z]; subst. cbn [n_style]. destruct Z as (E & _). injection E as E _. unfold block_level. rewrite E. reflexivity. Qed.
Lemma s_shift p p' e x y : x <> OInherit -> y <> OInherit -> shift d p e x y = shift d p' e x y.
Proof. intros X Y. destruct x, y; try contradiction; reflexivity. Qed.
Lemma format_aside (n : node) : forall m, everywhere sty sideways n m -> forall a a', aside_area a a' -> same_on but_aside (format sty d a n) (format sty d a' m).
Proof.
  induction n as [s i b ks IH] using node_ind'. intros m Hm a a' Ha. inversion Hm as [s1 s' i1 b1 b' ks1 ks' Z Zk]; subst. rewrite !format_split.
  pose proof Z as (E & _ & Eh & Em & Eb & Epd & Eo & _ & Nl & Nr). injection E as Ed Ep. injection Eo as O1 O2 O3 O4. injection Eh as Eh _ _. injection Em as Em _. injection Eb as B1 B2 B3 B4. injection Epd as P1 P2 P3 P4.
  rewrite <- Ed. destruct (st_display (sty s)) as [dk|] eqn:Dk; [|constructor].
  assert (St : stacks_ sty dk ks' = stacks_ sty dk ks).
  { unfold stacks_. destruct dk; try reflexivity; clear -Zk; (induction Zk as [|x y l l' Hx _ IH']; [reflexivity|]; cbn [existsb]; rewrite (s_block _ _ Hx), IH'; reflexivity). }
  rewrite St. set (st := stacks_ sty dk ks). assert (Rl : isrel (sty s') = isrel (sty s)) by (unfold isrel; rewrite Ep; reflexivity).
  assert (Hi : aside_area (inner_of d a dk (sty s) i) (inner_of d a' dk (sty s') i)).
  { unfold inner_of, aside_area. cbn [a_w a_h a_top a_spec_h]. rewrite Rl, (s_edges a a' dk _ _ Z Ha), (proj1 (s_width a a' dk _ _ i Dk Z Ha)), (s_hgt a a' dk _ _ i (Some used0) (Some used0) Dk Z Ha eq_refl), <- Eh. repeat split. }
  set (inner := inner_of d a dk (sty s) i) in *. set (inner' := inner_of d a' dk (sty s') i) in *.
  assert (Fk : Forall2 (same_on but_aside) (map (MoveProps.laid_kid sty d inner st) ks) (map (MoveProps.laid_kid sty d inner' st) ks')).
  { clearbody st inner inner'. clear -IH Zk Hi. induction Zk as [|x y l l' Hx Hl IHl]; [constructor|]. cbn [map]. constructor; [|apply IHl; intros z Iz; apply IH; right; exact Iz].
    unfold MoveProps.laid_kid. rewrite (s_block _ _ Hx). destruct (_ && _); [constructor|]. apply IH; [left; reflexivity|assumption..]. }
  assert (Fs : Forall2 (same_on but_aside) (kids_of sty d inner st ks) (kids_of sty d inner' st ks')).
  { unfold kids_of. destruct st; [apply s_stack|]; exact Fk. }
  set (kk := kids_of sty d inner st ks) in *. set (kk' := kids_of sty d inner' st ks') in *. pose proof (on_last _ _ _ Fs) as L.
  assert (Ek : hgt d a' dk (sty s') i (last_kid kk') = hgt d a dk (sty s) i (last_kid kk)).
  { apply s_hgt; [assumption..|]. destruct L as [[-> ->]|(u & v & -> & -> & L)]; [exact I|apply (s_bb _ _ L)]. }
  assert (E1 : (if st then match kk' with UNode u _ :: _ => u_ct u | _ => 0%Z end else 0%Z) = (if st then match kk with UNode u _ :: _ => u_ct u | _ => 0%Z end else 0%Z)).
  { destruct st; [|reflexivity]. destruct Fs as [|x x' r r' Hx _]; [reflexivity|]. destruct Hx as [u v us vs Hu Hs| |]; try reflexivity. apply ba_inv in Hu. symmetry. apply Hu. }
  unfold node_of. cbv zeta. constructor; [|exact Fs]. unfold but_aside. cbn [u_mt u_mr u_mb u_ml u_bt u_br u_bb u_bl u_pt u_pr u_pb u_pl u_w u_h u_left u_top u_ct u_cb].
  pose proof (s_lefts a a' dk _ _ i Dk Z Ha) as El.
  rewrite (s_edges a a' dk _ _ Z Ha), (s_bottoms a a' dk _ _ i Z Ha), (proj1 (s_width a a' dk _ _ i Dk Z Ha)), Ek, E1, Rl, <- O1, <- O2, <- O3, <- O4, <- Em, <- Eh, <- B1, <- B2, <- B3, <- B4, <- P1, <- P2, <- P3, <- P4.
  destruct Ha as (Aw & Ah & At & As). rewrite Aw, Ah, At, (s_shift (a_left a') (a_left a) _ _ _ Nl Nr).
  set (dx := if isrel (sty s) then shift d (a_left a) (a_w a) (st_left (sty s)) (st_right (sty s)) else 0).
  assert (X : lefts d a dk (sty s) i + dx - snd (fst (wmargins d a dk (sty s) i)) = lefts d a' dk (sty s') i + dx - snd (fst (wmargins d a' dk (sty s') i))).
  { transitivity (lefts d a dk (sty s) i - snd (fst (wmargins d a dk (sty s) i)) + dx); [ring|]. rewrite <- El. ring. }
  rewrite X. f_equal. f_equal. f_equal. destruct (st_height (sty s)); [|reflexivity]. destruct L as [[-> ->]|(u & v & -> & -> & L)]; [reflexivity|].
  apply ba_inv in L. destruct L as (_ & _ & _ & _ & _ & _ & _ & _ & _ & _ & _ & _ & _ & _ & _ & ->). reflexivity.
Qed.
(** C199.  If two documents are the same except for the direction of elements and for the
    margins on the left and right of elements that are not inline and have a declared width,
    then all boxes have the same sizes, borders, paddings, vertical margins and vertical positions
    in both, and each is moved in its container by exactly the difference of its used left margins. *)
Theorem C199_only_sideways h5 (n m n' m' : node) : history sty n -> history sty m -> everywhere sty sideways n m ->
  layout sty d h5 n = (n', Ok tt) -> layout sty d h5 m = (m', Ok tt) ->
  exists t t', shows n' t /\ shows m' t' /\ same_on but_aside t t'.
Proof.
  intros Hn Hm Z Ln Lm. exists (page sty d h5 n), (page sty d h5 m).
  split; [apply (C122_any_history sty); assumption|]. split; [apply (C122_any_history sty); assumption|].
  rewrite !page_draft. unfold draft. set (a := mkArea (Some (nval (disp_width d))) (Some (nval (disp_height d))) 0 0 None).
  pose proof (format_aside n m Z a a ltac:(repeat split)) as F. destruct F as [u v us vs Hu Hs| |]; cbn [finished]; constructor; [|exact Hs].
  parts Hu.
  destruct u as [a1 a2 a3 a4 a5 a6 a7 a8 a9 a10 a11 a12 a13 a14 a15 a16 a17 a18], v as [b1 b2 b3 b4 b5 b6 b7 b8 b9 b10 b11 b12 b13 b14 b15 b16 b17 b18].
  unfold but_aside, completed in *. cbn [u_mt u_mr u_mb u_ml u_bt u_br u_bb u_bl u_pt u_pr u_pb u_pl u_w u_h u_left u_top u_ct u_cb] in *.
  rewrite E10. subst. reflexivity.
Qed.
(** Whether they can be laid out at all is the same, if these margins are not percentages. *)
Lemma plain_margins_known b s : plain_margins s -> forallb (measurable_or_auto b) [st_margin_left s; st_margin_right s] = true.
Proof.
  assert (M : forall v, measurable_or_auto false v = true -> measurable_or_auto b v = true).
  { intros [|u]; [auto|]. cbn. unfold measurable. destruct (finite _); [|discriminate]. destruct (u_kind u); try discriminate; auto. }
  unfold plain_margins. cbn [forallb]. rewrite !andb_true_iff. intros (H1 & H2 & _). auto.
Qed.
Lemma sideways_fit s t i : plainly_sideways s t -> fit_pair s i t i.
Proof.
  intros ((E1 & E2 & E3 & E4 & E5 & E6 & E7 & _) & Ef & Ps & Pt). injection E1 as Ed Ep. injection E2 as Ew Emi Ema. injection E3 as Eh Emh EMh. injection E4 as M1 M3. injection E5 as B1 B2 B3 B4. injection E6 as P1 P2 P3 P4. injection E7 as O1 O2 O3 O4.
  split; [symmetry; exact Ed|]. split; [unfold kind_of; rewrite Ef, Ep, Ed; reflexivity|]. split; [unfold relative; rewrite Ep; reflexivity|]. split.
  { unfold own_height. rewrite <- Eh. destruct (st_height s); cbn; [exact I|]. intros k. reflexivity. }
  intros kd _ _. split; [reflexivity|]. split; [reflexivity|]. intros a a' (Fw & Fh & Fd & Fs). split; [|split; [|split]].
  - unfold edges_ok. rewrite (plain_margins_known (w_known a) s Ps), (plain_margins_known (w_known a') t Pt), Fw, Fh, M1, M3, B1, B2, B3, B4, P1, P2, P3, P4. reflexivity.
  - unfold width_ok. rewrite Fw, Ew, Eh, Emi, Ema. reflexivity.
  - intros last. unfold height_ok. rewrite Fh, Eh, Emh, EMh, M1. destruct kd, (st_height t); try reflexivity. destruct (spec_h a), (spec_h a'); cbn in Fs; try contradiction; rewrite ?Fs; reflexivity.
  - intros _. rewrite Fw, Fh, O1, O2, O3, O4. unfold offsets_ok. rewrite Fd. split; reflexivity.
Qed.
Theorem C199_succeeds h5 h5' (n m : node) : boxed n -> boxed m -> history sty n -> history sty m -> everywhere sty plainly_sideways n m ->
  ((exists n', layout sty d h5 n = (n', Ok tt)) <-> (exists m', layout sty d h5' m = (m', Ok tt))).
Proof.
  intros Bn Bm Hn Hm Z. rewrite (C123_exactly_when sty d h5 n Hn), (C123_exactly_when sty d h5' m Hm).
  rewrite (can_lay_out_fit sty (everywhere sty plainly_sideways) ltac:(intros x y [s s' i b b' ks ks' Zs F]; split; [apply sideways_fit; exact Zs|exact F]) n m Z Bn Bm). reflexivity.
Qed.
End T.
Print Assumptions C199_succeeds.
Print Assumptions C199_only_sideways.

(** ** Example *)
Open Scope Z_scope.
(** A column of 400px with a box of half its width in it; both are pushed aside or centred. *)
Definition adoc (l r l' r' : lenauto) : doc :=
  el block_style
    [el (s_margin (Len (pxu 5)) r (Len (pxu 6)) l (s_size (Len (pxu 400)) Auto block_style))
       [el (s_margin (Len (pxu 7)) r' (Len zero_px) l' (s_size (Len (pctu 50)) (Len (pxu 30)) block_style)) []; el (hpx 20 block_style) []];
     el (hpx 10 block_style) []].
Definition adoc1 := adoc (Len zero_px) (Len zero_px) (Len (pctu 10)) Auto.
Definition adoc2 := adoc Auto Auto Auto (Len (pxu 15)).
Example C199_example : history idsty adoc1 /\ history idsty adoc2 /\ everywhere idsty sideways adoc1 adoc2
  /\ layout idsty screen false adoc1 = (out false adoc1, Ok tt) /\ layout idsty screen false adoc2 = (out false adoc2, Ok tt)
  /\ tops (out false adoc1) = tops (out false adoc2) /\ lefts_of (out false adoc1) <> lefts_of (out false adoc2).
Proof.
  do 2 (split; [apply history_new; solve_new|]). split.
  - unfold adoc1, adoc2, adoc, el. repeat match goal with |- Forall2 _ (_ :: _) _ => constructor | |- Forall2 _ [] _ => constructor | |- everywhere _ _ _ _ => apply everywhere_node end;
      (unfold sideways; do 7 (split; [reflexivity|]); split; [first [left; reflexivity|right; split; intros X; vm_compute in X; discriminate X]|split; intros X; vm_compute in X; discriminate X]).
  - do 2 (split; [apply ok_layout; vm_compute; reflexivity|]). split; [vm_compute; reflexivity|vm_compute; discriminate].
Qed.
Example C199_succeeds_example : let n := adoc (Len (pxu 5)) Auto (Len zero_px) Auto in let m := adoc Auto Auto Auto (Len (pxu 15)) in
  boxed n /\ boxed m /\ history idsty n /\ history idsty m /\ everywhere idsty plainly_sideways n m.
Proof.
  cbv zeta. split; [solve_boxed|]. split; [solve_boxed|]. do 2 (split; [apply history_new; solve_new|]).
  unfold adoc, el. repeat match goal with |- Forall2 _ (_ :: _) _ => constructor | |- Forall2 _ [] _ => constructor | |- everywhere _ _ _ _ => apply everywhere_node end;
    (unfold plainly_sideways; split; [|split; [reflexivity|split; reflexivity]]; unfold sideways; do 7 (split; [reflexivity|]); split; [first [left; reflexivity|right; split; intros X; vm_compute in X; discriminate X]|split; intros X; vm_compute in X; discriminate X]).
Qed.
