(** * C190: borders exchanged for paddings *)
From Coq Require Import ZArith QArith Qcanon Qround Lia Lqa Bool List.
From Verif Require Import PyNum NumFacts Units BoxModel BoxSpec BoxFacts Engine EngineSpec EngineExamples
  RefLayout RefFacts RefProps OkSpec OkFacts HistSpec HistProps MoveSpec MoveProps LocalProps PushSpec PushProps PixelSpec OkProps SymProps AxisSpec AxisProps TradeSpec.
Import ListNotations.
Open Scope Qc_scope.

Section T.
Context {S : Type} (sty : S -> style) (d : display_t).
Notation node := (node S).
Lemma t_sides s t P : traded d s t -> hedges d P t = hedges d P s.
Proof. intros (_ & _ & _ & _ & _ & H). destruct (H P) as (_ & E2 & _ & E4). unfold hedges.
  replace (border_len d P (st_border_left t) + len d P (st_padding_left t) + len d P (st_padding_right t) + border_len d P (st_border_right t))
    with ((border_len d P (st_border_left t) + len d P (st_padding_left t)) + (border_len d P (st_border_right t) + len d P (st_padding_right t))) by ring.
  rewrite <- E2, <- E4. ring.
Qed.
Lemma t_wmargins a dk s t i : traded d s t -> wmargins d a dk t i = wmargins d a dk s i.
Proof.
  intros H. pose proof (t_sides s t (or0 (a_h a)) H) as Eh. destruct H as (E1 & E2 & E3 & E4 & _). injection E1 as _ _ Ed. injection E2 as Ew En Ex. injection E3 as E3 _ _. injection E4 as _ Er _ El.
  unfold wmargins. rewrite Eh, <- El, <- Er. destruct (isinl dk).
  - unfold image_width. rewrite <- Ew, <- E3. reflexivity.
  - assert (widths d (or0 (a_w a)) (hedges d (or0 (a_h a)) s) t = widths d (or0 (a_w a)) (hedges d (or0 (a_h a)) s) s) as ->; [|reflexivity].
    unfold widths, limited_width. rewrite <- Ew, <- Ex, <- En, <- El, <- Er, <- Ed. reflexivity.
Qed.
Lemma t_lefts a dk s t i : traded d s t -> lefts d a dk t i = lefts d a dk s i.
Proof.
  intros H. unfold lefts. rewrite (t_wmargins a dk s t i H). destruct H as (_ & _ & _ & _ & _ & H). destruct (H (or0 (a_h a))) as (_ & _ & _ & E).
  destruct (_ && _); [reflexivity|]. rewrite <- !Qcplus_assoc, E. reflexivity.
Qed.
Lemma t_edges a dk s t : traded d s t -> edges d a dk t = edges d a dk s.
Proof.
  intros (_ & _ & _ & Em & _ & H). destruct (H (or0 (a_w a))) as (E & _). injection Em as Em _ _ _. unfold edges. rewrite <- Em, <- !Qcplus_assoc, E. reflexivity.
Qed.
Lemma t_bottoms a dk s t i : traded d s t -> bottoms d a dk t i = bottoms d a dk s i.
Proof. intros (_ & _ & _ & Em & _). injection Em as _ _ Em _. unfold bottoms. rewrite <- Em. reflexivity. Qed.
Lemma be_inv u v : but_edges u = but_edges v ->
  u_mt u = u_mt v /\ u_mr u = u_mr v /\ u_ml u = u_ml v /\ u_bt u + u_pt u = u_bt v + u_pt v /\ u_br u + u_pr u = u_br v + u_pr v /\ u_bb u + u_pb u = u_bb v + u_pb v /\ u_bl u + u_pl u = u_bl v + u_pl v /\ u_left u = u_left v /\ u_top u = u_top v /\ u_mb u = u_mb v /\ u_w u = u_w v /\ u_h u = u_h v /\ u_ct u = u_ct v /\ u_cb u = u_cb v.
Proof.
  intros H. repeat split; [exact (f_equal (fun p => nth 0 (fst (fst p)) 0) H)|exact (f_equal (fun p => nth 1 (fst (fst p)) 0) H)|exact (f_equal (fun p => nth 2 (fst (fst p)) 0) H)|exact (f_equal (fun p => nth 3 (fst (fst p)) 0) H)|exact (f_equal (fun p => nth 4 (fst (fst p)) 0) H)|exact (f_equal (fun p => nth 5 (fst (fst p)) 0) H)|exact (f_equal (fun p => nth 6 (fst (fst p)) 0) H)|exact (f_equal (fun p => nth 7 (fst (fst p)) 0) H)|exact (f_equal (fun p => nth 8 (fst (fst p)) 0) H)|exact (f_equal (fun p => nth 0 (snd (fst p)) None) H)|exact (f_equal (fun p => nth 1 (snd (fst p)) None) H)|exact (f_equal (fun p => nth 2 (snd (fst p)) None) H)|exact (f_equal (fun p => nth 0 (snd p) 0%Z) H)|exact (f_equal (fun p => nth 1 (snd p) 0%Z) H)].
Qed.
Lemma t_bb u v : but_edges u = but_edges v -> border_height v = border_height u /\ border_bottom v = border_bottom u.
Proof.
  intros H. apply be_inv in H. destruct H as (E1 & E2 & E3 & E4 & E5 & E6 & E7 & E8 & E9 & E10 & E11 & E12 & E13 & E14). unfold border_height, border_bottom. rewrite E12, E9. split.
  - rewrite E4. rewrite <- !Qcplus_assoc, (Qcplus_comm (u_pb v)), (Qcplus_comm (u_pb u)), E6. reflexivity.
  - rewrite <- !Qcplus_assoc, (Qcplus_comm (u_pb v)), (Qcplus_comm (u_pb u)), E6. reflexivity.
Qed.
Lemma t_hgt a dk s t i l l' : traded d s t ->
  match l, l' with None, None => True | Some u, Some v => border_bottom v = border_bottom u | _, _ => False end ->
  hgt d a dk t i l' = hgt d a dk s i l.
Proof.
  intros H L. pose proof (t_wmargins a dk s t i H) as Ew. destruct H as (_ & E0 & E & _). injection E as E1 E2 E3. injection E0 as E0 _ _. unfold hgt. rewrite Ew. destruct (isinl dk).
  - destruct (s_replaced i); [|reflexivity]. unfold image_height. rewrite <- E1, <- E0. reflexivity.
  - f_equal. unfold used_block_height, spec_height. rewrite <- E1, <- E2, <- E3. destruct (st_height s); [|reflexivity]. destruct l, l'; try contradiction; [exact L|reflexivity].
Qed.
Lemma t_down r u v : but_edges u = but_edges v -> but_edges (move_down r u) = but_edges (move_down r v).
Proof.
  intros H. apply be_inv in H. destruct H as (E1 & E2 & E3 & E4 & E5 & E6 & E7 & E8 & E9 & E10 & E11 & E12 & E13 & E14). destruct u as [a1 a2 a3 a4 a5 a6 a7 a8 a9 a10 a11 a12 a13 a14 a15 a16 a17 a18], v as [b1 b2 b3 b4 b5 b6 b7 b8 b9 b10 b11 b12 b13 b14 b15 b16 b17 b18]. unfold but_edges, move_down. cbn [u_mt u_mr u_mb u_ml u_bt u_br u_bb u_bl u_pt u_pr u_pb u_pl u_w u_h u_left u_top u_ct u_cb] in *.
  rewrite E4, E5, E6, E7. subst. reflexivity.
Qed.
Lemma t_stack l l' : Forall2 (same_on but_edges) l l' -> forall top prev, Forall2 (same_on but_edges) (stack top prev l) (stack top prev l').
Proof.
  induction 1 as [|x x' l l' Hx Hl IH]; intros top prev; [constructor|]. destruct Hx as [u v us vs Hu Hs| |]; cbn [stack]; [|constructor; [constructor|apply IH]..].
  assert (Em : u_mt v = u_mt u) by (apply be_inv in Hu; symmetry; apply Hu). assert (Ec : u_cb v = u_cb u) by (apply be_inv in Hu; symmetry; apply Hu).
  rewrite Em, Ec, (proj1 (t_bb _ _ Hu)). constructor; [constructor; [apply t_down, Hu|exact Hs]|apply IH].
Qed.
Lemma t_block n m : everywhere sty (traded d) n m -> block_level (sty (n_style m)) = block_level (sty (n_style n)).
Proof. intros H. inversion H as [s s' i b b' ks ks' Z]; subst. cbn [n_style]. destruct Z as (E & _). injection E as E _ _. unfold block_level. rewrite E. reflexivity. Qed.
Lemma format_traded (n : node) : forall m, everywhere sty (traded d) n m -> forall a, same_on but_edges (format sty d a n) (format sty d a m).
Proof.
  induction n as [s i b ks IH] using node_ind'. intros m Hm a. inversion Hm as [s1 s' i1 b1 b' ks1 ks' Z Zk]; subst. rewrite !format_split.
  pose proof Z as (E & _ & Eh & Em & Eo & Es). injection E as Ed Ep _. injection Eo as Et Er Eb El. injection Eh as Eh _ _. injection Em as Em _ _ _. rewrite <- Ed. destruct (st_display (sty s)) as [dk|]; [|constructor].
  assert (St : stacks_ sty dk ks' = stacks_ sty dk ks).
  { unfold stacks_. destruct dk; try reflexivity; clear -Zk; (induction Zk as [|x y l l' Hx _ IH']; [reflexivity|]; cbn [existsb]; rewrite (t_block _ _ Hx), IH'; reflexivity). }
  rewrite St. set (st := stacks_ sty dk ks). assert (Rl : isrel (sty s') = isrel (sty s)) by (unfold isrel; rewrite Ep; reflexivity).
  assert (Hi : inner_of d a dk (sty s') i = inner_of d a dk (sty s) i).
  { unfold inner_of. rewrite Rl, (t_edges a dk _ _ Z), (t_wmargins a dk _ _ i Z), (t_lefts a dk _ _ i Z), (t_hgt a dk _ _ i (Some used0) (Some used0) Z eq_refl), <- Eh. reflexivity. }
  rewrite Hi. set (inner := inner_of d a dk (sty s) i) in *.
  assert (Fk : Forall2 (same_on but_edges) (map (MoveProps.laid_kid sty d inner st) ks) (map (MoveProps.laid_kid sty d inner st) ks')).
  { clearbody st inner. clear -IH Zk. induction Zk as [|x y l l' Hx Hl IHl]; [constructor|]. cbn [map]. constructor; [|apply IHl; intros z Iz; apply IH; right; exact Iz].
    unfold MoveProps.laid_kid. rewrite (t_block _ _ Hx). destruct (_ && _); [constructor|]. apply IH; [left; reflexivity|assumption..]. }
  assert (Fs : Forall2 (same_on but_edges) (kids_of sty d inner st ks) (kids_of sty d inner st ks')).
  { unfold kids_of. destruct st; [apply t_stack|]; exact Fk. }
  set (kk := kids_of sty d inner st ks) in *. set (kk' := kids_of sty d inner st ks') in *. pose proof (on_last _ _ _ Fs) as L.
  assert (Ek : hgt d a dk (sty s') i (last_kid kk') = hgt d a dk (sty s) i (last_kid kk)).
  { apply t_hgt; [assumption|]. destruct L as [[-> ->]|(u & v & -> & -> & L)]; [exact I|apply (t_bb _ _ L)]. }
  assert (E1 : (if st then match kk' with UNode u _ :: _ => u_ct u | _ => 0%Z end else 0%Z) = (if st then match kk with UNode u _ :: _ => u_ct u | _ => 0%Z end else 0%Z)).
  { destruct st; [|reflexivity]. destruct Fs as [|x x' r r' Hx _]; [reflexivity|]. destruct Hx as [u v us vs Hu Hs| |]; try reflexivity. apply be_inv in Hu. symmetry. apply Hu. }
  unfold node_of. cbv zeta. constructor; [|exact Fs]. unfold but_edges. cbn [u_mt u_mr u_mb u_ml u_bt u_br u_bb u_bl u_pt u_pr u_pb u_pl u_w u_h u_left u_top u_ct u_cb].
  rewrite (t_edges a dk _ _ Z), (t_bottoms a dk _ _ i Z), (t_wmargins a dk _ _ i Z), (t_lefts a dk _ _ i Z), Ek, E1, Rl, <- Et, <- Er, <- Eb, <- El, <- Em, <- Eh.
  destruct (Es (or0 (a_w a))) as (-> & _ & -> & _). destruct (Es (or0 (a_h a))) as (_ & -> & _ & ->).
  f_equal. f_equal. f_equal. destruct (st_height (sty s)); [|reflexivity]. destruct L as [[-> ->]|(u & v & -> & -> & L)]; [reflexivity|].
  apply be_inv in L. destruct L as (_ & _ & _ & _ & _ & _ & _ & _ & _ & _ & _ & _ & _ & ->). reflexivity.
Qed.
(** C190.  If on every side of every element the border and the padding together take up the same
    space in two documents that are otherwise the same, then everything is laid out in the same
    place and with the same size and margins in both. *)
Theorem C190_border_or_padding h5 (n m n' m' : node) : history sty n -> history sty m -> everywhere sty (traded d) n m ->
  layout sty d h5 n = (n', Ok tt) -> layout sty d h5 m = (m', Ok tt) ->
  exists t t', shows n' t /\ shows m' t' /\ same_on but_edges t t'.
Proof.
  intros Hn Hm Z Ln Lm. exists (page sty d h5 n), (page sty d h5 m).
  split; [apply (C122_any_history sty); assumption|]. split; [apply (C122_any_history sty); assumption|].
  rewrite !page_draft. unfold draft. set (a := mkArea (Some (nval (disp_width d))) (Some (nval (disp_height d))) 0 0 None).
  pose proof (format_traded n m Z a) as F. destruct F as [u v us vs Hu Hs| |]; cbn [finished]; constructor; [|exact Hs].
  apply be_inv in Hu. destruct Hu as (E1 & E2 & E3 & E4 & E5 & E6 & E7 & E8 & E9 & E10 & E11 & E12 & E13 & E14).
  destruct u as [a1 a2 a3 a4 a5 a6 a7 a8 a9 a10 a11 a12 a13 a14 a15 a16 a17 a18], v as [b1 b2 b3 b4 b5 b6 b7 b8 b9 b10 b11 b12 b13 b14 b15 b16 b17 b18].
  unfold but_edges, completed in *. cbn [u_mt u_mr u_mb u_ml u_bt u_br u_bb u_bl u_pt u_pr u_pb u_pl u_w u_h u_left u_top u_ct u_cb] in *.
  rewrite E4, E5, E6, E7. subst. reflexivity.
Qed.
(** Whether they can be laid out at all is the same, if borders and paddings are not percentages. *)
Lemma plain_known b s : plain_edges s -> forallb (measurable_border b) [st_border_top s; st_border_bottom s] = true /\ forallb (measurable_border b) [st_border_left s; st_border_right s] = true
  /\ forallb (measurable b) [st_padding_top s; st_padding_bottom s] = true /\ forallb (measurable b) [st_padding_left s; st_padding_right s] = true.
Proof.
  assert (M : forall u, measurable false u = true -> measurable b u = true).
  { intros u. unfold measurable. destruct (finite _); [|discriminate]. destruct (u_kind u); try discriminate; auto. }
  assert (B : forall v, measurable_border false v = true -> measurable_border b v = true) by (intros [k|u]; [reflexivity|apply M]).
  intros (H1 & H2). cbn [forallb] in *. rewrite !andb_true_iff in *. repeat split; try reflexivity; first [apply B|apply M]; tauto.
Qed.
Lemma plain_fit s t i : plainly_traded d s t -> fit_pair s i t i.
Proof.
  intros ((E1 & E2 & E3 & E4 & E5 & _) & Ef & Ps & Pt). injection E1 as Ed Ep _. injection E2 as Ew Emi Ema. injection E3 as Eh Emh EMh. injection E4 as M1 M2 M3 M4. injection E5 as O1 O2 O3 O4.
  split; [symmetry; exact Ed|]. split; [unfold kind_of; rewrite Ef, Ep, Ed; reflexivity|]. split; [unfold relative; rewrite Ep; reflexivity|]. split.
  { unfold own_height. rewrite <- Eh. destruct (st_height s); cbn; [exact I|]. intros k. reflexivity. }
  intros kd _ _. split; [reflexivity|]. split; [reflexivity|]. intros a a' (Fw & Fh & Fd & Fs). split; [|split; [|split]].
  - unfold edges_ok. destruct (plain_known (w_known a) s Ps) as (-> & _ & -> & _). destruct (plain_known (h_known a) s Ps) as (_ & -> & _ & ->).
    destruct (plain_known (w_known a') t Pt) as (-> & _ & -> & _). destruct (plain_known (h_known a') t Pt) as (_ & -> & _ & ->). rewrite Fw, Fh, M1, M2, M3, M4. reflexivity.
  - unfold width_ok. rewrite Fw, Ew, Eh, Emi, Ema. reflexivity.
  - intros last. unfold height_ok. rewrite Fh, Eh, Emh, EMh, M1. destruct kd, (st_height t); try reflexivity. destruct (spec_h a), (spec_h a'); cbn in Fs; try contradiction; rewrite ?Fs; reflexivity.
  - intros _. rewrite Fw, Fh, O1, O2, O3, O4. unfold offsets_ok. rewrite Fd. split; reflexivity.
Qed.
Theorem C190_succeeds h5 h5' (n m : node) : boxed n -> boxed m -> history sty n -> history sty m -> everywhere sty (plainly_traded d) n m ->
  ((exists n', layout sty d h5 n = (n', Ok tt)) <-> (exists m', layout sty d h5' m = (m', Ok tt))).
Proof.
  intros Bn Bm Hn Hm Z. rewrite (C123_exactly_when sty d h5 n Hn), (C123_exactly_when sty d h5' m Hm).
  rewrite (can_lay_out_fit sty (everywhere sty (plainly_traded d)) ltac:(intros x y [s s' i b b' ks ks' Zs F]; split; [apply plain_fit; exact Zs|exact F]) n m Z Bn Bm). reflexivity.
Qed.
End T.
Print Assumptions C190_succeeds.
Print Assumptions C190_border_or_padding.

(** ** Example *)
Open Scope Z_scope.
(** A border of 2px and a padding of 3px, or a padding of 5px; a border of 10% and a padding of
    4px, or the other way round. *)
Definition tdoc (bt pt bl pl : unit_) : doc :=
  el (s_border (BLen bt) (BLen zero_px) (BLen zero_px) (BLen bl) (s_padding pt (pxu 3) (pxu 4) pl block_style))
    [el (hpx 30 block_style) [];
     el (s_border (BLen zero_px) (BLen zero_px) (BLen bt) (BLen zero_px) (s_padding (pxu 1) zero_px pt zero_px block_style)) [el (hpx 20 block_style) []];
     el (hpx 10 (s_margin (Len (pxu 7)) Auto (Len zero_px) Auto (s_size (Len (pctu 50)) Auto block_style))) []].
Definition tdoc1 := tdoc (pxu 2) (pxu 3) (pctu 10) (pxu 4).
Definition tdoc2 := tdoc zero_px (pxu 5) (pxu 4) (pctu 10).
Example C190_example : history idsty tdoc1 /\ history idsty tdoc2 /\ everywhere idsty (traded screen) tdoc1 tdoc2
  /\ layout idsty screen false tdoc1 = (out false tdoc1, Ok tt) /\ layout idsty screen false tdoc2 = (out false tdoc2, Ok tt)
  /\ lefts_of (out false tdoc1) = lefts_of (out false tdoc2) /\ tops (out false tdoc1) = [0; 31; 63]%Q.
Proof.
  do 2 (split; [apply history_new; solve_new|]). split.
  - unfold tdoc1, tdoc2, tdoc, el. repeat match goal with |- Forall2 _ (_ :: _) _ => constructor | |- Forall2 _ [] _ => constructor | |- everywhere _ _ _ _ => apply everywhere_node end;
      (unfold traded; do 5 (split; [reflexivity|]); intros P; repeat split; try reflexivity); try (apply Qcplus_comm); apply Qc_is_canon; vm_compute; reflexivity.
  - do 2 (split; [apply ok_layout; vm_compute; reflexivity|]). split; vm_compute; reflexivity.
Qed.
Example C190_succeeds_example : let n := tdoc (pxu 2) (pxu 3) (pxu 1) (pxu 4) in let m := tdoc (pxu 5) zero_px (pxu 4) (pxu 1) in
  boxed n /\ boxed m /\ history idsty n /\ history idsty m /\ everywhere idsty (plainly_traded screen) n m.
Proof.
  cbv zeta. split; [solve_boxed|]. split; [solve_boxed|]. do 2 (split; [apply history_new; solve_new|]).
  unfold tdoc, el. repeat match goal with |- Forall2 _ (_ :: _) _ => constructor | |- Forall2 _ [] _ => constructor | |- everywhere _ _ _ _ => apply everywhere_node end;
    (unfold plainly_traded; split; [|split; [reflexivity|split; split; reflexivity]]; unfold traded; do 5 (split; [reflexivity|]); intros P; repeat split; try reflexivity); try (apply Qcplus_comm); apply Qc_is_canon; vm_compute; reflexivity.
Qed.
