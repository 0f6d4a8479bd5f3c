(** * Every number layout computes is a multiple of 1/64 px *)
From Coq Require Import ZArith QArith Qcanon Qround Lqa Lia Bool List.
From Verif Require Import PyNum NumFacts Units UnitsSpec UnitsFacts UnitsProps BoxModel BoxSpec BoxFacts Engine.
Import ListNotations.
Open Scope Z_scope.

(** ** The grid is closed under the arithmetic of layout *)
Lemma grid_Z z : on_grid (Z2Qc z).
Proof. exists (z * 64)%Z. apply Qc_is_canon. unfold Z2Qc, qfrac. cbn [this Q2Qc]. rewrite !Qred_correct. unfold Qeq, inject_Z; cbn. lia. Qed.
Lemma grid_plus x y : on_grid x -> on_grid y -> on_grid (x + y)%Qc.
Proof.
  intros [a ->] [b ->]. exists (a + b)%Z. apply Qc_is_canon. unfold Qcplus, qfrac. cbn [this Q2Qc]. rewrite !Qred_correct.
  unfold Qeq, Qplus; cbn. lia.
Qed.
Lemma grid_opp x : on_grid x -> on_grid (- x)%Qc.
Proof. intros [a ->]. exists (- a)%Z. apply Qc_is_canon. unfold Qcopp, qfrac. cbn [this Q2Qc]. rewrite !Qred_correct. reflexivity. Qed.
Lemma grid_minus x y : on_grid x -> on_grid y -> on_grid (x - y)%Qc.
Proof. intros X Y. unfold Qcminus. apply grid_plus; [exact X|apply grid_opp, Y]. Qed.
Lemma grid_times_Z x z : on_grid x -> on_grid (x * Z2Qc z)%Qc.
Proof.
  intros [a ->]. exists (a * z)%Z. apply Qc_is_canon. unfold Qcmult, qfrac, Z2Qc. cbn [this Q2Qc]. rewrite !Qred_correct.
  unfold Qeq, Qmult, inject_Z; cbn. lia.
Qed.

Definition gn (x : num) : Prop := on_grid (nval x).
Definition gl (v : lval) : Prop := match v with LNum x => gn x | _ => True end.
Definition gr (r : res num) : Prop := forall x, r = Ok x -> gn x.
Lemma gn_int z : gn (NI z). Proof. apply grid_Z. Qed.
Lemma gn_add x y : gn x -> gn y -> gn (nadd x y).
Proof. unfold gn. destruct x, y; cbn [nadd nval]; intros X Y; try apply grid_Z; apply grid_plus; assumption. Qed.
Lemma gn_sub x y : gn x -> gn y -> gn (nsub x y).
Proof. unfold gn. destruct x, y; cbn [nsub nval]; intros X Y; try apply grid_Z; apply grid_minus; assumption. Qed.
Lemma gn_neg x : gn x -> gn (nneg x).
Proof. unfold gn. destruct x; cbn [nneg nval]; intros X; [apply grid_Z|apply grid_opp, X]. Qed.
Lemma gn_half x : gn (nhalf x).
Proof. unfold gn. destruct x; cbn [nhalf nval]; apply grid_Z. Qed.
Lemma gn_max x y : gn x -> gn y -> gn (nmax x y).
Proof. intros. unfold nmax. destruct (nltb x y); assumption. Qed.
Lemma gn_min x y : gn x -> gn y -> gn (nmin x y).
Proof. intros. unfold nmin. destruct (nltb y x); assumption. Qed.
Lemma gr_num v : gl v -> gr (as_num v).
Proof. intros G x. destruct v; cbn; intros E; try discriminate. apply Ok_inj in E. subst. exact G. Qed.
Lemma gr_px c u : gr (px c u).
Proof. intros p E. destruct (C01_px_rounds_to_nearest c u p E) as (q & _ & G & _). exact G. Qed.
Lemma gr_bind {A} (m : res A) (f : A -> res num) (P : A -> Prop) :
  (forall a, m = Ok a -> P a) -> (forall a, P a -> gr (f a)) -> gr (bindr m f).
Proof. intros M F x E. destruct m as [a|]; cbn in E; [|discriminate]. exact (F a (M a eq_refl) x E). Qed.
Lemma gr_ok x : gn x -> gr (Ok x). Proof. intros G y E. apply Ok_inj in E. subst. exact G. Qed.
Lemma gr_err e : gr (Err e). Proof. intros y E. discriminate. Qed.

(** ** Boxes and trees on the grid *)
Definition gbox (b : box) : Prop :=
  (gl (content_width b) /\ gl (content_height b) /\ gn (content_top b) /\ gn (content_left b))
  /\ (gn (origin_top b) /\ gn (origin_left b))
  /\ (gl (margin_top b) /\ gl (margin_right b) /\ gl (margin_bottom b) /\ gl (margin_left b))
  /\ (gn (border_top_width b) /\ gn (border_right_width b) /\ gn (border_bottom_width b) /\ gn (border_left_width b))
  /\ (gn (padding_top b) /\ gn (padding_right b) /\ gn (padding_bottom b) /\ gn (padding_left b)).
Definition gsize (i : size) : Prop :=
  (forall x, s_width i = Some x -> gn x) /\ (forall x, s_height i = Some x -> gn x)
  /\ (forall x, s_ratio i = Some x -> exists z, nval x = Z2Qc z).
Definition gdisp (d : display_t) : Prop :=
  gn (disp_width d) /\ gn (disp_height d) /\ (forall k, gn (fixed_size d k)).

Ltac gdes H := destruct H as ((Hcw & Hch & Hct & Hcl) & (Hot & Hol) & (Hmt & Hmr & Hmb & Hml) & (Hbt & Hbr & Hbb & Hbl) & (Hpt & Hpr & Hpb & Hpl)).
Ltac gauto := repeat first [ assumption | apply gn_int | apply gn_half | apply gn_add | apply gn_sub | apply gn_neg ].

Lemma gbox0 : gbox box0.
Proof. unfold gbox; cbn. repeat split; apply gn_int. Qed.
Ltac upd := intros; match goal with H : gbox ?b |- _ => destruct b; gdes H end; cbn in *; unfold gbox; cbn; repeat split; assumption.
Lemma gb_cw v b : gl v -> gbox b -> gbox (upd_content_width v b). Proof. upd. Qed.
Lemma gb_ch v b : gl v -> gbox b -> gbox (upd_content_height v b). Proof. upd. Qed.
Lemma gb_ct v b : gn v -> gbox b -> gbox (upd_content_top v b). Proof. upd. Qed.
Lemma gb_cl v b : gn v -> gbox b -> gbox (upd_content_left v b). Proof. upd. Qed.
Lemma gb_ot v b : gn v -> gbox b -> gbox (upd_origin_top v b). Proof. upd. Qed.
Lemma gb_ol v b : gn v -> gbox b -> gbox (upd_origin_left v b). Proof. upd. Qed.
Lemma gb_bt v b : gn v -> gbox b -> gbox (upd_border_top_width v b). Proof. upd. Qed.
Lemma gb_br v b : gn v -> gbox b -> gbox (upd_border_right_width v b). Proof. upd. Qed.
Lemma gb_bb v b : gn v -> gbox b -> gbox (upd_border_bottom_width v b). Proof. upd. Qed.
Lemma gb_bl v b : gn v -> gbox b -> gbox (upd_border_left_width v b). Proof. upd. Qed.
Lemma gb_pt v b : gn v -> gbox b -> gbox (upd_padding_top v b). Proof. upd. Qed.
Lemma gb_pr v b : gn v -> gbox b -> gbox (upd_padding_right v b). Proof. upd. Qed.
Lemma gb_pb v b : gn v -> gbox b -> gbox (upd_padding_bottom v b). Proof. upd. Qed.
Lemma gb_pl v b : gn v -> gbox b -> gbox (upd_padding_left v b). Proof. upd. Qed.
Lemma gb_kt v b : gbox b -> gbox (set_collapse_top v b). Proof. unfold set_collapse_top. upd. Qed.
Lemma gb_kb v b : gbox b -> gbox (set_collapse_bottom v b). Proof. unfold set_collapse_bottom. upd. Qed.
Lemma gb_mt v b : gl v -> gbox b -> gbox (set_margin_top v b).
Proof. intros G H. unfold set_margin_top. destruct leqb; [exact H|]. unfold set_collapse_top. revert G H. upd. Qed.
Lemma gb_mr v b : gl v -> gbox b -> gbox (set_margin_right v b).
Proof. intros G H. unfold set_margin_right. destruct leqb; [exact H|]. unfold set_collapse_right. revert G H. upd. Qed.
Lemma gb_mb v b : gl v -> gbox b -> gbox (set_margin_bottom v b).
Proof. intros G H. unfold set_margin_bottom. destruct leqb; [exact H|]. unfold set_collapse_bottom. revert G H. upd. Qed.
Lemma gb_ml v b : gl v -> gbox b -> gbox (set_margin_left v b).
Proof. intros G H. unfold set_margin_left. destruct leqb; [exact H|]. unfold set_collapse_left. revert G H. upd. Qed.

(** ** Computations on one box *)
Definition gp {A} (m : BM A) (P : A -> Prop) : Prop :=
  forall b, gbox b -> gbox (fst (m b)) /\ forall a, snd (m b) = Ok a -> P a.
Lemma gp_ret {A} (a : A) (P : A -> Prop) : P a -> gp (bret a) P.
Proof. intros H b G. split; [exact G|]. intros a' E. apply Ok_inj in E. subst. exact H. Qed.
Lemma gp_fail {A} e (P : A -> Prop) : gp (bfail e) P.
Proof. intros b G. split; [exact G|]. intros a' E. discriminate. Qed.
Lemma gp_bind {A B} (m : BM A) (f : A -> BM B) P Q : gp m P -> (forall a, P a -> gp (f a) Q) -> gp (bbind m f) Q.
Proof.
  intros M F b G. unfold bbind. destruct (M b G) as [G1 R]. destruct (m b) as [b' [a|e]]; cbn in *; [|split; [exact G1|discriminate]].
  exact (F a (R a eq_refl) b' G1).
Qed.
Lemma gp_lift {A} (r : res A) (P : A -> Prop) : (forall a, r = Ok a -> P a) -> gp (blift r) P.
Proof. intros H b G. split; [exact G|exact H]. Qed.
Lemma gp_mod f : (forall b, gbox b -> gbox (f b)) -> gp (bmod f) (fun _ => True).
Proof. intros H b G. split; [exact (H b G)|trivial]. Qed.
Lemma gp_get {A} (f : box -> A) (P : A -> Prop) : (forall b, gbox b -> P (f b)) -> gp (bget f) P.
Proof. intros H b G. split; [exact G|]. intros a E. apply Ok_inj in E. subst. exact (H b G). Qed.
Lemma gp_num f : (forall b, gbox b -> gl (f b)) -> gp (bnum f) gn.
Proof. intros H b G. split; [exact G|]. exact (gr_num _ (H b G)). Qed.
Lemma gp_weaken {A} (m : BM A) (P Q : A -> Prop) : gp m P -> (forall a, P a -> Q a) -> gp m Q.
Proof. intros H W b G. destruct (H b G) as [G1 R]. split; [exact G1|]. intros a E. exact (W a (R a E)). Qed.
Lemma gp_if {A} (c : bool) (m k : BM A) P : gp m P -> gp k P -> gp (if c then m else k) P.
Proof. destruct c; auto. Qed.
Ltac gfld := intros ? HG; gdes HG; assumption.
Lemma gp_auto_left0 : gp auto_left0 (fun _ => True).
Proof. apply gp_mod. intros b G. destruct is_auto; [apply gb_ml; [apply gn_int|exact G]|exact G]. Qed.
Lemma gp_auto_right0 : gp auto_right0 (fun _ => True).
Proof. apply gp_mod. intros b G. destruct is_auto; [apply gb_mr; [apply gn_int|exact G]|exact G]. Qed.
Lemma gp_auto_top0 : gp auto_top0 (fun _ => True).
Proof. apply gp_mod. intros b G. destruct is_auto; [apply gb_mt; [apply gn_int|exact G]|exact G]. Qed.
Lemma gp_auto_bottom0 : gp auto_bottom0 (fun _ => True).
Proof. apply gp_mod. intros b G. destruct is_auto; [apply gb_mb; [apply gn_int|exact G]|exact G]. Qed.

Lemma g_calc_len c u : gr (calc_len c u).
Proof. unfold calc_len. destruct u_eq_int; [apply gr_ok, gn_int|apply gr_px]. Qed.
Lemma g_calc_margin c v : forall a, calc_margin c v = Ok a -> gl a.
Proof.
  intros a. destruct v; cbn; intros E; [apply Ok_inj in E; subst; exact I|].
  destruct (calc_len c u) eqn:L; cbn in E; [|discriminate]. apply Ok_inj in E. subst. exact (g_calc_len c u _ L).
Qed.
Lemma g_calc_border d f l v : gdisp d -> gr (calc_border (mkCtx d f l) v).
Proof. intros (_ & _ & K). destruct v; cbn; [apply gr_ok, K|apply g_calc_len]. Qed.
Lemma gp_edge {A} (r : res A) (P : A -> Prop) (f : A -> box -> box) :
  (forall a, r = Ok a -> P a) -> (forall a b, P a -> gbox b -> gbox (f a b)) -> gp (bbind (blift r) (fun v => bmod (f v))) (fun _ => True).
Proof. intros R F. eapply gp_bind; [apply gp_lift, R|]. intros a Pa. apply gp_mod. intros b. apply F, Pa. Qed.
Lemma gp_copy_edges s d f l l' : gdisp d -> gp (copy_edges s (mkCtx d f l) (mkCtx d f l')) (fun _ => True).
Proof.
  intros D. unfold copy_edges.
  repeat (eapply gp_bind; [|intros _ _]).
  all: eapply gp_edge;
    [first [apply g_calc_margin | apply g_calc_border; exact D | apply g_calc_len]|].
  all: intros a b X B; first [apply gb_mt | apply gb_mr | apply gb_mb | apply gb_ml | apply gb_bt | apply gb_br | apply gb_bb | apply gb_bl
    | apply gb_pt | apply gb_pr | apply gb_pb | apply gb_pl]; assumption.
Qed.

Definition go (o : option num) : Prop := forall l, o = Some l -> gn l.
Lemma gp_left_edge : gp left_edge gn.
Proof.
  unfold left_edge. eapply gp_bind; [apply gp_num; gfld|intros ml M]. eapply gp_bind; [apply (gp_get _ gn); gfld|intros bl B].
  eapply gp_bind; [apply (gp_get _ gn); gfld|intros pl L]. apply gp_ret. gauto.
Qed.
Lemma gp_top_edge : gp top_edge gn.
Proof.
  unfold top_edge. eapply gp_bind; [apply gp_num; gfld|intros ml M]. eapply gp_bind; [apply (gp_get _ gn); gfld|intros bl B].
  eapply gp_bind; [apply (gp_get _ gn); gfld|intros pl L]. apply gp_ret. gauto.
Qed.
Ltac gstep := eapply gp_bind; [first [apply gp_num; gfld | apply (gp_get _ gn); gfld | apply gp_lift, gr_num; assumption]|intros ? ?].
Lemma gp_avail c : gl (c_size c) -> gp (avail_width c) gn.
Proof. intros C. unfold avail_width. do 7 gstep. apply gp_ret. gauto. Qed.
Lemma gp_solve_right cw c : gn cw -> gl (c_size c) -> gp (solve_right cw c) (fun _ => True).
Proof. intros W C. unfold solve_right. do 6 gstep. apply gp_mod. intros b. apply gb_mr. cbn [gl]. gauto. Qed.
Lemma gp_solve_left cw c : gn cw -> gl (c_size c) -> gp (solve_left cw c) (fun _ => True).
Proof. intros W C. unfold solve_left. do 6 gstep. apply gp_mod. intros b. apply gb_ml. cbn [gl]. gauto. Qed.
Lemma gp_split cw c : gn cw -> gl (c_size c) -> gp (split_margins cw c) (fun _ => True).
Proof.
  intros W C. unfold split_margins. do 5 gstep.
  eapply gp_bind; [apply gp_mod; intros b; apply gb_ml; apply gn_half|intros _ _]. apply gp_mod; intros b; apply gb_mr; apply gn_half.
Qed.
Lemma gp_add_unless acc f : gn acc -> (forall b, gbox b -> gl (f b)) -> gp (add_unless_auto acc f) gn.
Proof.
  intros A F b G. unfold add_unless_auto. destruct is_auto; cbn; (split; [exact G|]).
  - apply gr_ok, A.
  - eapply gr_bind; [apply gr_num, (F b G)|]. intros a X. apply gr_ok. apply gn_add; assumption.
Qed.
Lemma gp_drop cw c : gn cw -> gl (c_size c) -> gp (drop_auto_margins cw c) (fun _ => True).
Proof.
  intros W C. unfold drop_auto_margins. do 4 gstep.
  eapply gp_bind; [apply gp_add_unless; [gauto|gfld]|intros z1 Z1]. eapply gp_bind; [apply gp_add_unless; [gauto|gfld]|intros z2 Z2].
  gstep. apply gp_if; [|apply gp_ret; exact I]. eapply gp_bind; [apply gp_auto_left0|intros _ _]. apply gp_auto_right0.
Qed.
Lemma g_clamped s u c : gr (clamped_width s u c).
Proof.
  unfold clamped_width. eapply gr_bind; [apply gr_px|intros w W]. eapply gr_bind with (P := gn).
  - destruct (st_max_width s); [|apply gr_ok, W]. eapply gr_bind; [apply gr_px|intros m M]. apply gr_ok. destruct nltb; assumption.
  - intros w1 W1. destruct (st_min_width s); [apply gr_ok, W1|]. eapply gr_bind; [apply gr_px|intros m M]. apply gr_ok. destruct nltb; assumption.
Qed.
Lemma gp_finish_left cw : gn cw -> gp (bbind (bmod (upd_content_width (LNum cw))) (fun _ => bbind left_edge (fun l => bret (Some l)))) go.
Proof.
  intros W. eapply gp_bind; [apply gp_mod; intros b; apply gb_cw; exact W|intros _ _]. eapply gp_bind; [apply gp_left_edge|intros l L].
  apply gp_ret. intros l' E. injection E as <-. exact L.
Qed.
Lemma gp_block_width s c : gl (c_size c) -> gp (block_non_replaced_width s c) go.
Proof.
  intros C. unfold block_non_replaced_width. eapply gp_bind with (P := go).
  - destruct (st_width s); [apply gp_ret; discriminate|]. eapply gp_bind; [apply gp_lift, g_clamped|intros cw W].
    eapply gp_bind; [apply gp_drop; assumption|intros _ _]. apply gp_ret. intros l E. injection E as <-. exact W.
  - intros ocw O. eapply gp_bind with (P := fun _ => True); [apply gp_get; trivial|intros la _].
    eapply gp_bind with (P := fun _ => True); [apply gp_get; trivial|intros ra _].
    eapply gp_bind with (P := gn); [|intros cw W; apply gp_finish_left, W].
    destruct ocw as [cw|]; [assert (W : gn cw) by (apply O; reflexivity)|]; destruct la, ra.
    + eapply gp_bind; [apply gp_split; assumption|intros _ _; apply gp_ret; exact W].
    + eapply gp_bind; [apply gp_solve_left; assumption|intros _ _; apply gp_ret; exact W].
    + eapply gp_bind; [apply gp_solve_right; assumption|intros _ _; apply gp_ret; exact W].
    + eapply gp_bind; [destruct (st_direction s); [apply gp_solve_right|apply gp_solve_left]; assumption|intros _ _; apply gp_ret; exact W].
    + eapply gp_bind; [apply gp_auto_left0|intros _ _]. eapply gp_bind; [apply gp_auto_right0|intros _ _]. apply gp_avail, C.
    + eapply gp_bind; [apply gp_auto_left0|intros _ _]. eapply gp_bind; [apply gp_auto_right0|intros _ _]. apply gp_avail, C.
    + eapply gp_bind; [apply gp_auto_left0|intros _ _]. eapply gp_bind; [apply gp_auto_right0|intros _ _]. apply gp_avail, C.
    + apply gp_avail, C.
Qed.
Lemma gp_inline_width i : gsize i -> gp (inline_non_replaced_width i) go.
Proof.
  intros (W & _ & _). unfold inline_non_replaced_width. eapply gp_bind; [apply gp_auto_left0|intros _ _]. eapply gp_bind; [apply gp_auto_right0|intros _ _].
  eapply gp_bind; [apply gp_mod; intros b; apply gb_cw; destruct (s_width i); cbn; [apply W; reflexivity|exact I]|intros _ _]. apply gp_ret. discriminate.
Qed.
Lemma gp_replaced_width s i c : gl (c_size c) -> gsize i -> gp (inline_replaced_width s i c) go.
Proof.
  intros C (W & H & R). unfold inline_replaced_width. eapply gp_bind; [apply gp_auto_left0|intros _ _]. eapply gp_bind; [apply gp_auto_right0|intros _ _].
  eapply gp_bind with (P := gn); [|intros cw X; apply gp_finish_left, X].
  destruct (st_width s); [|apply gp_lift, gr_px].
  destruct (st_height s), (s_width i), (s_height i), (s_ratio i); first [apply gp_avail, C | apply gp_ret; first [apply W; reflexivity|apply gn_int]].
Qed.
Lemma gp_width s i c : gl (c_size c) -> gsize i -> gp (calculate_width s i c) go.
Proof.
  intros C G. unfold calculate_width.
  repeat (apply gp_if; try apply gp_fail); [apply gp_replaced_width|apply gp_inline_width|apply gp_block_width]; assumption.
Qed.
Lemma gp_inline_height i : gsize i -> gp (inline_non_replaced_height i) gn.
Proof.
  intros (_ & H & _). unfold inline_non_replaced_height. eapply gp_bind; [|intros _ _; apply gp_top_edge].
  apply gp_mod. intros b; apply gb_ch; destruct (s_height i); cbn; [apply H; reflexivity|exact I].
Qed.
Lemma gn_mul_whole x r z : gn x -> nval r = Z2Qc z -> gn (nmul x r).
Proof.
  intros X E. unfold gn. replace (nval (nmul x r)) with (nval x * Z2Qc z)%Qc; [apply grid_times_Z, X|].
  rewrite <- E. destruct x, r; try reflexivity. cbn [nmul nval]. unfold Z2Qc. apply Qc_is_canon. unfold Qcmult. cbn [this Q2Qc].
  rewrite !Qred_correct. unfold Qeq, Qmult, inject_Z; cbn. lia.
Qed.
Lemma gp_half150 : gp (bbind (bnum content_width) (fun w => bret (nmin (nhalf w) (NI 150)))) gn.
Proof. eapply gp_bind; [apply gp_num; gfld|intros w W]. apply gp_ret. apply gn_min; gauto. Qed.
Lemma gp_replaced_height s i c : gsize i -> gp (inline_replaced_height s i c) gn.
Proof.
  intros (W & H & R). unfold inline_replaced_height. eapply gp_bind; [apply gp_auto_top0|intros _ _]. eapply gp_bind; [apply gp_auto_bottom0|intros _ _].
  eapply gp_bind with (P := gn); [|intros ch X; eapply gp_bind; [apply gp_mod; intros b; apply gb_ch; exact X|intros _ _; apply gp_top_edge]].
  destruct (st_height s); [|apply gp_lift, gr_px].
  assert (HH : forall h, s_height i = Some h -> gp (bret h) gn) by (intros h E; apply gp_ret, H, E).
  assert (RR : forall r, s_ratio i = Some r -> gp (bbind (bnum content_width) (fun w => bret (nmul w r))) gn).
  { intros r E. destruct (R r E) as [z Z]. eapply gp_bind; [apply gp_num; gfld|intros w Wn]. apply gp_ret. eapply gn_mul_whole; eassumption. }
  destruct (st_width s), (s_height i) as [h|], (s_ratio i) as [r|];
    first [exact (HH _ eq_refl) | apply gp_half150 | idtac].
  all: repeat (apply gp_if; try apply gp_half150); first [exact (HH _ eq_refl) | exact (RR _ eq_refl) | apply gp_half150].
Qed.
Lemma gr_bbb b : gbox b -> gr (border_box_bottom b).
Proof. intros G. gdes G. unfold border_box_bottom. eapply gr_bind; [apply gr_num; assumption|]. intros h X. apply gr_ok. gauto. Qed.
Lemma gr_bbh b : gbox b -> gr (border_box_height b).
Proof. intros G. gdes G. unfold border_box_height. eapply gr_bind; [apply gr_num; assumption|]. intros h X. apply gr_ok. gauto. Qed.
Lemma gp_block_height s ph last c : (forall lb, last = Some (Some lb) -> gbox lb) -> gp (block_non_replaced_height s ph last c) gn.
Proof.
  intros L. unfold block_non_replaced_height. eapply gp_bind; [apply gp_auto_top0|intros _ _]. eapply gp_bind; [apply gp_auto_bottom0|intros _ _].
  eapply gp_bind with (P := gn).
  - unfold block_content_height. destruct (st_height s).
    + destruct last as [[lb|]|]; [|apply gp_fail|destruct (st_min_height s); [apply gp_ret, gn_int|apply gp_lift, gr_px]].
      eapply gp_bind; [apply gp_lift, gr_bbb, L; reflexivity|intros h X]. eapply gp_bind; [apply gp_mod; intros b; apply gb_kb|intros _ _]. apply gp_ret, X.
    + eapply gp_bind with (P := gn).
      * destruct ph; [|apply gp_lift, gr_px]. eapply gp_bind; [apply gp_lift, gr_px|intros p X]. apply gp_lift, gr_px.
      * intros h X. destruct (st_max_height s); [|apply gp_ret, X]. eapply gp_bind; [apply gp_lift, gr_px|intros m Y]. apply gp_ret. destruct nltb; assumption.
  - intros h X. eapply gp_bind; [apply gp_mod; intros b; apply gb_ch; exact X|intros _ _]. do 2 gstep. apply gp_ret. gauto.
Qed.
Lemma gp_height s i ph last c : gsize i -> (forall lb, last = Some (Some lb) -> gbox lb) -> gp (calculate_height s i ph last c) gn.
Proof.
  intros G L. unfold calculate_height.
  repeat (apply gp_if; try apply gp_fail); [apply gp_replaced_height|apply gp_inline_height|apply gp_block_height]; assumption.
Qed.
Lemma g_rel c st en cs ce : gr cs -> gr ce -> gr (rel_offset c st en cs ce).
Proof.
  intros S E. destruct st, en; cbn; try apply gr_px; try apply gr_err; try exact S; try apply gr_ok, gn_int.
  - eapply gr_bind; [exact E|]. intros a X. apply gr_ok, gn_neg, X.
  - eapply gr_bind; [apply gr_px|]. intros a X. apply gr_ok, gn_neg, X.
Qed.

(** ** Trees *)
Section Trees.
Context {S : Type} (sty : S -> style).
Notation node := (node S).
Inductive gtree : node -> Prop :=
| gtree_node s i bx ks : gsize i -> (forall b, bx = Some b -> gbox b) -> (forall k, In k ks -> gtree k) -> gtree (Node s i bx ks).
Lemma gtree_inv s i bx ks : gtree (Node s i bx ks) -> gsize i /\ (forall b, bx = Some b -> gbox b) /\ forall k, In k ks -> gtree k.
Proof. inversion 1; subst. auto. Qed.
Lemma gtree_map (f : node -> node) ks : (forall k, In k ks -> gtree k -> gtree (f k)) -> (forall k, In k ks -> gtree k) -> forall k, In k (map f ks) -> gtree k.
Proof. intros F G k H. apply in_map_iff in H. destruct H as (x & <- & I). apply F; [exact I|apply G, I]. Qed.
Lemma gt_origin_top n : forall v, gn v -> gtree n -> gtree (set_origin_top v n).
Proof.
  induction n as [s i bx ks IH] using node_ind'; intros v V G. destruct bx as [b|]; cbn [set_origin_top]; [|exact G].
  apply gtree_inv in G. destruct G as (Gi & Gb & Gk). destruct neqb; [constructor; assumption|].
  assert (B : gbox (upd_origin_top v b)) by (apply gb_ot; [exact V|apply Gb; reflexivity]).
  constructor; [exact Gi|intros b' E; injection E as <-; exact B|].
  apply gtree_map; [|exact Gk]. intros k I Gk'. apply IH; [exact I| |exact Gk']. gdes B. apply gn_add; assumption.
Qed.
Lemma gt_origin_left n : forall v, gn v -> gtree n -> gtree (set_origin_left v n).
Proof.
  induction n as [s i bx ks IH] using node_ind'; intros v V G. destruct bx as [b|]; cbn [set_origin_left]; [|exact G].
  apply gtree_inv in G. destruct G as (Gi & Gb & Gk). destruct neqb; [constructor; assumption|].
  assert (B : gbox (upd_origin_left v b)) by (apply gb_ol; [exact V|apply Gb; reflexivity]).
  constructor; [exact Gi|intros b' E; injection E as <-; exact B|].
  apply gtree_map; [|exact Gk]. intros k I Gk'. apply IH; [exact I| |exact Gk']. gdes B. apply gn_add; assumption.
Qed.
Lemma gt_content_top v n : gn v -> gtree n -> gtree (set_content_top v n).
Proof.
  destruct n as [s i bx ks]; intros V G. destruct bx as [b|]; cbn [set_content_top]; [|exact G].
  apply gtree_inv in G. destruct G as (Gi & Gb & Gk). destruct neqb; [constructor; assumption|].
  assert (B : gbox (upd_content_top v b)) by (apply gb_ct; [exact V|apply Gb; reflexivity]).
  constructor; [exact Gi|intros b' E; injection E as <-; exact B|].
  apply gtree_map; [|exact Gk]. intros k I Gk'. apply gt_origin_top; [|exact Gk']. gdes B. apply gn_add; assumption.
Qed.
Lemma gt_content_left v n : gn v -> gtree n -> gtree (set_content_left v n).
Proof.
  destruct n as [s i bx ks]; intros V G. destruct bx as [b|]; cbn [set_content_left]; [|exact G].
  apply gtree_inv in G. destruct G as (Gi & Gb & Gk). destruct neqb; [constructor; assumption|].
  assert (B : gbox (upd_content_left v b)) by (apply gb_cl; [exact V|apply Gb; reflexivity]).
  constructor; [exact Gi|intros b' E; injection E as <-; exact B|].
  apply gtree_map; [|exact Gk]. intros k I Gk'. apply gt_origin_left; [|exact Gk']. gdes B. apply gn_add; assumption.
Qed.
Lemma gt_reset n : gtree n -> gtree (reset n).
Proof.
  induction n as [s i bx ks IH] using node_ind'; intros G. destruct bx as [b|]; cbn [reset]; [|exact G].
  apply gtree_inv in G. destruct G as (Gi & Gb & Gk). constructor; [exact Gi|intros b' E; injection E as <-; apply gbox0|].
  apply gtree_map; [exact IH|exact Gk].
Qed.
Lemma gt_ensure n : gtree n -> gtree (ensure_box n).
Proof.
  destruct n as [s i bx ks]; intros G. destruct bx as [b|]; cbn; [exact G|].
  apply gtree_inv in G. destruct G as (Gi & Gb & Gk). constructor; [exact Gi|intros b' E; injection E as <-; apply gbox0|].
  apply gtree_map; [|exact Gk]. intros k I Gk'. apply gt_origin_left; [apply gn_int|]. apply gt_origin_top; [apply gn_int|exact Gk'].
Qed.

Definition gm {A} (m : M A) (P : A -> Prop) : Prop :=
  forall n, gtree n -> gtree (fst (m n)) /\ forall a, snd (m n) = Ok a -> P a.
Lemma gm_bind {A B} (m : M A) (f : A -> M B) P Q : gm m P -> (forall a, P a -> gm (f a) Q) -> gm (mbind m f) Q.
Proof.
  intros H F n G. unfold mbind. destruct (H n G) as [G1 R]. destruct (m n) as [n' [a|e]]; cbn in *; [|split; [exact G1|discriminate]].
  exact (F a (R a eq_refl) n' G1).
Qed.
Lemma gm_mod f : (forall n, gtree n -> gtree (f n)) -> gm (mmod f) (fun _ => True).
Proof. intros H n G. split; [exact (H n G)|trivial]. Qed.
Lemma gm_lift {A} (r : res A) (P : A -> Prop) : (forall a, r = Ok a -> P a) -> gm (mlift r) P.
Proof. intros H n G. split; [exact G|exact H]. Qed.
Lemma gm_ret {A} (a : A) (P : A -> Prop) : P a -> gm (mret a) P.
Proof. intros H n G. split; [exact G|]. intros a' E. apply Ok_inj in E. subst. exact H. Qed.
Lemma g_on_box {A} (m : BM A) P n : gp m P -> gtree n -> gtree (fst (on_box m n)) /\ forall a, snd (on_box m n) = Ok a -> P a.
Proof.
  intros H G. destruct n as [s i bx ks]. apply gtree_inv in G. destruct G as (Gi & Gb & Gk). destruct bx as [b|]; cbn.
  - destruct (H b (Gb b eq_refl)) as [B R]. destruct (m b) as [b' r]; cbn in *. split; [|exact R].
    constructor; [exact Gi|intros x E; injection E as <-; exact B|exact Gk].
  - split; [constructor; assumption|discriminate].
Qed.
Lemma gm_on_box {A} (m : BM A) P : gp m P -> gm (on_box m) P.
Proof. intros H n G. apply g_on_box; assumption. Qed.
Lemma gm_add_top v : gn v -> gm (add_content_top v) (fun _ => True).
Proof.
  intros V n G. unfold add_content_top. destruct (n_box n) as [b|] eqn:B; cbn; (split; [|trivial]); [|exact G].
  apply gt_content_top; [|exact G]. destruct n; cbn in B. subst. apply gtree_inv in G. destruct G as (_ & Gb & _). specialize (Gb b eq_refl). gdes Gb. apply gn_add; assumption.
Qed.
Lemma gm_add_left v : gn v -> gm (add_content_left v) (fun _ => True).
Proof.
  intros V n G. unfold add_content_left. destruct (n_box n) as [b|] eqn:B; cbn; (split; [|trivial]); [|exact G].
  apply gt_content_left; [|exact G]. destruct n; cbn in B. subst. apply gtree_inv in G. destruct G as (_ & Gb & _). specialize (Gb b eq_refl). gdes Gb. apply gn_add; assumption.
Qed.
Lemma gtree_size n : gtree n -> gsize (n_intr n). Proof. destruct 1. assumption. Qed.
Lemma gtree_box n b : gtree n -> n_box n = Some b -> gbox b. Proof. destruct 1; cbn; auto. Qed.
Lemma gtree_kid n k : gtree n -> In k (n_kids n) -> gtree k. Proof. destruct 1; cbn; auto. Qed.
Lemma gm_width c : gl (c_size c) -> gm (calculate_width_and_margins sty c) (fun _ => True).
Proof.
  intros C n G. unfold calculate_width_and_margins.
  assert (gm (mbind (on_box (calculate_width (sty (n_style n)) (n_intr n) c))
     (fun ol => match ol with Some l => mmod (set_content_left l) | None => mret tt end)) (fun _ => True)) as K; [|exact (K n G)].
  eapply gm_bind; [apply gm_on_box, gp_width; [exact C|apply gtree_size, G]|]. intros [l|] O; [|apply gm_ret; exact I].
  apply gm_mod. intros x. apply gt_content_left, O. reflexivity.
Qed.
Lemma last_layout_g n : gtree n -> forall lb, last_layout n = Some (Some lb) -> gbox lb.
Proof.
  intros G lb. unfold last_layout. destruct (rev (n_kids n)) as [|k l] eqn:R; [discriminate|]. intros E. injection E as E.
  apply (gtree_box k); [|exact E]. apply (gtree_kid n); [exact G|]. apply in_rev. rewrite R. left. reflexivity.
Qed.
Lemma gm_height c cb : gm (calculate_height_and_margins sty c cb) (fun _ => True).
Proof.
  intros n G. unfold calculate_height_and_margins.
  assert (gm (mbind (on_box (calculate_height (sty (n_style n)) (n_intr n) (cb_style_height sty cb) (last_layout n) c))
     (fun d => add_content_top d)) (fun _ => True)) as K; [|exact (K n G)].
  eapply gm_bind; [apply gm_on_box, gp_height; [apply gtree_size, G|apply last_layout_g, G]|]. intros d D. apply gm_add_top, D.
Qed.
Definition gcb (d : display_t) (cb : cblock (S := S)) : Prop := match cb with CBView => gdisp d | CBNode _ b => gbox b end.
Lemma gcb_w d cb : gcb d cb -> gl (cb_width d cb).
Proof. destruct cb; cbn; intros G; [destruct G; assumption|gdes G; assumption]. Qed.
Lemma g_place k b off bm k' b' r : gtree k -> gbox b -> gn off -> place_child k b off bm = (k', b', r) ->
  gtree k' /\ gbox b' /\ forall o z, r = Ok (o, z) -> gn o.
Proof.
  intros K B O. unfold place_child. destruct (n_box k) as [kb|] eqn:KB; [|intros E; injection E as <- <- <-; (split; [assumption|split; [assumption|intros; discriminate]])].
  assert (GK := gtree_box k kb K KB).
  assert (X : forall b1 o1, gbox b1 -> gr o1 ->
     match o1 with Err e => (k, b1, Err e) | Ok o => (set_content_top (nadd (content_top kb) o) k, b1,
           h <-r border_box_height kb ;; Ok (nadd o h, Some (collapse_bottom kb))) end = (k', b', r) ->
     gtree k' /\ gbox b' /\ forall o z, r = Ok (o, z) -> gn o).
  { intros b1 o1 B1 O1. destruct o1 as [o|e]; intros E; injection E as <- <- <-; [|(split; [assumption|split; [assumption|intros; discriminate]])].
    assert (Go := O1 o eq_refl). split; [|split; [exact B1|]].
    - apply gt_content_top; [|exact K]. gdes GK. apply gn_add; assumption.
    - intros o' z E. destruct (border_box_height kb) as [h|] eqn:Hh; cbn in E; [|discriminate]. apply Ok_inj in E. injection E as <- _.
      apply gn_add; [exact Go|exact (gr_bbh kb GK h Hh)]. }
  destruct bm as [m|].
  - apply X; [exact B|]. eapply gr_bind; [apply gr_num; gdes GK; assumption|]. intros mt M. apply gr_ok. apply gn_add; [exact O|]. apply gn_max; [apply gn_int|exact M].
  - apply (X _ (Ok off)); [apply gb_kt, B|apply gr_ok, O].
Qed.
Lemma g_flow lay : (forall b k, gbox b -> gtree k -> gtree (fst (lay b k))) -> forall ks pend b off bm ks' b' r,
  (forall k, In k ks -> gtree k) -> gbox b -> gn off -> flow sty lay ks pend b off bm = (ks', b', r) ->
  (forall k, In k ks' -> gtree k) /\ gbox b'.
Proof.
  intros L. induction ks as [|k ks IH]; intros pend b off bm ks' b' r K B O; cbn [flow].
  - intros E. injection E as <- <- <-. split; [intros ? []|exact B].
  - assert (Kk : gtree k) by (apply K; left; reflexivity). assert (Ks : forall x, In x ks -> gtree x) by (intros x X; apply K; right; exact X).
    assert (Cons : forall x l, gtree x -> (forall k, In k l -> gtree k) -> forall k, In k (x :: l) -> gtree k) by (intros x l X Y z [<-|Z]; auto).
    destruct is_block_level.
    + destruct pend; [intros E; injection E as <- <- <-; split; [exact K|exact B]|].
      assert (Lk := L b k B Kk). destruct (lay b k) as [k1 [u|e]]; cbn in Lk; [|intros E; injection E as <- <- <-; split; [apply Cons; assumption|exact B]].
      destruct (place_child k1 b off bm) as [[k2 b2] r2] eqn:P. destruct (g_place _ _ _ _ _ _ _ Lk B O P) as (K2 & B2 & R2).
      destruct r2 as [[o' bm']|e]; [|intros E; injection E as <- <- <-; split; [apply Cons; assumption|exact B2]].
      destruct (flow sty lay ks false b2 o' bm') as [[ks2 b3] r3] eqn:F. intros E. injection E as <- <- <-.
      destruct (IH _ _ _ _ _ _ _ Ks B2 (R2 o' bm' eq_refl) F) as [X Y]. split; [apply Cons; assumption|exact Y].
    + destruct (flow sty lay ks true b off bm) as [[ks2 b3] r3] eqn:F. intros E. injection E as <- <- <-.
      destruct (IH _ _ _ _ _ _ _ Ks B O F) as [X Y]. split; [apply Cons; assumption|exact Y].
Qed.
Lemma g_lay_all lay : (forall k, gtree k -> gtree (fst (lay k))) -> forall ks, (forall k, In k ks -> gtree k) -> forall k, In k (fst (lay_all (S := S) lay ks)) -> gtree k.
Proof.
  intros L. induction ks as [|k ks IH]; intros K x; cbn [lay_all]; [intros []|].
  assert (Kk : gtree k) by (apply K; left; reflexivity). assert (Ks : forall x, In x ks -> gtree x) by (intros y Y; apply K; right; exact Y).
  assert (Lk := L k Kk). destruct (lay k) as [k1 [u|e]]; cbn in Lk.
  - specialize (IH Ks x). destruct (lay_all lay ks) as [ks2 r]; cbn in *. intros [<-|X]; auto.
  - cbn. intros [<-|X]; auto.
Qed.
Lemma gm_children lay : (forall s b k, gbox b -> gtree k -> gtree (fst (lay (CBNode s b) k))) -> gm (layout_children sty lay) (fun _ => True).
Proof.
  intros L n G. split; [|trivial]. destruct n as [s i bx ks]. destruct bx as [b|]; cbn [layout_children]; [|exact G].
  apply gtree_inv in G. destruct G as (Gi & Gb & Gk). assert (B := Gb b eq_refl). destruct establishes_inline.
  - assert (K := g_lay_all (lay (CBNode s b)) (fun k => L s b k B) ks Gk).
    destruct (lay_all _ ks) as [ks2 r]; cbn in *. constructor; [exact Gi|exact Gb|exact K].
  - destruct (flow _ _ ks false b n0 None) as [[ks2 b2] r] eqn:F.
    destruct (g_flow _ (fun b0 k B0 => L s b0 k B0) _ _ _ _ _ _ _ _ Gk B (gn_int 0) F) as [X Y].
    constructor; [exact Gi|intros x E; injection E as <-; exact Y|exact X].
Qed.
Lemma gm_shift d f cb : gdisp d -> gcb d cb -> gm (relative_shift sty d f cb) (fun _ => True).
Proof.
  intros D C n G. unfold relative_shift. destruct (is_relative _); [|split; [exact G|trivial]].
  match goal with |- context [mbind ?m ?k n] => assert (K : gm (mbind m k) (fun _ => True)); [|exact (K n G)] end.
  assert (CR : gr (cb_attr content_right cb)).
  { destruct cb; [apply gr_err|]. cbn in *. gdes C. unfold content_right. eapply gr_bind; [apply gr_num; assumption|]. intros w W. apply gr_ok, gn_add; assumption. }
  assert (CBt : gr (cb_attr content_bottom cb)).
  { destruct cb; [apply gr_err|]. cbn in *. gdes C. unfold content_bottom. eapply gr_bind; [apply gr_num; assumption|]. intros w W. apply gr_ok, gn_add; assumption. }
  eapply gm_bind; [apply gm_lift, g_rel; [destruct cb; [apply gr_err|cbn in *; gdes C; apply gr_ok; assumption]|exact CR]|intros vl V].
  eapply gm_bind; [apply gm_add_left, V|intros _ _].
  eapply gm_bind; [apply gm_lift, g_rel; [destruct cb; [apply gr_err|cbn in *; gdes C; apply gr_ok; assumption]|exact CBt]|intros vt T].
  apply gm_add_top, T.
Qed.
Lemma layout_box_grid fuel : forall d f cb n, gdisp d -> gcb d cb -> gtree n -> gtree (fst (layout_box sty fuel d f cb n)).
Proof.
  induction fuel as [|fuel IH]; intros d f cb n D C G; cbn [layout_box]; [exact G|].
  destruct (st_display (sty (n_style n))).
  - match goal with |- context [mbind ?m ?k n] => assert (K : gm (mbind m k) (fun _ => True)); [|exact (proj1 (K n G))] end.
    eapply gm_bind; [apply gm_mod, gt_ensure|intros _ _].
    eapply gm_bind; [apply gm_on_box, gp_copy_edges, D|intros _ _].
    eapply gm_bind; [apply gm_width, gcb_w, C|intros _ _].
    eapply gm_bind with (P := fun _ => True); [destruct (is_relative _); [apply gm_height|apply gm_ret; exact I]|intros _ _].
    eapply gm_bind with (P := fun _ => True); [|intros _ _; eapply gm_bind; [apply gm_height|intros _ _; apply gm_shift; assumption]].
    destruct (is_abspos _); [apply gm_lift; discriminate|]. destruct (is_float _); [apply gm_lift; discriminate|].
    apply gm_children. intros s' b' k B K. apply IH; [exact D|exact B|exact K].
  - destruct n as [s i bx ks]. cbn. apply gtree_inv in G. destruct G as (Gi & _ & Gk). constructor; [exact Gi|discriminate|exact Gk].
Qed.
Lemma layout_grid d h5 n : gdisp d -> gtree n -> gtree (fst (layout sty d h5 n)).
Proof.
  intros D G. unfold layout. destruct (n_box n) as [bn|]; [|exact G].
  match goal with |- context [mbind ?m ?k n] => assert (K : gm (mbind m k) (fun _ => True)); [|exact (proj1 (K n G))] end.
  eapply gm_bind; [apply gm_mod, gt_reset|intros _ _].
  eapply gm_bind with (P := fun _ => True); [intros x X; split; [apply layout_box_grid; assumption|trivial]|intros _ _].
  intros x X. split; [|trivial]. unfold finish_root. destruct (n_box x) as [b|] eqn:B; [|exact X].
  assert (GB := gtree_box x b X B).
  assert (Y : gtree (set_content_top (nadd (content_top b) (NI (collapse_top b))) x)).
  { apply gt_content_top; [|exact X]. gdes GB. apply gn_add; [assumption|apply gn_int]. }
  destruct h5; [|exact Y].
  assert (Z : gm (on_box (bmod (upd_content_height (LNum (nsub (nsub (disp_height d) (NI (collapse_top b))) (NI (collapse_bottom b))))))) (fun _ : unit => True)).
  { apply gm_on_box, gp_mod. intros y GY. apply gb_ch; [|exact GY]. cbn. destruct D as (_ & H & _). gauto. }
  exact (proj1 (Z _ Y)).
Qed.
End Trees.
