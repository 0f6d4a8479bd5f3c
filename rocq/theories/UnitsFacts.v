(** * Lemmas about units *)
From Coq Require Import ZArith QArith Qcanon Qround Lqa Lia Bool List String.
From Verif Require Import PyNum Units NumFacts UnitsSpec.
Import ListNotations.
Open Scope Z_scope.

Lemma lu_to_px_val k : nval (lu_to_px k) = qfrac k 64.
Proof.
  unfold lu_to_px. destruct (qc_eqb_spec (qfrac k 64) (Z2Qc (trunc_q (this (qfrac k 64))))) as [E|_].
  - cbn [nval]. symmetry. exact E.
  - reflexivity.
Qed.

Lemma lu_to_px_int k : is_int (lu_to_px k) = true <-> exists z, qfrac k 64 = Z2Qc z.
Proof.
  unfold lu_to_px. destruct (qc_eqb_spec (qfrac k 64) (Z2Qc (trunc_q (this (qfrac k 64))))) as [E|N];
    cbn [is_int]; split; intros H; trivial.
  - eexists. exact E.
  - discriminate.
  - destruct H as [z Hz]. exfalso. apply N. rewrite Hz, trunc_q_Z. reflexivity.
Qed.

Lemma num_ext a b : nval a = nval b -> is_int a = is_int b -> a = b.
Proof.
  destruct a, b; cbn; intros H E; try discriminate; [apply Z2Qc_inj in H|]; congruence.
Qed.

Lemma qfrac_opp k d : qfrac (- k) d = (- qfrac k d)%Qc.
Proof. apply qc_eq. qc_push. unfold Qopp. reflexivity. Qed.

Lemma lu_to_px_opp k : lu_to_px (- k) = nneg (lu_to_px k).
Proof.
  apply num_ext.
  - rewrite nval_neg, !lu_to_px_val. apply qfrac_opp.
  - assert (is_int (nneg (lu_to_px k)) = is_int (lu_to_px k)) as -> by (destruct (lu_to_px k); reflexivity).
    apply eq_iff_eq_true. rewrite !lu_to_px_int. split; intros [z Hz]; exists (- z);
      rewrite Z2Qc_opp, <- Hz, qfrac_opp; ring.
Qed.

Lemma qfrac_64_inj a b : qfrac a 64 = qfrac b 64 -> a = b.
Proof. intros H%qc_eq'. rewrite !this_qfrac in H. unfold Qeq in H. cbn [Qnum Qden] in H. lia. Qed.

Lemma qfrac_64_le a b : (qfrac a 64 <= qfrac b 64)%Qc <-> a <= b.
Proof. unfold Qcle. rewrite !this_qfrac. unfold Qle. cbn [Qnum Qden]. lia. Qed.

Lemma qfrac_64_mul k : (Z2Qc 64 * qfrac k 64)%Qc = Z2Qc k.
Proof. apply qc_eq. rewrite this_mul, this_qfrac, !this_Z2Qc. unfold Qeq, inject_Z. cbn [Qnum Qden Qmult]. lia. Qed.

Lemma magnitude_pval p v : magnitude p v <-> pval p = Fin v.
Proof.
  split.
  - destruct 1; reflexivity.
  - destruct p as [z|[q| |]]; cbn; intros H; try discriminate; injection H as <-; constructor.
Qed.

Lemma extent_vp d sc e : extent d sc e <-> e = nval (vp_extent sc d).
Proof.
  destruct sc; cbn [vp_extent].
  - split; [inversion 1; reflexivity | intros ->; constructor].
  - rewrite nval_max. destruct (qc_ltb_spec (nval (disp_width d)) (nval (disp_height d))); split.
    + inversion 1 as [| |m [->| ->] H1 H2|]; subst; [exfalso; qclra | reflexivity].
    + intros ->. constructor; [right; reflexivity | qclra | qclra].
    + inversion 1 as [| |m [->| ->] H1 H2|]; subst; [reflexivity | qclra].
    + intros ->. constructor; [left; reflexivity | qclra | qclra].
  - unfold nmin. destruct (nltb_spec (disp_height d) (disp_width d)); split.
    + inversion 1 as [| | |m [->| ->] H1 H2]; subst; [exfalso; qclra | reflexivity].
    + intros ->. constructor; [right; reflexivity | qclra | qclra].
    + inversion 1 as [| | |m [->| ->] H1 H2]; subst; [reflexivity | qclra].
    + intros ->. constructor; [left; reflexivity | qclra | qclra].
  - split; [inversion 1; reflexivity | intros ->; constructor].
Qed.

(** The heart of conversion: px rounds 64 * exact value. *)
Lemma lu_exact c u q : exact_px c u q -> lu c u = Ok (round_half_even (this (Z2Qc 64 * q)%Qc)).
Proof.
  assert (X : forall a b, a = b -> Ok (round_half_even (this a)) = Ok (round_half_even (this b)))
    by (intros; subst; reflexivity).
  destruct 1 as [p v M|p v M|p v M|p v M|s k p v M|s sc p v e M Hext|p v n M Hs];
    apply magnitude_pval in M; unfold lu, lu64; cbn [u_kind u_val]; rewrite M;
    cbn [xmul xround nx font_attr String.eqb Ascii.eqb Bool.eqb bindr]; unfold LU_PER_PIXEL.
  - reflexivity.
  - apply X. unfold Qcdiv. ring.
  - apply X. unfold Qcdiv. ring.
  - apply X. unfold Qcdiv. ring.
  - apply X. unfold Qcdiv. ring.
  - apply extent_vp in Hext. subst e. apply X. unfold Qcdiv. ring.
  - rewrite Hs. cbn [as_num bindr xmul xround nx]. apply X. unfold Qcdiv. ring.
Qed.

Lemma xmul_fin a b q : xmul a b = Fin q -> exists x y, a = Fin x /\ b = Fin y /\ q = (x * y)%Qc.
Proof.
  destruct a as [x|s|], b as [y|t|]; cbn; try discriminate.
  - intros [= <-]. eauto.
  - destruct (qc_eqb x 0); discriminate.
  - destruct (qc_eqb y 0); discriminate.
Qed.

Lemma xround_ok a z : xround a = Ok z -> exists q, a = Fin q.
Proof. destruct a; cbn; try discriminate. eauto. Qed.

Lemma font_attr_ok f s q : font_attr f s = Ok q -> s = "em"%string \/ s = "ex"%string \/ s = "ch"%string.
Proof.
  unfold font_attr. destruct (String.eqb_spec s "em"); [auto|].
  destruct (String.eqb_spec s "ex"); [auto|]. destruct (String.eqb_spec s "ch"); [auto|discriminate].
Qed.

Lemma lu_defined c u z : lu c u = Ok z -> exists q, exact_px c u q.
Proof.
  destruct u as [k p]. unfold lu. cbn [u_kind u_val].
  destruct k as [|s|s sc|s sc| |s sc]; intros H.
  - apply xround_ok in H as [q H]. apply xmul_fin in H as (x & y & _ & Hy & _).
    eexists. apply exact_pixel, magnitude_pval, Hy.
  - destruct (font_attr (c_font c) s) as [f|] eqn:F; cbn [bindr] in H; [|discriminate].
    apply xround_ok in H as [q H]. apply xmul_fin in H as (x & y & H & _ & _).
    apply xmul_fin in H as (x' & y' & H & _ & _). apply xmul_fin in H as (x'' & y'' & _ & Hy & _).
    apply magnitude_pval in Hy.
    apply font_attr_ok in F as [-> | [-> | -> ]]; eexists; constructor; exact Hy.
  - apply xround_ok in H as [q H]. apply xmul_fin in H as (x & y & H & _ & _).
    apply xmul_fin in H as (x' & y' & H & _ & _). apply xmul_fin in H as (x'' & y'' & _ & Hy & _).
    apply magnitude_pval in Hy. eexists. constructor; exact Hy.
  - apply xround_ok in H as [q H]. apply xmul_fin in H as (x & y & H & _ & _).
    apply xmul_fin in H as (x' & y' & H & _ & _). apply xmul_fin in H as (x'' & y'' & _ & Hy & _).
    apply magnitude_pval in Hy. eexists. econstructor; [exact Hy|]. apply extent_vp. reflexivity.
  - destruct (c_size c) as [n| |] eqn:Hs; cbn [as_num bindr] in H; try discriminate.
    apply xround_ok in H as [q H]. apply xmul_fin in H as (x & y & H & _ & _).
    apply xmul_fin in H as (x' & y' & H & _ & _). apply xmul_fin in H as (x'' & y'' & _ & Hy & _).
    apply magnitude_pval in Hy. eexists. econstructor; [exact Hy|exact Hs].
  - discriminate.
Qed.

Lemma exact_px_fun c u q q' : exact_px c u q -> exact_px c u q' -> q = q'.
Proof.
  assert (MF : forall p v v', magnitude p v -> magnitude p v' -> v = v').
  { intros p v v' A B. apply magnitude_pval in A, B. congruence. }
  destruct 1 as [p v M|p v M|p v M|p v M|s k p v M|s sc p v e M Hext|p v n M Hs];
    inversion 1; subst;
    try match goal with M1 : magnitude ?p ?a, M2 : magnitude ?p ?b |- _ =>
      assert (a = b) by (eapply MF; eassumption); subst end;
    try match goal with M1 : extent _ _ ?a, M2 : extent _ _ ?b |- _ =>
      apply extent_vp in M1; apply extent_vp in M2; subst end;
    try match goal with H : c_size c = LNum ?m |- _ => rewrite Hs in H; injection H as -> end;
    reflexivity.
Qed.

Lemma px_exact c u q : exact_px c u q ->
  px c u = Ok (lu_to_px (round_half_even (this (Z2Qc 64 * q)%Qc))).
Proof. intros H. unfold px. rewrite (lu_exact c u q H). reflexivity. Qed.

Lemma px_inv c u p : px c u = Ok p ->
  exists q, exact_px c u q /\ p = lu_to_px (round_half_even (this (Z2Qc 64 * q)%Qc)).
Proof.
  intros H. unfold px in H. destruct (lu c u) as [z|] eqn:L; cbn in H; [|discriminate].
  destruct (lu_defined c u z L) as [q E]. exists q. split; [exact E|].
  rewrite (lu_exact c u q E) in L. congruence.
Qed.

Lemma round_px_near q : let p := qfrac (round_half_even (this (Z2Qc 64 * q)%Qc)) 64 in
  (p - qfrac 1 128 <= q /\ q <= p + qfrac 1 128)%Qc.
Proof.
  cbn zeta. pose proof (rhe_near (this (Z2Qc 64 * q)%Qc)) as H.
  set (z := round_half_even _) in *. clearbody z.
  rewrite this_mul, this_Z2Qc in H. rewrite qfrac_eq.
  unfold Qcle. rewrite !this_sub, !this_add, !this_div, !this_Z2Qc, this_qfrac.
  change (inject_Z 64) with 64%Q in *.
  unfold Qdiv. change (/ 64)%Q with (1#64)%Q. split; lra.
Qed.

Lemma round_px_grid k : round_half_even (this (Z2Qc 64 * qfrac k 64)%Qc) = k.
Proof. rewrite qfrac_64_mul. rewrite (rhe_comp _ _ (this_Z2Qc k)). apply rhe_Z. Qed.

Lemma xmul_1_r_opp a : xmul a (Fin (Z2Qc (-1))) =
  match a with Fin q => Fin (- q)%Qc | Inf s => Inf (negb s) | Nan => Nan end.
Proof.
  destruct a as [q|s|]; cbn [xmul]; [|destruct s; reflexivity|reflexivity].
  f_equal. change (Z2Qc (-1)) with (- (1))%Qc. ring.
Qed.

Definition xneg (a : xq) : xq :=
  match a with Fin q => Fin (- q)%Qc | Inf s => Inf (negb s) | Nan => Nan end.

Lemma uneg_val u : pval (u_val (uneg u)) = xneg (pval (u_val u)) /\ u_kind (uneg u) = u_kind u.
Proof.
  destruct u as [k p]. unfold uneg, dup. cbn [u_val u_kind]. destruct p as [z|x]; cbn [u_val u_kind pmul pval].
  - split; [|reflexivity]. cbn. f_equal. rewrite Z2Qc_mul. change (Z2Qc (-1)) with (- (1))%Qc. ring.
  - split; [|reflexivity]. apply xmul_1_r_opp.
Qed.

Lemma qc_ltb_opp q : q <> 0%Qc -> qc_ltb (- q) 0 = negb (qc_ltb q 0).
Proof.
  intros N. destruct (qc_ltb_spec (- q) 0), (qc_ltb_spec q 0); cbn; trivial; exfalso.
  - qclra.
  - apply N. qclra.
Qed.

Lemma xmul_neg_l a b : xmul (xneg a) b = xneg (xmul a b).
Proof.
  destruct a as [x|s|], b as [y|t|]; cbn [xmul xneg]; trivial.
  - f_equal. ring.
  - destruct (qc_eqb_spec x 0) as [E0|N], (qc_eqb_spec (- x) 0) as [E|N']; cbn [xneg]; trivial.
    + exfalso. apply N'. qclra.
    + exfalso. apply N. qclra.
    + f_equal. rewrite qc_ltb_opp by exact N. rewrite negb_xorb_l. reflexivity.
  - destruct (qc_eqb_spec y 0); cbn [xneg]; trivial. f_equal. rewrite negb_xorb_l. reflexivity.
  - f_equal. rewrite negb_xorb_l. reflexivity.
Qed.

Lemma xmul_neg_r a b : xmul a (xneg b) = xneg (xmul a b).
Proof.
  destruct a as [x|s|], b as [y|t|]; cbn [xmul xneg]; trivial.
  - f_equal. ring.
  - destruct (qc_eqb_spec x 0); cbn [xneg]; trivial. f_equal. rewrite negb_xorb_r. reflexivity.
  - destruct (qc_eqb_spec y 0) as [E0|N], (qc_eqb_spec (- y) 0) as [E|N']; cbn [xneg]; trivial.
    + exfalso. apply N'. qclra.
    + exfalso. apply N. qclra.
    + f_equal. rewrite qc_ltb_opp by exact N. rewrite negb_xorb_r. reflexivity.
  - f_equal. rewrite negb_xorb_r. reflexivity.
Qed.

Lemma xround_neg a : xround (xneg a) = match xround a with Ok z => Ok (- z) | Err e => Err e end.
Proof. destruct a as [q|s|]; cbn [xround xneg]; trivial. rewrite (rhe_comp _ _ (this_opp q)), rhe_opp. reflexivity. Qed.

Lemma lu_uneg c u : lu c (uneg u) = match lu c u with Ok z => Ok (- z) | Err e => Err e end.
Proof.
  destruct (uneg_val u) as [V K]. unfold lu. rewrite V, K.
  destruct (u_kind u) as [|s|s sc|s sc| |s sc]; rewrite ?xmul_neg_r, ?xmul_neg_l, ?xround_neg; trivial.
  - destruct (font_attr (c_font c) s); cbn [bindr]; trivial.
    rewrite ?xmul_neg_l, xround_neg. reflexivity.
  - destruct (as_num (c_size c)); cbn [bindr]; trivial. rewrite ?xmul_neg_l, xround_neg. reflexivity.
Qed.

Lemma px_uneg c u : px c (uneg u) = match px c u with Ok p => Ok (nneg p) | Err e => Err e end.
Proof.
  unfold px. rewrite lu_uneg. destruct (lu c u); cbn [bindr]; trivial. rewrite lu_to_px_opp. reflexivity.
Qed.

Lemma pmul_val a b : pval (pmul a b) = xmul (pval a) (pval b).
Proof. destruct a, b; cbn; trivial. rewrite Z2Qc_mul. reflexivity. Qed.

Lemma magnitude_pmul a b x y : magnitude a x -> magnitude b y -> magnitude (pmul a b) (x * y)%Qc.
Proof. rewrite !magnitude_pval, pmul_val. intros -> ->. reflexivity. Qed.

(** exact value of a multiple *)
Lemma exact_rmul c u q a va : exact_px c u q -> magnitude a va -> exact_px c (rmul a u) (va * q)%Qc.
Proof.
  intros H Ma. unfold rmul, dup.
  destruct H as [p v M|p v M|p v M|p v M|s k p v M|s sc p v e M Hext|p v n M Hs]; cbn [u_kind u_val];
    pose proof (magnitude_pmul _ _ _ _ M Ma) as MM.
  - replace (va * v)%Qc with (v * va)%Qc by ring. constructor. exact MM.
  - eapply eq_rect; [apply exact_em; exact MM | unfold Qcdiv; ring].
  - eapply eq_rect; [apply exact_ex; exact MM | unfold Qcdiv; ring].
  - eapply eq_rect; [apply exact_ch; exact MM | unfold Qcdiv; ring].
  - eapply eq_rect; [apply exact_abs; exact MM | unfold Qcdiv; ring].
  - eapply eq_rect; [eapply exact_vp; [exact MM|exact Hext] | unfold Qcdiv; ring].
  - eapply eq_rect; [eapply exact_pct; [exact MM|exact Hs] | unfold Qcdiv; ring].
Qed.

(** ** Proofs of the properties C01-C05 *)
Lemma px_nearest_lemma c u p : px c u = Ok p ->
  exists q, exact_px c u q /\ on_grid (nval p)
    /\ (nval p - qfrac 1 128 <= q /\ q <= nval p + qfrac 1 128)%Qc
    /\ (on_grid q -> nval p = q).
Proof.
  intros H. apply px_inv in H as (q & E & ->). exists q. rewrite lu_to_px_val.
  split; [exact E|]. split; [eexists; reflexivity|]. split; [apply round_px_near|].
  intros [k ->]. rewrite round_px_grid. reflexivity.
Qed.

Lemma px_defined_lemma c u q : exact_px c u q -> exists p, px c u = Ok p.
Proof. intros H. eexists. apply (px_exact _ _ _ H). Qed.

Lemma px_monotone_lemma c u s a b va vb pa pb :
  exact_px c u s -> (0 <= s)%Qc -> magnitude a va -> magnitude b vb -> (va <= vb)%Qc ->
  px c (rmul a u) = Ok pa -> px c (rmul b u) = Ok pb -> (nval pa <= nval pb)%Qc.
Proof.
  intros E Hs Ma Mb Hab Ha Hb.
  rewrite (px_exact _ _ _ (exact_rmul _ _ _ _ _ E Ma)) in Ha.
  rewrite (px_exact _ _ _ (exact_rmul _ _ _ _ _ E Mb)) in Hb.
  apply Ok_inj in Ha; apply Ok_inj in Hb; subst pa pb. rewrite !lu_to_px_val. apply qfrac_64_le, rhe_mono.
  unfold Qcle in *. rewrite !this_mul, this_Z2Qc. change (inject_Z 64) with 64%Q. rewrite this_0 in Hs.
  assert (this va * this s <= this vb * this s)%Q by (apply Qmult_le_compat_r; assumption). lra.
Qed.

Lemma px_int_lemma c u p : px c u = Ok p -> (is_int p = true <-> exists z, nval p = Z2Qc z).
Proof. intros H. apply px_inv in H as (q & _ & ->). rewrite lu_to_px_int, lu_to_px_val. reflexivity. Qed.

Lemma xmul_pos_assoc a k (Hk : (0 < k)%Qc) : forall b, xmul (xmul (Fin k) a) b = xmul (Fin k) (xmul a b).
Proof.
  assert (K0 : qc_eqb k 0 = false) by (destruct (qc_eqb_spec k 0); trivial; exfalso; qclra).
  assert (K1 : qc_ltb k 0 = false) by (destruct (qc_ltb_spec k 0); trivial; exfalso; qclra).
  assert (Hs : forall y, y <> 0%Qc -> (k * y)%Qc <> 0%Qc).
  { intros y Hy Hky. apply Qcmult_integral in Hky as [H|H]; [subst; unfold Qclt in Hk; qc_push; lra|contradiction]. }
  assert (Hl : forall y, qc_ltb (k * y) 0 = qc_ltb y 0).
  { intros y. destruct (qc_ltb_spec (k*y) 0) as [A|A], (qc_ltb_spec y 0) as [B|B]; trivial; exfalso;
      unfold Qclt in *; qc_push; nra. }
  intros b. destruct a as [x|s|], b as [y|t|]; cbn [xmul]; rewrite ?K0, ?K1; cbn [xorb xmul]; trivial.
  - f_equal. ring.
  - destruct (qc_eqb_spec x 0) as [->|N].
    + replace (k * 0)%Qc with 0%Qc by ring. rewrite qc_eqb_refl. reflexivity.
    + destruct (qc_eqb_spec (k*x) 0) as [E|_]; [exfalso; exact (Hs x N E)|]. rewrite Hl.
      cbn [xmul]. rewrite ?K0, ?K1. destruct (xorb _ _); reflexivity.
  - destruct (qc_eqb y 0); cbn [xmul]; rewrite ?K0, ?K1; destruct s; try destruct (qc_ltb y 0); reflexivity.
  - rewrite ?K0, ?K1. destruct s; try destruct t; reflexivity.
Qed.

Lemma xmul_comm a b : xmul a b = xmul b a.
Proof.
  destruct a as [x|s|], b as [y|t|]; cbn [xmul]; trivial.
  - f_equal. ring.
  - destruct (qc_eqb x 0); trivial. rewrite xorb_comm. reflexivity.
  - destruct (qc_eqb y 0); trivial. rewrite xorb_comm. reflexivity.
  - rewrite xorb_comm. reflexivity.
Qed.

Lemma abs_scale c s1 s2 k1 k2 n v :
  (0 < Z2Qc n)%Qc -> k1 = (Z2Qc n * k2)%Qc ->
  px c (rmul v (mkU (KAbs s1 k1) one)) = px c (rmul (pmul (PI n) v) (mkU (KAbs s2 k2) one)).
Proof.
  intros Hn Hk.
  assert (H64 : (0 < Z2Qc LU_PER_PIXEL)%Qc) by reflexivity.
  assert (One : forall a, xmul (Fin (Z2Qc 1)) a = a).
  { intros [x|t|]; [|destruct t; reflexivity|reflexivity].
    cbn [xmul]. f_equal. change (Z2Qc 1) with 1%Qc. ring. }
  assert (E : xmul (xmul lu64 (xmul (Fin (Z2Qc 1)) (pval v))) (Fin (k1 / Z2Qc 72)%Qc)
    = xmul (xmul lu64 (xmul (Fin (Z2Qc 1)) (xmul (Fin (Z2Qc n)) (pval v)))) (Fin (k2 / Z2Qc 72)%Qc)).
  { rewrite !One. unfold lu64. rewrite !xmul_pos_assoc by assumption. f_equal.
    destruct (pval v) as [x|t|].
    - cbn [xmul]. subst k1. f_equal. unfold Qcdiv. ring.
    - subst k1. replace (Z2Qc n * k2 / Z2Qc 72)%Qc with (Z2Qc n * (k2 / Z2Qc 72))%Qc by (unfold Qcdiv; ring).
      exact (eq_trans (xmul_comm (Inf t) (Fin (Z2Qc n * (k2 / Z2Qc 72))%Qc))
        (eq_trans (xmul_pos_assoc (Fin (k2 / Z2Qc 72)%Qc) (Z2Qc n) Hn (Inf t))
           (f_equal (xmul (Fin (Z2Qc n))) (xmul_comm _ _)))).
    - reflexivity. }
  unfold px, lu, rmul, dup. cbn [u_kind u_val]. rewrite !pmul_val. cbn [pval one]. rewrite E. reflexivity.
Qed.
