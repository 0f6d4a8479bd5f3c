(** * Properties C01-C05: conversion of lengths to pixels *)
From Coq Require Import ZArith QArith Qcanon Bool List String.
From Verif Require Import PyNum Units UnitsSpec NumFacts UnitsFacts.
Open Scope Qc_scope.

(** C01.  Whenever px() returns, the result is a multiple of 1/64 within 1/128
    of the exact value, and equals it if that is a multiple of 1/64. *)
Theorem C01_px_rounds_to_nearest : forall c u p, px c u = Ok p ->
  exists q, exact_px c u q /\ on_grid (nval p)
    /\ (nval p - qfrac 1 128 <= q /\ q <= nval p + qfrac 1 128)
    /\ (on_grid q -> nval p = q).
Proof. exact px_nearest_lemma. Qed.
Print Assumptions C01_px_rounds_to_nearest.

(** C01, companion: px() returns for every length that has an exact value, and
    that value is unique. *)
Theorem C01_px_defined : forall c u q, exact_px c u q -> exists p, px c u = Ok p.
Proof. exact px_defined_lemma. Qed.
Print Assumptions C01_px_defined.

Theorem C01_exact_value_unique : forall c u q q', exact_px c u q -> exact_px c u q' -> q = q'.
Proof. exact exact_px_fun. Qed.
Print Assumptions C01_exact_value_unique.

(** C02 *)
Theorem C02_px_monotone : forall c u s a b va vb pa pb,
  exact_px c u s -> 0 <= s -> magnitude a va -> magnitude b vb -> va <= vb ->
  px c (rmul a u) = Ok pa -> px c (rmul b u) = Ok pb -> nval pa <= nval pb.
Proof. exact px_monotone_lemma. Qed.
Print Assumptions C02_px_monotone.

(** C02: also when px raises, (-u).px raises the same exception. *)
Theorem C02_px_odd : forall c u,
  px c (uneg u) = match px c u with Ok p => Ok (nneg p) | Err e => Err e end.
Proof. exact px_uneg. Qed.
Print Assumptions C02_px_odd.

(** C03 *)
Theorem C03_int_iff_whole : forall c u p, px c u = Ok p ->
  (is_int p = true <-> exists z, nval p = Z2Qc z).
Proof. exact px_int_lemma. Qed.
Print Assumptions C03_int_iff_whole.

(** C04: v in = 72v pt = 6v pc, v cm = 10v mm, at every dpi; [rmul v u] is
    the Python expression [v * u].  Includes infinite and NaN v (same exception). *)
Theorem C04_physical_units_agree : forall c v,
  px c (rmul v in_u) = px c (rmul (pmul (PI 72) v) pt_u)
  /\ px c (rmul v in_u) = px c (rmul (pmul (PI 6) v) pc_u)
  /\ px c (rmul v cm_u) = px c (rmul (pmul (PI 10) v) mm_u).
Proof.
  intros c v. repeat split; apply abs_scale; try reflexivity; apply qc_eq; reflexivity.
Qed.
Print Assumptions C04_physical_units_agree.

(** C05 *)
Theorem C05_percent_identity : forall d f s, on_grid (nval s) ->
  exists p, px (mkCtx d f (LNum s)) (rmul (PI 100) pct_u) = Ok p /\ nval p = nval s.
Proof.
  intros d f s [k Hk]. eexists. split.
  - apply px_exact. apply exact_rmul; [|constructor]. eapply exact_pct; [constructor|reflexivity].
  - rewrite lu_to_px_val.
    replace (Z2Qc 64 * (Z2Qc 100 * (Z2Qc 1 * nval s / Z2Qc 100)))%Qc with (Z2Qc 64 * qfrac k 64)%Qc.
    + rewrite round_px_grid. symmetry. exact Hk.
    + rewrite Hk. unfold Qcdiv. f_equal. change (Z2Qc 1) with 1%Qc.
      replace (Z2Qc 100 * (1 * qfrac k 64 * / Z2Qc 100))%Qc
        with (qfrac k 64 * (Z2Qc 100 * / Z2Qc 100))%Qc by ring.
      rewrite Qcmult_inv_r by discriminate. ring.
Qed.
Print Assumptions C05_percent_identity.

Theorem C05_percent_zero : forall d f s,
  px (mkCtx d f (LNum s)) (rmul (PI 0) pct_u) = Ok (NI 0).
Proof.
  intros d f s. rewrite (px_exact _ _ 0%Qc).
  - reflexivity.
  - eapply eq_rect; [apply exact_rmul; [eapply exact_pct; [constructor|reflexivity]|constructor]|].
    change (Z2Qc 0) with 0%Qc. ring.
Qed.
Print Assumptions C05_percent_zero.

(** v vw (vh) is v% of the display width (height), in any context. *)
Theorem C05_viewport_percent : forall d f sz v,
  (exists q, pval v = Fin q) ->
  px (mkCtx d f sz) (rmul v vw_u) = px (mkCtx d f (LNum (disp_width d))) (rmul v pct_u)
  /\ px (mkCtx d f sz) (rmul v vh_u) = px (mkCtx d f (LNum (disp_height d))) (rmul v pct_u).
Proof.
  intros d f sz v [q Hq]. apply magnitude_pval in Hq.
  split.
  - rewrite (px_exact _ _ (q * (1 * nval (disp_width d) / Z2Qc 100)));
      [symmetry; apply px_exact|]; (apply exact_rmul; [|exact Hq]).
    + eapply exact_pct; [constructor|reflexivity].
    + eapply exact_vp; [constructor|constructor].
  - rewrite (px_exact _ _ (q * (1 * nval (disp_height d) / Z2Qc 100)));
      [symmetry; apply px_exact|]; (apply exact_rmul; [|exact Hq]).
    + eapply exact_pct; [constructor|reflexivity].
    + eapply exact_vp; [constructor|constructor].
Qed.
Print Assumptions C05_viewport_percent.

Theorem C05_vmin_vmax : forall c v q pw ph pmin pmax,
  magnitude v q -> 0 <= q ->
  px c (rmul v vw_u) = Ok pw -> px c (rmul v vh_u) = Ok ph ->
  px c (rmul v vmin_u) = Ok pmin -> px c (rmul v vmax_u) = Ok pmax ->
  nval pmin <= nval pw /\ nval pmin <= nval ph /\ nval pw <= nval pmax /\ nval ph <= nval pmax.
Proof.
  intros c v q pw ph pmin pmax M Hq Hw Hh Hmin Hmax.
  assert (G : forall s sc e, extent (c_disp c) sc e ->
     px c (rmul v (mkU (KVp s sc) one)) =
     Ok (lu_to_px (round_half_even (this (Z2Qc 64 * (q * (1 * e / Z2Qc 100)))%Qc)))).
  { intros s sc e He. apply px_exact. apply exact_rmul; [|exact M]. eapply exact_vp; [constructor|exact He]. }
  unfold vw_u, vh_u, vmin_u, vmax_u in *.
  rewrite (G _ _ _ (proj2 (extent_vp _ _ _) eq_refl)) in Hw. rewrite (G _ _ _ (proj2 (extent_vp _ _ _) eq_refl)) in Hh.
  rewrite (G _ _ _ (proj2 (extent_vp _ _ _) eq_refl)) in Hmin. rewrite (G _ _ _ (proj2 (extent_vp _ _ _) eq_refl)) in Hmax.
  apply Ok_inj in Hw, Hh, Hmin, Hmax. subst pw ph pmin pmax.
  rewrite !lu_to_px_val, !qfrac_64_le.
  assert (Mono : forall a b, a <= b -> (round_half_even (this (Z2Qc 64 * (q * (1 * a / Z2Qc 100)))%Qc)
     <= round_half_even (this (Z2Qc 64 * (q * (1 * b / Z2Qc 100)))%Qc))%Z).
  { intros a b Hab. apply rhe_mono. unfold Qcle in *.
    rewrite !this_mul, !this_div, !this_mul, !this_Z2Qc, this_1. rewrite this_0 in Hq.
    change (inject_Z 64) with 64%Q. change (inject_Z 100) with 100%Q.
    unfold Qdiv. change (/ 100)%Q with (1 # 100)%Q.
    assert (this q * this a <= this q * this b)%Q.
    { rewrite (Qmult_comm (this q)), (Qmult_comm (this q) (this b)). apply Qmult_le_compat_r; assumption. }
    Lqa.lra. }
  assert (X1 := proj2 (extent_vp (c_disp c) ScaleVmin _) eq_refl).
  assert (X2 := proj2 (extent_vp (c_disp c) ScaleVmax _) eq_refl).
  inversion X1; inversion X2; subst. cbn [vp_extent] in *.
  repeat split; apply Mono; assumption.
Qed.
Print Assumptions C05_vmin_vmax.

(** ** Concrete, non-trivial instances of the hypotheses *)
Definition ex_disp : display_t :=
  mkDisp (NI 96) (NI 1024) (NF (qfrac 1537 2)) (fun k => match k with Thin => NI 1 | Medium => NI 5 | Thick => NI 10 end).
Definition ex_ctx : ctx := mkCtx ex_disp (mkFont (NI 12)) (LNum (NF (qfrac 1001 64))).

(** 1.3cm at 96 dpi is 49.13... px, rounded to 3145/64 *)
Example C01_example : px ex_ctx (rmul (PF (Fin (qfrac 13 10))) cm_u) = Ok (NF (qfrac 3145 64)).
Proof. vm_compute. reflexivity. Qed.
Example C02_example : exists p p',
  px ex_ctx (rmul (PF (Fin (qfrac 13 10))) em_u) = Ok p
  /\ px ex_ctx (rmul (PI 7) em_u) = Ok p' /\ qc_ltb (nval p) (nval p') = true
  /\ exists s, exact_px ex_ctx em_u s /\ 0 <= s.
Proof.
  do 2 eexists. split; [vm_compute; reflexivity|]. split; [vm_compute; reflexivity|].
  split; [vm_compute; reflexivity|]. eexists. split; [constructor; constructor|]. vm_compute. discriminate.
Qed.
Example C03_example : px ex_ctx (rmul (PI 25) pct_u) = Ok (NF (qfrac 250 64))
  /\ px ex_ctx (rmul (PI 12) pt_u) = Ok (NI 16).
Proof. split; vm_compute; reflexivity. Qed.
Example C05_example : on_grid (nval (NF (qfrac 1001 64)))
  /\ exists a b m x, px ex_ctx (rmul (PI 5) vw_u) = Ok a /\ px ex_ctx (rmul (PI 5) vh_u) = Ok b
  /\ px ex_ctx (rmul (PI 5) vmin_u) = Ok m /\ px ex_ctx (rmul (PI 5) vmax_u) = Ok x.
Proof. split; [eexists; reflexivity|]. do 4 eexists. repeat split; vm_compute; reflexivity. Qed.
(** 1.25in is 90pt and 7.5pc; 1.3cm is 13mm. *)
Example C04_example : px ex_ctx (rmul (PF (Fin (qfrac 5 4))) in_u) = Ok (NI 120) /\ px ex_ctx (rmul (PI 90) pt_u) = Ok (NI 120)
  /\ px ex_ctx (rmul (PF (Fin (qfrac 15 2))) pc_u) = Ok (NI 120) /\ px ex_ctx (rmul (PI 13) mm_u) = Ok (NF (qfrac 3145 64)).
Proof. repeat split; vm_compute; reflexivity. Qed.
