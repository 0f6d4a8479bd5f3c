(** * Binary64 arithmetic conforms to the checked arithmetic *)
From Coq Require Import ZArith QArith Qcanon Qabs Qround Lqa Lia Bool List.
From Verif Require Import PyNum NumFacts Float64 FloatFacts Units UnitsSpec UnitsFacts UnitsProps FloatUnits FloatProps
  BoxModel BoxSpec BoxFacts Engine EngineGrid EngineArith EngineArithFacts.
Import ListNotations.
Open Scope Z_scope.

Lemma small_le x : small x = true -> (Qabs (this (nval x)) <= qpow2 46)%Q.
Proof. unfold small. apply Qle_bool_iff. Qed.
Lemma num_py x : num_of_py (py_of_num x) = Ok x.
Proof. destruct x; reflexivity. Qed.
Lemma qc_eqb_true a b : qc_eqb a b = true -> a = b.
Proof. apply Qc_eq_bool_correct. Qed.
Lemma same_num_eq x y : same_num x y = true -> x = y.
Proof.
  destruct x, y; cbn; try discriminate; intros H; [apply Z.eqb_eq in H|apply qc_eqb_true in H]; subst; reflexivity.
Qed.
Lemma float_conforms : conforms checked_arith float_arith.
Proof.
  assert (L : (qpow2 46 <= qpow2 47)%Q) by (apply qpow2_le; lia).
  constructor.
  - intros x y r X Y E. cbn [a_add checked_arith] in E. apply guarded_ok in E. destruct E as (-> & S & _). cbn in S. apply andb_prop in S. destruct S as [Sx S].
    apply andb_prop in S. destruct S as [Sy _]. cbn [a_add float_arith].
    destruct (C108_layout_arithmetic_exact x y X Y (small_le x Sx) (small_le y Sy)) as (-> & _). apply num_py.
  - intros x y r X Y E. cbn [a_sub checked_arith] in E. apply guarded_ok in E. destruct E as (-> & S & _). cbn in S. apply andb_prop in S. destruct S as [Sx S].
    apply andb_prop in S. destruct S as [Sy _]. cbn [a_sub float_arith].
    destruct (C108_layout_arithmetic_exact x y X Y (small_le x Sx) (small_le y Sy)) as (_ & -> & _). apply num_py.
  - intros x y z r X Y E. cbn [a_mul checked_arith] in E. apply guarded_ok in E. destruct E as (-> & S & Sr). cbn in S. apply andb_prop in S. destruct S as [Sx S].
    apply andb_prop in S. destruct S as [Sy _]. cbn [a_mul float_arith].
    assert (Gy : on_grid (nval y)) by (rewrite Y; apply grid_Z).
    assert (Fx := grid_float x X (Qle_trans _ _ _ (small_le x Sx) L)). assert (Fy := grid_float y Gy (Qle_trans _ _ _ (small_le y Sy) L)).
    assert (G : on_grid (nval (nmul x y))) by (exact (gn_mul_whole x y z X Y)).
    assert (B := grid_b64 _ G (Qle_trans _ _ _ (small_le _ Sr) L)).
    assert (F : fmul (py_of_num x) (py_of_num y) = Ok (py_of_num (nmul x y))).
    { destruct x as [a|p], y as [b|q]; cbn [py_of_num fmul nmul nval] in *; try reflexivity; cbn [to_float] in *; rewrite ?Fx, ?Fy; cbn [bindr xmul rnd]; rewrite B; reflexivity. }
    rewrite F. apply num_py.
  - intros x r X E. cbn [a_half checked_arith] in E. apply guarded_ok in E. destruct E as (-> & S & _). cbn in S. apply andb_prop in S. destruct S as [Sx _]. cbn [a_half float_arith].
    destruct (C108_layout_arithmetic_exact x x X X (small_le x Sx) (small_le x Sx)) as (_ & _ & ->). apply num_py.
  - intros c u H. cbn [a_px checked_arith float_arith] in *. unfold agreed_px in *. destruct (px c u) as [x|e], (px_f c u) as [y|e']; try (contradiction H; reflexivity).
    + destruct (same_num x y) eqn:E; [|contradiction H; reflexivity]. apply same_num_eq in E. subst. reflexivity.
    + destruct (exn_eq_dec e e') as [->|]; [reflexivity|contradiction H; reflexivity].
Qed.
Lemma exact_conforms : conforms checked_arith exact_arith.
Proof.
  constructor.
  - intros x y r _ _ E. apply guarded_ok in E. destruct E as (-> & _). reflexivity.
  - intros x y r _ _ E. apply guarded_ok in E. destruct E as (-> & _). reflexivity.
  - intros x y z r _ _ E. apply guarded_ok in E. destruct E as (-> & _). reflexivity.
  - intros x r _ E. apply guarded_ok in E. destruct E as (-> & _). reflexivity.
  - intros c u H. destruct (agreed_cases c u) as [E|E]; [contradiction|]. symmetry. exact E.
Qed.
Lemma float_layout {S} (sty : S -> style) d h5 (n : node S) : gdisp d -> gtree n ->
  snd (layoutA checked_arith sty d h5 n) <> Err Unmodelled -> layoutA float_arith sty d h5 n = layout sty d h5 n.
Proof.
  intros D G H. rewrite <- ex_layout.
  destruct (s_layout _ _ checked_checks float_conforms sty d h5 n D G) as [E|E]; [contradiction|].
  destruct (s_layout _ _ checked_checks exact_conforms sty d h5 n D G) as [E'|E']; [contradiction|]. rewrite <- E, <- E'. reflexivity.
Qed.
