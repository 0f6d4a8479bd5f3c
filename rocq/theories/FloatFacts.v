(** * Facts about binary64 rounding: error bound and exactly representable numbers *)
From Coq Require Import ZArith QArith Qcanon Qabs Qround Lqa Lia Bool.
From Verif Require Import PyNum NumFacts Float64 TextFacts.
Open Scope Z_scope.

(** ** Powers of two *)
Lemma qpow2_gt0 e : (0 < qpow2 e)%Q.
Proof.
  unfold qpow2. destruct (Z.leb_spec 0 e).
  - change 0%Q with (inject_Z 0). rewrite <- Zlt_Qlt. apply Z.pow_pos_nonneg; lia.
  - reflexivity.
Qed.
Lemma qpow2_add a b : (qpow2 (a + b) == qpow2 a * qpow2 b)%Q.
Proof.
  assert (P : forall a b, 0 <= a -> 0 <= b -> (qpow2 (a + b) == qpow2 a * qpow2 b)%Q).
  { intros x y X Y. rewrite !qpow2_pos by lia. rewrite Z.pow_add_r by lia. rewrite inject_Z_mult. reflexivity. }
  assert (I : forall x, (qpow2 (- x) == / qpow2 x)%Q).
  { intros x. pose proof (qpow2_inv x) as E. pose proof (qpow2_gt0 x). field_simplify_eq; [|lra]. rewrite <- E. ring. }
  assert (N : forall a b, 0 <= a -> b < 0 -> (qpow2 (a + b) == qpow2 a * qpow2 b)%Q).
  { intros x y X Y. replace y with (- (- y)) at 2 by lia. rewrite I. pose proof (qpow2_gt0 (- y)).
    destruct (Z_le_gt_dec 0 (x + y)).
    - replace x with ((x + y) + (- y)) at 2 by lia. rewrite (P (x + y) (- y)) by lia. field. lra.
    - replace (x + y) with (- (- (x + y))) by lia. rewrite I. replace (- y) with (- (x + y) + x) at 1 by lia. rewrite (P (- (x + y)) x) by lia.
      pose proof (qpow2_gt0 x). pose proof (qpow2_gt0 (- (x + y))). field. split; lra. }
  destruct (Z_le_gt_dec 0 a), (Z_le_gt_dec 0 b).
  - apply P; lia.
  - apply N; lia.
  - rewrite Z.add_comm, Qmult_comm. apply N; lia.
  - replace (a + b) with (- ((- a) + (- b))) by lia. rewrite I, (P (- a) (- b)) by lia. pose proof (I (- a)) as Ia. pose proof (I (- b)) as Ib. rewrite Z.opp_involutive in Ia, Ib. rewrite Ia, Ib.
    pose proof (qpow2_gt0 (- a)). pose proof (qpow2_gt0 (- b)). field. split; lra.
Qed.
Lemma qpow2_le a b : a <= b -> (qpow2 a <= qpow2 b)%Q.
Proof.
  intros H. replace b with (a + (b - a)) by lia. rewrite qpow2_add. pose proof (qpow2_gt0 a).
  assert (1 <= qpow2 (b - a))%Q. { rewrite qpow2_pos by lia. change 1%Q with (inject_Z 1). rewrite <- Zle_Qle. pose proof (Z.pow_pos_nonneg 2 (b - a)). lia. }
  nra.
Qed.
Lemma qpow2_lt_inv a b : (qpow2 a < qpow2 b)%Q -> a < b.
Proof. intros H. destruct (Z_lt_le_dec a b) as [L|L]; [exact L|]. apply qpow2_le in L. lra. Qed.

Lemma Q_split q : (q == inject_Z (Qnum q) / inject_Z (Zpos (Qden q)))%Q.
Proof. destruct q as [n d]. unfold Qdiv, Qmult, Qinv, inject_Z, Qeq. cbn. lia. Qed.
Lemma ilog2_spec q : (0 < q)%Q -> (qpow2 (ilog2 q) <= q)%Q /\ (q < qpow2 (ilog2 q + 1))%Q.
Proof.
  intros H. assert (Hn : 0 < Qnum q) by (unfold Qlt in H; cbn in H; lia).
  set (n := Qnum q) in *. set (d := Zpos (Qden q)). assert (Hd : 0 < d) by (unfold d; lia).
  pose proof (Z.log2_spec n Hn) as [N1 N2]. pose proof (Z.log2_spec d Hd) as [D1 D2]. pose proof (Z.log2_nonneg n). pose proof (Z.log2_nonneg d).
  assert (Q1 : forall e, 0 <= e -> ((qpow2 e <= q)%Q <-> d * 2 ^ e <= n)).
  { intros e E. rewrite qpow2_pos by exact E. unfold Qle, inject_Z. cbn [Qnum Qden]. fold n d. lia. }
  assert (Q2 : forall e, e < 0 -> ((qpow2 e <= q)%Q <-> d <= n * 2 ^ (- e))).
  { intros e E. unfold qpow2. destruct (Z.leb_spec 0 e); [lia|]. unfold Qle. cbn [Qnum Qden]. fold n d.
    rewrite Z2Pos.id by (apply Z.pow_pos_nonneg; lia). lia. }
  assert (K : forall e, e = Z.log2 n - Z.log2 d -> (qpow2 (e - 1) <= q)%Q /\ (q < qpow2 (e + 1))%Q).
  { intros e E. split.
    - destruct (Z_le_gt_dec 0 (e - 1)).
      + apply Q1; [lia|]. apply Z.le_trans with (2 ^ Z.succ (Z.log2 d) * 2 ^ (e - 1)); [apply Z.mul_le_mono_nonneg_r; [apply Z.pow_nonneg; lia|lia]|].
        rewrite <- Z.pow_add_r by lia. replace (Z.succ (Z.log2 d) + (e - 1)) with (Z.log2 n) by lia. exact N1.
      + apply Q2; [lia|]. apply Z.le_trans with (2 ^ Z.log2 n * 2 ^ (- (e - 1))); [|apply Z.mul_le_mono_nonneg_r; [apply Z.pow_nonneg; lia|lia]].
        rewrite <- Z.pow_add_r by lia. replace (Z.log2 n + - (e - 1)) with (Z.succ (Z.log2 d)) by lia. lia.
    - apply Qnot_le_lt. intros C. destruct (Z_le_gt_dec 0 (e + 1)).
      + apply Q1 in C; [|lia]. assert (2 ^ Z.log2 d * 2 ^ (e + 1) <= n) by (eapply Z.le_trans; [|exact C]; apply Z.mul_le_mono_nonneg_r; [apply Z.pow_nonneg; lia|lia]).
        rewrite <- Z.pow_add_r in H2 by lia. replace (Z.log2 d + (e + 1)) with (Z.succ (Z.log2 n)) in H2 by lia. lia.
      + apply Q2 in C; [|lia]. assert (d < 2 ^ Z.succ (Z.log2 n) * 2 ^ (- (e + 1)) + 1 - 0). 2: { rewrite <- Z.pow_add_r in H2 by lia. 
        assert (n * 2 ^ (- (e + 1)) < 2 ^ Z.succ (Z.log2 n) * 2 ^ (- (e + 1))) by (apply Z.mul_lt_mono_pos_r; [apply Z.pow_pos_nonneg; lia|lia]).
        rewrite <- Z.pow_add_r in H3 by lia. replace (Z.succ (Z.log2 n) + - (e + 1)) with (Z.log2 d) in H3 by lia. lia. }
        assert (n * 2 ^ (- (e + 1)) < 2 ^ Z.succ (Z.log2 n) * 2 ^ (- (e + 1))) by (apply Z.mul_lt_mono_pos_r; [apply Z.pow_pos_nonneg; lia|lia]). lia. }
  unfold ilog2. fold n. set (e := Z.log2 n - Z.log2 d). change (Z.pos (Qden q)) with d. fold e. destruct (K e eq_refl) as [K1 K2].
  destruct (Z.leb_spec 0 e).
  - destruct (Z.leb_spec (d * 2 ^ e) n); [split; [apply Q1; assumption|exact K2]|split; [exact K1|]].
    apply Qnot_le_lt. intros C. replace (e - 1 + 1) with e in C by lia. apply Q1 in C; lia.
  - destruct (Z.leb_spec d (n * 2 ^ (- e))); [split; [apply Q2; assumption|exact K2]|split; [exact K1|]].
    apply Qnot_le_lt. intros C. replace (e - 1 + 1) with e in C by lia. apply Q2 in C; lia.
Qed.
Lemma ilog2_unique q e : (qpow2 e <= q)%Q -> (q < qpow2 (e + 1))%Q -> ilog2 q = e.
Proof.
  intros A B. assert (P : (0 < q)%Q) by (pose proof (qpow2_gt0 e); lra). destruct (ilog2_spec q P) as [C D].
  assert (ilog2 q < e + 1) by (apply qpow2_lt_inv; lra). assert (e < ilog2 q + 1) by (apply qpow2_lt_inv; lra). lia.
Qed.
Lemma inj_abs z : (inject_Z (Z.abs z) == Qabs (inject_Z z))%Q. Proof. reflexivity. Qed.
Lemma Qabs_pow2 q e : (Qabs (q * qpow2 e) == Qabs q * qpow2 e)%Q.
Proof. rewrite Qabs_Qmult. rewrite (Qabs_pos (qpow2 e)); [reflexivity|]. pose proof (qpow2_gt0 e). lra. Qed.

(** ** The shape of a rounding *)
Lemma b64_shape q : ~ (q == 0)%Q -> (Qabs q < qpow2 1022)%Q ->
  let ex := Z.max (ilog2 (Qabs q) - 52) (-1074) in let m := round_half_even (q * qpow2 (- ex))%Q in
  b64 q = Fin (Q2Qc (inject_Z m * qpow2 ex)%Q) /\ Z.abs m <= 2 ^ 53.
Proof.
  intros NZ B. cbn zeta. assert (P : (0 < Qabs q)%Q).
  { destruct (Qlt_le_dec 0 (Qabs q)) as [L|L]; [exact L|]. exfalso. apply NZ. pose proof (Qabs_nonneg q). apply Qabs_Qle_condition in L. lra. }
  destruct (ilog2_spec _ P) as [L1 L2]. set (L := ilog2 (Qabs q)) in *. set (ex := Z.max (L - 52) (-1074)).
  set (m := round_half_even (q * qpow2 (- ex))%Q).
  assert (M : Z.abs m <= 2 ^ 53).
  { assert (X : (Qabs (q * qpow2 (- ex)) < inject_Z (2 ^ 53))%Q).
    { rewrite Qabs_pow2. rewrite <- (qpow2_pos 53) by lia. assert (E : (Qabs q * qpow2 (- ex) < qpow2 (L + 1) * qpow2 (- ex))%Q) by (pose proof (qpow2_gt0 (- ex)); nra).
      rewrite <- qpow2_add in E. assert (qpow2 (L + 1 + - ex) <= qpow2 53)%Q by (apply qpow2_le; unfold ex; lia). lra. }
    apply Qabs_Qlt_condition in X. destruct X as [X1 X2].
    assert (m <= 2 ^ 53). { replace (2 ^ 53) with (round_half_even (inject_Z (2 ^ 53))) by apply rhe_Z. apply rhe_mono. lra. }
    assert (- 2 ^ 53 <= m). { replace (- 2 ^ 53) with (round_half_even (inject_Z (- 2 ^ 53))) by apply rhe_Z. apply rhe_mono. rewrite inject_Z_opp. lra. }
    lia. }
  split; [|exact M]. unfold b64. destruct (Qeq_bool q 0) eqn:Z0; [apply Qeq_bool_eq in Z0; contradiction|]. cbv zeta. fold L. fold ex. fold m.
  destruct (Z.leb_spec (2 ^ 1024) (Z.abs m * 2 ^ (Z.max ex 0))) as [O|_]; [|reflexivity]. exfalso.
  assert (L < 1022) by (apply qpow2_lt_inv; lra).
  assert (2 ^ (Z.max ex 0) <= 2 ^ 970) by (apply Z.pow_le_mono_r; unfold ex; lia).
  assert (0 < 2 ^ Z.max ex 0) by (apply Z.pow_pos_nonneg; lia).
  assert (Z.abs m * 2 ^ (Z.max ex 0) <= 2 ^ 53 * 2 ^ 970) by (apply Z.mul_le_mono_nonneg; lia). rewrite <- Z.pow_add_r in H2 by lia. change (53 + 970) with 1023 in H2.
  assert (2 ^ 1023 < 2 ^ 1024) by (apply Z.pow_lt_mono_r; lia). lia.
Qed.
(** ** Representable numbers *)
Definition repr (q : Q) : Prop := exists m e, Z.abs m <= 2 ^ 53 /\ -1074 <= e /\ (q == inject_Z m * qpow2 e)%Q.
Lemma b64_repr q : repr q -> (Qabs q < qpow2 1022)%Q -> b64 q = Fin (Q2Qc q).
Proof.
  intros (m & e & Hm & He & Eq) B. destruct (Qeq_dec q 0) as [Z0|NZ].
  { unfold b64. apply Qeq_eq_bool in Z0 as Z1. rewrite Z1. f_equal. apply Qc_is_canon. cbn. rewrite Qred_correct. symmetry. exact Z0. }
  destruct (b64_shape q NZ B) as [S _]. cbn zeta in S. rewrite S. clear S. f_equal. apply Qc_is_canon. cbn [this Q2Qc]. rewrite !Qred_correct.
  assert (P : (0 < Qabs q)%Q).
  { destruct (Qlt_le_dec 0 (Qabs q)) as [L|L]; [exact L|]. exfalso. apply NZ. apply Qabs_Qle_condition in L. lra. }
  destruct (ilog2_spec _ P) as [L1 L2]. set (L := ilog2 (Qabs q)) in *. set (ex := Z.max (L - 52) (-1074)).
  assert (W : exists w, (q * qpow2 (- ex) == inject_Z w)%Q).
  { destruct (Z_le_gt_dec ex e) as [G|G].
    - exists (m * 2 ^ (e - ex)). rewrite Eq, inject_Z_mult, <- (qpow2_pos (e - ex)) by lia. replace (e - ex) with (e + - ex) by lia. rewrite qpow2_add. ring.
    - assert (ex = L - 52) by (unfold ex in *; lia).
      assert (AM : (Qabs q == inject_Z (Z.abs m) * qpow2 e)%Q) by (rewrite Eq, Qabs_pow2; reflexivity).
      assert (A1 : (qpow2 (L - e) <= inject_Z (Z.abs m))%Q).
      { replace (L - e) with (L + - e) by lia. rewrite qpow2_add. pose proof (qpow2_gt0 (- e)).
        assert (X : (inject_Z (Z.abs m) == Qabs q * qpow2 (- e))%Q) by (rewrite AM, <- Qmult_assoc, qpow2_inv; ring). rewrite X. nra. }
      assert (A2 : (qpow2 53 <= inject_Z (Z.abs m))%Q) by (pose proof (qpow2_le 53 (L - e) ltac:(lia)); lra).
      rewrite qpow2_pos in A2 by lia. rewrite <- Zle_Qle in A2. assert (E53 : Z.abs m = 2 ^ 53) by lia.
      assert (A3 : (qpow2 (L - e) <= qpow2 53)%Q) by (rewrite (qpow2_pos 53) by lia; rewrite <- E53; exact A1).
      assert (L - e <= 53). { destruct (Z_le_gt_dec (L - e) 53) as [X|X]; [exact X|]. pose proof (qpow2_le 54 (L - e) ltac:(lia)). assert (qpow2 53 < qpow2 54)%Q by reflexivity. lra. }
      exists (Z.sgn m * 2 ^ 52). assert (Em : m = Z.sgn m * 2 ^ 53) by (rewrite <- E53, Z.mul_comm; symmetry; apply Z.abs_sgn).
      rewrite Eq, Em at 1. rewrite !inject_Z_mult, <- (qpow2_pos 53), <- (qpow2_pos 52) by lia. rewrite <- !Qmult_assoc, <- !qpow2_add. replace (53 + (e + - ex)) with 52 by lia. reflexivity. }
  destruct W as [w W]. rewrite (rhe_comp _ _ W), rhe_Z, <- W, <- Qmult_assoc, (Qmult_comm (qpow2 (- ex))), qpow2_inv. ring.
Qed.
Lemma b64_repr_inv q r : b64 q = Fin r -> (Qabs q < qpow2 1022)%Q -> repr (this r).
Proof.
  intros E B. destruct (Qeq_dec q 0) as [Z0|NZ].
  { unfold b64 in E. apply Qeq_eq_bool in Z0. rewrite Z0 in E. injection E as <-. exists 0, 0. split; [lia|split; [lia|reflexivity]]. }
  destruct (b64_shape q NZ B) as [S M]. cbn zeta in S, M. rewrite S in E. injection E as <-. cbn [this Q2Qc].
  eexists _, _. split; [exact M|]. split; [|apply Qred_correct]. lia.
Qed.
(** ** Relative error: half a unit in the 53rd place *)
Lemma b64_error q : (qpow2 (-1022) <= Qabs q)%Q -> (Qabs q < qpow2 1022)%Q ->
  exists r, b64 q = Fin r /\ (Qabs (this r - q) <= qpow2 (-53) * Qabs q)%Q.
Proof.
  intros A B. pose proof (qpow2_gt0 (-1022)) as G. assert (NZ : ~ (q == 0)%Q) by (clear B; intros Z0; rewrite Z0 in A; change (Qabs 0) with 0%Q in A; apply (Qlt_not_le _ _ G A)).
  destruct (b64_shape q NZ B) as [S M]. cbn zeta in S, M. eexists. split; [exact S|]. cbn [this Q2Qc]. rewrite Qred_correct.
  destruct (ilog2_spec (Qabs q)) as [L1 L2]; [apply (Qlt_le_trans _ _ _ G A)|]. set (L := ilog2 (Qabs q)) in *.
  assert (-1022 < L + 1) by (apply qpow2_lt_inv; apply (Qle_lt_trans _ _ _ A L2)). rewrite Z.max_l in * by lia. set (ex := L - 52) in *.
  pose proof (rhe_near (q * qpow2 (- ex))) as R. set (m := round_half_even _) in *. clearbody m.
  assert (E : (inject_Z m * qpow2 ex - q == (inject_Z m - q * qpow2 (- ex)) * qpow2 ex)%Q).
  { rewrite <- (Qmult_1_r q) at 1. rewrite <- (qpow2_inv ex). ring. }
  rewrite E, Qabs_pow2. assert (X : (Qabs (inject_Z m - q * qpow2 (- ex)) <= 1 # 2)%Q) by (apply Qabs_Qle_condition; lra).
  assert (Y : ((1 # 2) * qpow2 ex <= qpow2 (-53) * Qabs q)%Q).
  { change (1 # 2)%Q with (qpow2 (-1)). rewrite <- qpow2_add. replace (-1 + ex) with (-53 + L) by (unfold ex; lia). rewrite qpow2_add. pose proof (qpow2_gt0 (-53)). nra. }
  pose proof (qpow2_gt0 ex). nra.
Qed.
(** ** b64 is the nearest representable number, ties to even *)
Lemma abs_lt_cases (a b : Q) : (Qabs a <= Qabs b)%Q <-> ((a <= b /\ - a <= b) \/ (a <= - b /\ - a <= - b))%Q.
Proof.
  split.
  - intros H. apply Qabs_Qle_condition in H. destruct (Qlt_le_dec b 0) as [L|L].
    + rewrite (Qabs_neg b) in H by lra. right. lra.
    + rewrite (Qabs_pos b) in H by lra. left. lra.
  - intros [H|H]; apply Qabs_Qle_condition.
    + pose proof (Qle_Qabs b). lra.
    + pose proof (Qle_Qabs (- b)) as X. rewrite Qabs_opp in X. lra.
Qed.
(** An integer is never nearer than the rounded one. *)
Lemma rhe_nearest x w : (Qabs (inject_Z (round_half_even x) - x) <= Qabs (inject_Z w - x))%Q
  /\ ((Qabs (inject_Z (round_half_even x) - x) == Qabs (inject_Z w - x))%Q -> w <> round_half_even x ->
      Z.even (round_half_even x) = true /\ (w = round_half_even x + 1 \/ w = round_half_even x - 1)).
Proof.
  pose proof (rhe_cases x) as C. cbn zeta in C. set (k := round_half_even x) in *. clearbody k.
  destruct (Z_lt_le_dec k w) as [L|L]; [|destruct (Z_lt_le_dec w k) as [M|M]].
  - assert (W : (inject_Z k + 1 <= inject_Z w)%Q) by (change 1%Q with (inject_Z 1); rewrite <- inject_Z_plus, <- Zle_Qle; lia).
    assert (P : (0 < inject_Z w - x)%Q) by (destruct C as [C|[_ [C|C]]]; lra). rewrite (Qabs_pos (inject_Z w - x)) by lra. split.
    + apply Qabs_Qle_condition. destruct C as [C|[_ [C|C]]]; lra.
    + intros E _. assert (T : (Qabs (inject_Z k - x) <= 1 # 2)%Q) by (apply Qabs_Qle_condition; destruct C as [C|[_ [C|C]]]; lra).
      assert (X : (x == inject_Z k + (1 # 2))%Q) by (destruct C as [C|[_ [C|C]]]; lra).
      split; [destruct C as [C|[C _]]; [lra|exact C]|]. left.
      assert (inject_Z w <= inject_Z (k + 1))%Q by (rewrite inject_Z_plus; change (inject_Z 1) with 1%Q; lra). rewrite <- Zle_Qle in H. lia.
  - assert (W : (inject_Z w + 1 <= inject_Z k)%Q) by (change 1%Q with (inject_Z 1); rewrite <- inject_Z_plus, <- Zle_Qle; lia).
    assert (P : (inject_Z w - x < 0)%Q) by (destruct C as [C|[_ [C|C]]]; lra). rewrite (Qabs_neg (inject_Z w - x)) by lra. split.
    + apply Qabs_Qle_condition. destruct C as [C|[_ [C|C]]]; lra.
    + intros E _. assert (T : (Qabs (inject_Z k - x) <= 1 # 2)%Q) by (apply Qabs_Qle_condition; destruct C as [C|[_ [C|C]]]; lra).
      assert (X : (x == inject_Z k - (1 # 2))%Q) by (destruct C as [C|[_ [C|C]]]; lra).
      split; [destruct C as [C|[C _]]; [lra|exact C]|]. right.
      assert (inject_Z (k - 1) <= inject_Z w)%Q by (unfold Z.sub; rewrite inject_Z_plus, inject_Z_opp; change (inject_Z 1) with 1%Q; lra). rewrite <- Zle_Qle in H. lia.
  - assert (w = k) by lia. subst w. split; [apply Qle_refl|]. intros _ N. contradiction.
Qed.
Lemma b64_nearest_fin q r : b64 q = Fin r -> forall y, repr y ->
  (Qabs (this r - q) <= Qabs (y - q))%Q
  /\ ((Qabs (this r - q) == Qabs (y - q))%Q -> ~ (y == this r)%Q ->
      exists m e, (this r == inject_Z (2 * m) * qpow2 e)%Q
        /\ ((y == inject_Z (2 * m + 1) * qpow2 e)%Q \/ (y == inject_Z (2 * m - 1) * qpow2 e)%Q)).
Proof.
  intros E y Ry. destruct (Qeq_dec q 0) as [Z0|NZ].
  { unfold b64 in E. apply Qeq_eq_bool in Z0 as Z1. rewrite Z1 in E. injection E as <-. change (this 0%Qc) with 0%Q.
    assert (A : (Qabs (0 - q) == 0)%Q) by (rewrite Z0; reflexivity). rewrite A. split; [apply Qabs_nonneg|].
    intros F N. exfalso. apply N. rewrite Z0 in F. assert (G : (Qabs (y - 0) <= 0)%Q) by (rewrite <- F; apply Qle_refl). apply Qabs_Qle_condition in G. lra. }
  unfold b64 in E. destruct (Qeq_bool q 0) eqn:Z1; [apply Qeq_bool_eq in Z1; contradiction|]. cbv zeta in E.
  destruct (2 ^ 1024 <=? _); [discriminate|]. injection E as <-. cbn [this Q2Qc].
  assert (P : (0 < Qabs q)%Q).
  { destruct (Qlt_le_dec 0 (Qabs q)) as [L|L]; [exact L|]. exfalso. apply NZ. apply Qabs_Qle_condition in L. lra. }
  destruct (ilog2_spec _ P) as [L1 L2]. set (L := ilog2 (Qabs q)) in *. set (ex := Z.max (L - 52) (-1074)) in *. set (x := (q * qpow2 (- ex))%Q).
  pose proof (qpow2_gt0 ex) as Px.
  assert (SC : forall w, (Qabs (inject_Z w * qpow2 ex - q) == Qabs (inject_Z w - x) * qpow2 ex)%Q).
  { intros w. rewrite <- Qabs_pow2. unfold x. assert (X : (inject_Z w * qpow2 ex - q == (inject_Z w - q * qpow2 (- ex)) * qpow2 ex)%Q); [|rewrite X; reflexivity].
    rewrite <- (Qmult_1_r q) at 1. rewrite <- (qpow2_inv ex). ring. }
  assert (K : forall w, (y == inject_Z w * qpow2 ex)%Q -> let r := Qred (inject_Z (round_half_even x) * qpow2 ex) in
     (Qabs (r - q) <= Qabs (y - q))%Q /\ ((Qabs (r - q) == Qabs (y - q))%Q -> ~ (y == r)%Q ->
      exists m e, (r == inject_Z (2 * m) * qpow2 e)%Q /\ ((y == inject_Z (2 * m + 1) * qpow2 e)%Q \/ (y == inject_Z (2 * m - 1) * qpow2 e)%Q))).
  { intros w Y. cbn zeta. rewrite !Qred_correct. destruct (rhe_nearest x w) as [N1 N2]. assert (R1 := SC (round_half_even x)). assert (R2 := SC w).
    assert (Y2 : (Qabs (y - q) == Qabs (inject_Z w - x) * qpow2 ex)%Q) by (rewrite Y; exact R2). rewrite R1, Y2. split.
    - apply Qmult_le_compat_r; [exact N1|apply Qlt_le_weak, Px].
    - intros Eq Ny. assert (Eq2 : (Qabs (inject_Z (round_half_even x) - x) == Qabs (inject_Z w - x))%Q) by (apply (Qmult_inj_r _ _ (qpow2 ex)); [intros Z; rewrite Z in Px; discriminate|exact Eq]).
      assert (Nw : w <> round_half_even x) by (intros ->; apply Ny; rewrite ?Qred_correct; exact Y).
      destruct (N2 Eq2 Nw) as [Ev C]. apply Z.even_spec in Ev. destruct Ev as [m Em]. exists m, ex. rewrite ?Qred_correct, Em. split; [reflexivity|].
      destruct C as [->| ->]; [left|right]; rewrite Y, Em; reflexivity. }
  cbn zeta in K. destruct Ry as (m & e & Hm & He & Ey). destruct (Z_le_gt_dec ex e) as [G|G].
  { apply (K (m * 2 ^ (e - ex))). rewrite Ey, inject_Z_mult, <- (qpow2_pos (e - ex)), <- Qmult_assoc, <- qpow2_add by lia. replace (e - ex + ex) with e by lia. reflexivity. }
  assert (EX : ex = L - 52) by (unfold ex in *; lia).
  assert (Ay : (Qabs y <= qpow2 L)%Q).
  { rewrite Ey, Qabs_pow2. change (Qabs (inject_Z m)) with (inject_Z (Z.abs m)). apply Qle_trans with (qpow2 53 * qpow2 e)%Q.
    - apply Qmult_le_compat_r; [rewrite qpow2_pos by lia; rewrite <- Zle_Qle; exact Hm|apply Qlt_le_weak, qpow2_gt0].
    - rewrite <- qpow2_add. apply qpow2_le. lia. }
  (* the power of two below q, on the grid of ex *)
  assert (B2 : forall s, (s = 1 \/ s = -1) -> (inject_Z s * qpow2 L == inject_Z (s * 2 ^ 52) * qpow2 ex)%Q).
  { intros s _. rewrite inject_Z_mult, <- (qpow2_pos 52), <- Qmult_assoc, <- qpow2_add by lia. replace (52 + ex) with L by lia. reflexivity. }
  set (s := if Qlt_le_dec q 0 then -1 else 1). assert (Hs : s = 1 \/ s = -1) by (unfold s; destruct Qlt_le_dec; auto).
  assert (Hq : (Qabs q == inject_Z s * q)%Q) by (unfold s; destruct (Qlt_le_dec q 0); [rewrite Qabs_neg by lra; ring|rewrite Qabs_pos by lra; ring]).
  destruct (Qeq_dec y (inject_Z s * qpow2 L)) as [Ye|Yn].
  { apply (K (s * 2 ^ 52)). rewrite Ye. apply B2, Hs. }
  assert (ST : (Qabs (inject_Z s * qpow2 L - q) < Qabs (y - q))%Q).
  { apply Qabs_Qle_condition in Ay. pose proof (qpow2_gt0 L). set (t := qpow2 L) in *. clearbody t. destruct Hs as [Es|Es]; rewrite Es in *.
    - change (inject_Z 1) with 1%Q in *. rewrite (Qabs_neg (1 * t - q)) by lra. rewrite (Qabs_neg (y - q)) by lra. assert (~ (y == t)%Q) by (intros X; apply Yn; rewrite X; ring). 
      destruct (Qlt_le_dec y t) as [C|C]; [lra|exfalso; apply H0; lra].
    - change (inject_Z (-1)) with (-1)%Q in *. rewrite (Qabs_pos (-1 * t - q)) by lra. rewrite (Qabs_pos (y - q)) by lra. assert (~ (y == - t)%Q) by (intros X; apply Yn; rewrite X; ring).
      destruct (Qlt_le_dec (- t) y) as [C|C]; [lra|exfalso; apply H0; lra]. }
  assert (BEST : (Qabs (Qred (inject_Z (round_half_even x) * qpow2 ex) - q) <= Qabs (inject_Z s * qpow2 L - q))%Q).
  { rewrite Qred_correct, (SC (round_half_even x)), (B2 s Hs), (SC (s * 2 ^ 52)). apply Qmult_le_compat_r; [apply rhe_nearest|apply Qlt_le_weak, Px]. }
  fold x. split; [lra|]. intros Eq. lra.
Qed.
Lemma b64_nearest q r : b64 q = Fin r -> (Qabs q < qpow2 1022)%Q -> forall y, repr y ->
  (Qabs (this r - q) <= Qabs (y - q))%Q
  /\ ((Qabs (this r - q) == Qabs (y - q))%Q -> ~ (y == this r)%Q ->
      exists m e, (this r == inject_Z (2 * m) * qpow2 e)%Q
        /\ ((y == inject_Z (2 * m + 1) * qpow2 e)%Q \/ (y == inject_Z (2 * m - 1) * qpow2 e)%Q)).
Proof. intros E _. exact (b64_nearest_fin q r E). Qed.
