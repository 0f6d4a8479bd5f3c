(** * Angles in degrees: C168 *)
From Coq Require Import ZArith QArith Qcanon Qabs Qround Bool String List Lqa Lia.
From Verif Require Import PyNum NumFacts Float64 TextFacts FloatFacts ReadSpec ReadProps Units UnitsSpec UnitsFacts FloatUnits FloatUnitsFacts ParseSpec ClassProps Angle AngleSpec.
Import ListNotations.
Open Scope Z_scope.

(** *** Rounding is monotone and odd *)
Definition xle (a b : xq) : Prop :=
  match a, b with
  | Fin x, Fin y => (this x <= this y)%Q
  | Inf true, Fin _ | Inf true, Inf _ | Fin _, Inf false | Inf false, Inf false => True
  | _, _ => False
  end.
Lemma b64_mono p q : (p <= q)%Q -> xle (b64 p) (b64 q).
Proof.
  intros L. pose proof (b64_rounded p) as A. pose proof (b64_rounded q) as B. pose proof (b64_comp p q) as C.
  destruct (b64 p) as [x|s|], (b64 q) as [y|t|]; cbn [xle rounded] in *; try contradiction.
  - destruct A as (_ & D1 & N1), B as (_ & D2 & N2). destruct (Qlt_le_dec (this y) (this x)) as [G|G]; [|exact G]. exfalso.
    destruct (N1 (this y) D2) as [M1 _]. destruct (N2 (this x) D1) as [M2 _].
    assert (P1 : (this x + this y <= 2 * p)%Q).
    { destruct (Qlt_le_dec (2 * p) (this x + this y)) as [H|H]; [|exact H]. exfalso. assert (Z : (Qabs (this y - p) < this x - p)%Q) by (apply Qabs_Qlt_condition; split; lra). rewrite (Qabs_pos (this x - p)) in M1 by lra. lra. }
    assert (P2 : (2 * q <= this x + this y)%Q).
    { destruct (Qlt_le_dec (this x + this y) (2 * q)) as [H|H]; [|exact H]. exfalso. assert (Z : (Qabs (this x - q) < - (this y - q))%Q) by (apply Qabs_Qlt_condition; split; lra). rewrite (Qabs_neg (this y - q)) in M2 by lra. lra. }
    assert (E : (p == q)%Q) by lra. specialize (C E). injection C as ->. lra.
  - destruct t; [|exact I]. exfalso. destruct A as (A & _), B as (B & S). apply Qabs_Qlt_condition in A. assert (N : (q < 0)%Q) by (apply S; reflexivity). rewrite Qabs_neg in B by lra. lra.
  - destruct s; [exact I|]. destruct A as (A & S), B as (B & _). apply Qabs_Qlt_condition in B. destruct (Qlt_le_dec p 0) as [N|N]; [apply S in N; discriminate|]. rewrite Qabs_pos in A by exact N. lra.
  - destruct s; [exact I|]. destruct t; [|exact I]. destruct A as (A & S), B as (B & T). assert (N : (q < 0)%Q) by (apply T; reflexivity). assert (M : (p < 0)%Q) by lra. apply S in M. discriminate.
Qed.
Lemma double_opp r : double r -> double (- r).
Proof.
  intros [(m & e & M & E & R) B]. split; [|rewrite Qabs_opp; exact B]. exists (- m), e. split; [lia|]. split; [exact E|]. rewrite R, inject_Z_opp. ring.
Qed.
Lemma abs_swap a b : (Qabs (- a - b) == Qabs (a - - b))%Q.
Proof. rewrite <- Qabs_opp. apply Qabs_wd. ring. Qed.
Lemma b64_opp q : b64 (- q) = xneg (b64 q).
Proof.
  symmetry. apply (rounded_b64 (- q) (- q)); [reflexivity|]. pose proof (b64_rounded q) as A. destruct (b64 q) as [r|s|] eqn:E; cbn [xneg rounded] in *; [| |exact A].
  - destruct A as (L & D & N). split; [rewrite Qabs_opp; exact L|]. split.
    { destruct (double_opp _ D) as [(m & e & M & X & Y) B]. split; [exists m, e; split; [exact M|]; split; [exact X|]; rewrite this_opp; exact Y|]. rewrite this_opp. exact B. }
    intros r' D'. destruct (N (- r')%Q (double_opp r' D')) as [N1 N2]. assert (X : (Qabs (this (- r)%Qc - - q) == Qabs (this r - q))%Q).
    { rewrite this_opp, <- Qabs_opp. apply Qabs_wd. ring. }
    assert (Y : (Qabs (r' - - q) == Qabs (- r' - q))%Q) by (rewrite <- Qabs_opp; apply Qabs_wd; ring). rewrite X, Y. split; [exact N1|]. intros H K.
    destruct (N2 H) as (m & e & M1 & M2). { intros Z. apply K. rewrite this_opp, <- Z. ring. }
    exists (- m), e. split; [rewrite this_opp, M1; replace (2 * - m) with (- (2 * m)) by lia; rewrite inject_Z_opp; ring|].
    destruct M2 as [M2|M2]; [right; replace (2 * - m - 1) with (- (2 * m + 1)) by lia|left; replace (2 * - m + 1) with (- (2 * m - 1)) by lia]; rewrite inject_Z_opp;
      (assert (Z : (r' == - - r')%Q) by ring; rewrite Z, M2; ring).
  - destruct A as (L & S). split; [rewrite Qabs_opp; exact L|]. destruct s; cbn [negb]; split; intros H; try discriminate.
    + assert (q < 0)%Q by (apply S; reflexivity). lra.
    + destruct (Qlt_le_dec q 0) as [X|X]; [apply S in X; discriminate|]. destruct (Qlt_le_dec 0 q) as [Y|Y]; [lra|]. exfalso. assert (Z : (q == 0)%Q) by lra. rewrite Z in L. vm_compute in L. apply L. reflexivity.
    + reflexivity.
Qed.

(** *** The four units *)
Lemma angle_scale u f : in_degrees u f -> exists s sc, u_kind u = KAngle s sc /\ (this sc == f)%Q /\ ord 9 f /\ (0 < f)%Q
  /\ ((exists k, py_scale sc = PI k /\ 0 < k /\ (f == inject_Z k)%Q) \/ exists d, py_scale sc = PF (Fin d) /\ (0 < this d)%Q).
Proof.
  intros (t & I & F). unfold css_units in I. cbn [In] in I. destruct F;
    repeat (destruct I as [I|I]; [try discriminate I|]); try contradiction; apply (f_equal snd) in I; cbn [snd] in I.
  all: do 2 eexists; (split; [symmetry; exact I|]); (split; [vm_compute; reflexivity|]); (split; [right; split; vm_compute; discriminate|]); (split; [reflexivity|]).
  - left. exists 1. split; [vm_compute; reflexivity|]. split; reflexivity.
  - right. eexists. split; [vm_compute; reflexivity|]. reflexivity.
  - right. eexists. split; [vm_compute; reflexivity|]. reflexivity.
  - left. exists 360. split; [vm_compute; reflexivity|]. split; reflexivity.
Qed.
(** The end of deg(): a whole product becomes an int. *)
Definition tidy (value : pynum) : res pynum :=
  i <-r py_trunc value ;; Ok (if py_num_eqb value (PI i) then PI i else value).
Lemma tidy_value v r : tidy v = Ok r -> pval r = pval v.
Proof.
  unfold tidy, py_num_eqb. destruct v as [z|[q|s|]]; cbn [py_trunc xtrunc bindr pval xeqb]; intros H; try discriminate; injection H as <-.
  - rewrite qc_eqb_refl. reflexivity.
  - destruct (qc_eqb_spec q (Z2Qc (trunc_q (this q)))) as [E|_]; [|reflexivity]. cbn [pval]. f_equal. symmetry. exact E.
Qed.
Lemma tidy_ok v q : pval v = Fin q -> exists r, tidy v = Ok r /\ pval r = Fin q.
Proof.
  intros E. destruct (tidy v) as [r|e] eqn:T; [exists r; split; [reflexivity|]; rewrite (tidy_value _ _ T); exact E|].
  exfalso. unfold tidy in T. destruct v as [z|x]; cbn in E; [|subst x]; cbn in T; discriminate.
Qed.
Lemma tidy_float v x : tidy v = Ok (PF x) -> exists q, x = Fin q /\ forall z, q <> Z2Qc z.
Proof.
  unfold tidy, py_num_eqb. destruct v as [z|[q|s|]]; cbn [py_trunc xtrunc bindr pval xeqb]; intros H; try discriminate.
  - rewrite qc_eqb_refl in H. discriminate.
  - destruct (qc_eqb_spec q (Z2Qc (trunc_q (this q)))) as [E|E]; [discriminate|]. injection H as <-. exists q. split; [reflexivity|]. intros z ->. apply E. rewrite trunc_q_Z. reflexivity.
Qed.
Lemma deg_tidy u s sc : u_kind u = KAngle s sc -> deg u = (v <-r fmul (u_val u) (py_scale sc) ;; tidy v).
Proof. intros E. unfold deg. rewrite E. destruct (fmul _ _); reflexivity. Qed.
Lemma stands_pval p q : stands_for p q -> exists x, pval p = Fin x /\ (this x == q)%Q.
Proof. intros []; eexists; (split; [reflexivity|]); [apply this_Z2Qc|reflexivity]. Qed.
Lemma pval_stands p x : pval p = Fin x -> exists q, stands_for p q /\ (q == this x)%Q.
Proof. destruct p as [z|y]; cbn; [intros E; injection E as <-; exists (inject_Z z); split; [constructor|symmetry; apply this_Z2Qc]|intros ->; exists (this x); split; [constructor|reflexivity]]. Qed.
Lemma near5 x q : rel 4 x q -> (Qabs (x - q) <= 5 * qpow2 (-53) * Qabs q)%Q.
Proof.
  intros (f & E & A & B). assert (X : (x - q == q * (f - 1))%Q) by (rewrite E; ring). rewrite X, Qabs_Qmult.
  assert (Y : (Qabs (f - 1) <= 5 * qpow2 (-53))%Q).
  { assert (P1 : (pw hi 4 - 1 <= 5 * qpow2 (-53))%Q) by (vm_compute; discriminate). assert (P2 : (1 - pw lo 4 <= 5 * qpow2 (-53))%Q) by (vm_compute; discriminate).
    set (e := (5 * qpow2 (-53))%Q) in *. clearbody e. set (a := pw hi 4) in *. set (b := pw lo 4) in *. clearbody a b. apply Qabs_Qle_condition. split; lra. }
  rewrite Qmult_comm. pose proof (Qabs_nonneg q). pose proof (Qabs_nonneg (f - 1)). set (e := (5 * qpow2 (-53))%Q) in *. clearbody e. nra.
Qed.
(** C168: the result is within 5 * 2^-53 of the angle, relatively. *)
Theorem C168_near : forall u f v, in_degrees u f -> stands_for (u_val u) v ->
  ((v == 0)%Q \/ ((2 ^ (-900) <= Qabs v)%Q /\ (Qabs v <= 2 ^ 900)%Q)) ->
  exists r d, deg u = Ok r /\ stands_for r d /\ (Qabs (d - v * f) <= 5 * 2 ^ (-53) * Qabs (v * f))%Q.
Proof.
  intros u f v D S B. destruct (angle_scale u f D) as (s & sc & K & F & O & _). rewrite (deg_tidy u s sc K).
  assert (N1 : near 0 900 (u_val u) v).
  { destruct (stands_pval _ _ S) as (x & P & X). exists x. split; [exact P|]. split; [apply rel_eq, X|]. destruct B as [Z|[B1 B2]]; [left; exact Z|right]. split; [exact B1|exact B2]. }
  assert (N2 : near 1 9 (py_scale sc) f).
  { apply (near_comp _ _ _ (this sc)); [exact F|]. apply near_scale; [lia|]. apply (ord_comp _ f); [symmetry; exact F|exact O]. }
  destruct (fmul_near 0 1 900 9 (u_val u) (py_scale sc) v f) as (c & E & x & P & R & _); try lia; [exact N1|exact N2|]. rewrite E. cbn [bindr].
  destruct (tidy_ok c x P) as (r & T & PR). destruct (pval_stands r x PR) as (d & SD & X). exists r, d. split; [exact T|]. split; [exact SD|].
  apply near5 in R. rewrite X. exact R.
Qed.
Print Assumptions C168_near.
(** C168: ints in deg and turn are exact. *)
Theorem C168_exact : forall u z, (u_val u = PI z /\ in_degrees u 1 -> deg u = Ok (PI z)) /\ (u_val u = PI z /\ in_degrees u 360 -> deg u = Ok (PI (360 * z))).
Proof.
  assert (G : forall u z f k, u_val u = PI z -> in_degrees u f -> (f == inject_Z k)%Q -> (forall d s sc, u_kind u = KAngle s sc -> py_scale sc <> PF (Fin d)) -> deg u = Ok (PI (k * z))).
  { intros u z f k V D FK ND. destruct (angle_scale u f D) as (s & sc & K & _ & _ & _ & [(j & J & _ & E)|(d & J & _)]); [|destruct (ND d s sc K J)].
    rewrite (deg_tidy u s sc K), V, J. cbn [fmul bindr]. unfold tidy. cbn [py_trunc bindr]. unfold py_num_eqb. cbn [pval xeqb]. rewrite qc_eqb_refl.
    assert (j = k) as -> by (rewrite FK in E; unfold Qeq in E; cbn in E; lia). rewrite Z.mul_comm. reflexivity. }
  assert (X : forall u f, in_degrees u f -> (f == 1)%Q \/ (f == 360)%Q -> forall d s sc, u_kind u = KAngle s sc -> py_scale sc <> PF (Fin d)).
  { intros u f (t & I & F) W d s sc K. rewrite K in I. unfold css_units in I. cbn [In] in I. destruct F; try (destruct W as [W|W]; vm_compute in W; discriminate);
      repeat (destruct I as [I|I]; [try discriminate I|]); try contradiction; injection I as <- <-; vm_compute; discriminate. }
  intros u z. split; intros [V D].
  - rewrite (G u z 1%Q 1 V D ltac:(reflexivity) (X u _ D ltac:(left; reflexivity))). do 2 f_equal. lia.
  - exact (G u z 360%Q 360 V D ltac:(reflexivity) (X u _ D ltac:(right; reflexivity))).
Qed.
Print Assumptions C168_exact.
(** C168: a float result is finite and not whole. *)
Theorem C168_form : forall u x, deg u = Ok (PF x) -> exists q, x = Fin q /\ forall z, q <> Z2Qc z.
Proof.
  intros u x. unfold deg. destruct (u_kind u) as [| | | | |s sc] eqn:K; try discriminate. intros H.
  destruct (fmul (u_val u) (py_scale sc)) as [v|]; cbn [bindr] in H; [|discriminate]. exact (tidy_float v x H).
Qed.
Print Assumptions C168_form.
(** C168: of two ints or two floats the larger is the larger angle. *)
Lemma finite_float a x : to_float a = Ok (Fin x) -> pval a = Fin x \/ exists z, a = PI z /\ b64 (inject_Z z) = Fin x.
Proof. destruct a as [z|y]; cbn; [|intros E; injection E as ->; auto]. unfold float_of_int. destruct (b64 (inject_Z z)) eqn:B; intros E; try discriminate; injection E as <-; right; eauto. Qed.
Theorem C168_monotone : forall u f a b r s, in_degrees u f -> same_type a b ->
  deg (dup u a) = Ok r -> deg (dup u b) = Ok s ->
  forall v w d e, stands_for a v -> stands_for b w -> stands_for r d -> stands_for s e -> (v <= w)%Q -> (d <= e)%Q.
Proof.
  intros u f a b r s D T R S v w d e SV SW SD SE L. destruct (angle_scale u f D) as (t & sc & K & _ & _ & _ & PS).
  rewrite (deg_tidy (dup u a) t sc K) in R. rewrite (deg_tidy (dup u b) t sc K) in S. cbn [dup u_val] in R, S.
  destruct (fmul a (py_scale sc)) as [p|] eqn:P; [|discriminate]. destruct (fmul b (py_scale sc)) as [q|] eqn:Q; [|discriminate]. cbn [bindr] in R, S.
  apply tidy_value in R. apply tidy_value in S. destruct (stands_pval _ _ SD) as (x & X & X'). destruct (stands_pval _ _ SE) as (y & Y & Y'). rewrite X in R. rewrite Y in S. rewrite <- X', <- Y'.
  assert (M : forall c1 c2 k1 k2, (0 < this k1)%Q -> k1 = k2 -> (this c1 <= this c2)%Q -> rnd (xmul (Fin c1) (Fin k1)) = Fin x -> rnd (xmul (Fin c2) (Fin k2)) = Fin y -> (this x <= this y)%Q).
  { intros c1 c2 k1 k2 Pk <- Lc A B. cbn [xmul rnd] in A, B. assert (Z : (this (c1 * k1)%Qc <= this (c2 * k1)%Qc)%Q) by (rewrite !this_mul; apply Qmult_le_compat_r; [exact Lc|apply Qlt_le_weak, Pk]).
    apply b64_mono in Z. rewrite A, B in Z. exact Z. }
  assert (FL : forall i j c1 c2, b64 (inject_Z i) = Fin c1 -> b64 (inject_Z j) = Fin c2 -> (inject_Z i <= inject_Z j)%Q -> (this c1 <= this c2)%Q).
  { intros i j c1 c2 A B Lij. apply b64_mono in Lij. rewrite A, B in Lij. exact Lij. }
  destruct PS as [(k & J & Pk & _)|(c & J & Pc)]; rewrite J in P, Q.
  - destruct a as [i|[c1|?|]], b as [j|[c2|?|]]; try destruct T; inversion SV; inversion SW; subst; cbn [fmul] in P, Q.
    + injection P as <-. injection Q as <-. cbn [pval] in R, S. injection R as ->. injection S as ->. rewrite !this_Z2Qc, <- Zle_Qle. rewrite <- Zle_Qle in L. nia.
    + cbn [to_float bindr] in P, Q. unfold float_of_int in P, Q. destruct (b64 (inject_Z k)) as [kk|?|] eqn:BK; cbn [bindr] in P, Q; try discriminate; [|destruct (b64_not_nan _ BK)]. injection P as <-. injection Q as <-. cbn [pval] in R, S.
      apply (M c1 c2 kk kk); auto. assert (Z1 : (1 <= inject_Z k)%Q) by (change 1%Q with (inject_Z 1); rewrite <- Zle_Qle; lia). apply b64_mono in Z1. rewrite BK in Z1.
      assert (B1 : b64 1 = Fin (Z2Qc 1)) by (vm_compute; f_equal; apply Qc_is_canon; reflexivity). rewrite B1 in Z1. cbn [xle] in Z1. rewrite this_Z2Qc in Z1. change (inject_Z 1) with 1%Q in Z1. lra.
  - destruct a as [i|[c1|?|]], b as [j|[c2|?|]]; try destruct T; inversion SV; inversion SW; subst; cbn [fmul to_float bindr] in P, Q.
    + unfold float_of_int in P, Q. destruct (b64 (inject_Z i)) as [c1|?|] eqn:B1; cbn [bindr] in P; try discriminate; [|destruct (b64_not_nan _ B1)]. destruct (b64 (inject_Z j)) as [c2|?|] eqn:B2; cbn [bindr] in Q; try discriminate; [|destruct (b64_not_nan _ B2)].
      injection P as <-. injection Q as <-. cbn [pval] in R, S. apply (M c1 c2 c c); auto. exact (FL i j c1 c2 B1 B2 L).
    + injection P as <-. injection Q as <-. cbn [pval] in R, S. apply (M c1 c2 c c); auto.
Qed.
Print Assumptions C168_monotone.

Lemma trunc_opp q : trunc_q (- q) = - trunc_q q.
Proof. destruct q as [a b]. unfold trunc_q. cbn. apply Z.quot_opp_l. lia. Qed.
Lemma trunc_eq p q : (p == q)%Q -> trunc_q p = trunc_q q.
Proof.
  destruct p as [a b], q as [c d]. unfold Qeq, trunc_q. cbn. intros E. rewrite <- (Z.quot_mul_cancel_r a (Zpos b) (Zpos d)) by lia. rewrite <- (Z.quot_mul_cancel_r c (Zpos d) (Zpos b)) by lia. rewrite E. f_equal. lia.
Qed.
Lemma tidy_opp v : tidy (opposite v) = (r <-r tidy v ;; Ok (opposite r)).
Proof.
  unfold tidy, py_num_eqb. destruct v as [z|[q|s|]]; cbn [opposite py_trunc xtrunc bindr pval xeqb]; try reflexivity.
  - rewrite !qc_eqb_refl. reflexivity.
  - rewrite (trunc_eq _ _ (this_opp q)), trunc_opp. cbn [bindr]. f_equal.
    destruct (qc_eqb_spec q (Z2Qc (trunc_q (this q)))) as [E|E], (qc_eqb_spec (- q)%Qc (Z2Qc (- trunc_q (this q)))) as [F|F]; try reflexivity; exfalso; [apply F|apply E].
    + rewrite E at 1. apply Qc_is_canon. rewrite this_opp, !this_Z2Qc, inject_Z_opp. reflexivity.
    + apply Qc_is_canon. assert (G : (this (- q)%Qc == this (Z2Qc (- trunc_q (this q))))%Q) by (rewrite <- F; reflexivity). rewrite this_opp, this_Z2Qc, inject_Z_opp in G. rewrite this_Z2Qc. lra.
Qed.
(** C168: the opposite angle. *)
Theorem C168_opposite : forall u f, in_degrees u f -> deg (uneg u) = match deg u with Ok r => Ok (opposite r) | Err e => Err e end.
Proof.
  intros u f D. destruct (angle_scale u f D) as (t & sc & K & _ & _ & _ & PS).
  assert (KN : u_kind (uneg u) = KAngle t sc) by (unfold uneg; destruct (u_val u); exact K).
  assert (VN : u_val (uneg u) = opposite (u_val u)).
  { unfold uneg. destruct (u_val u) as [z|[q|[]|]]; cbn [u_val dup pmul opposite pval xmul]; try reflexivity.
    - f_equal. lia.
    - do 2 f_equal. apply Qc_is_canon. rewrite this_mul, this_opp, this_Z2Qc. change (inject_Z (-1)) with (-1)%Q. ring. }
  rewrite (deg_tidy _ _ _ KN), (deg_tidy _ _ _ K), VN.
  assert (FO : fmul (opposite (u_val u)) (py_scale sc) = (r <-r fmul (u_val u) (py_scale sc) ;; Ok (opposite r))).
  { assert (RN : forall x k, (0 < this k)%Q -> PF (rnd (xmul (xneg x) (Fin k))) = opposite (PF (rnd (xmul x (Fin k))))).
    { intros x k Pk. assert (KZ : qc_eqb k 0 = false) by (destruct (qc_eqb_spec k 0) as [->|]; [discriminate|reflexivity]). assert (KL : qc_ltb k 0 = false).
      { destruct (qc_ltb_spec k 0) as [Z|_]; [|reflexivity]. exfalso. unfold Qclt in Z. change (this 0%Qc) with 0%Q in Z. lra. }
      destruct x as [x|[]|]; cbn [xneg xmul rnd negb]; rewrite ?KZ, ?KL; try reflexivity.
      rewrite (b64_comp (this (- x * k)%Qc) (- this (x * k)%Qc)) by (rewrite !this_mul, this_opp; ring). rewrite b64_opp. destruct (b64 (this (x * k)%Qc)); reflexivity. }
    assert (TF : forall a, to_float (opposite a) = (x <-r to_float a ;; Ok (xneg x))).
    { intros [z|[q|s|]]; cbn [opposite to_float bindr xneg]; try reflexivity. unfold float_of_int. rewrite (b64_comp (inject_Z (- z)) (- inject_Z z)) by (rewrite inject_Z_opp; reflexivity). rewrite b64_opp. destruct (b64 (inject_Z z)); reflexivity. }
    assert (MIX : forall a k y, py_scale sc = k -> to_float k = Ok (Fin y) -> (0 < this y)%Q ->
       (x <-r to_float (opposite a) ;; y <-r to_float k ;; Ok (PF (rnd (xmul x y)))) = (r <-r (x <-r to_float a ;; y <-r to_float k ;; Ok (PF (rnd (xmul x y)))) ;; Ok (opposite r))).
    { intros a k y E Y Py. rewrite TF, Y. destruct (to_float a) as [x|]; cbn [bindr]; [|reflexivity]. rewrite RN by exact Py. reflexivity. }
    destruct PS as [(k & J & Pk & FK)|(c & J & Pc)]; rewrite J.
    - assert (Y : exists y, to_float (PI k) = Ok (Fin y) /\ (0 < this y)%Q).
      { assert (K2 : k = 1 \/ k = 360) .
        { destruct D as (n & _ & F). destruct F; [left|exfalso|exfalso|right]; try (unfold Qeq in FK; cbn [Qnum Qden inject_Z] in FK; lia).
          assert (RA : (180 / pi_double == 50665495807918080 # 884279719003555)%Q) by (vm_compute; reflexivity). rewrite RA in FK. unfold Qeq in FK. cbn [Qnum Qden inject_Z] in FK. lia. }
        destruct K2 as [-> | ->]; eexists; (split; [vm_compute; reflexivity|reflexivity]). }
      destruct Y as (y & Y & Py). destruct (u_val u) as [z|x]; [cbn [opposite fmul bindr]; do 2 f_equal; lia|].
      pose proof (MIX (PF x) (PI k) y J Y Py) as M. destruct x as [x|s|]; exact M.
    - destruct (u_val u) as [z|x]; [exact (MIX (PI z) (PF (Fin c)) c J eq_refl Pc)|].
      pose proof (MIX (PF x) (PF (Fin c)) c J eq_refl Pc) as M. destruct x as [x|s|]; exact M. }
  rewrite FO. destruct (fmul (u_val u) (py_scale sc)) as [r|]; cbn [bindr]; [|reflexivity]. rewrite tidy_opp. destruct (tidy r); reflexivity.
Qed.
Print Assumptions C168_opposite.
(** C168: the exceptions. *)
Theorem C168_errors : forall u,
  (forall f, in_degrees u f -> (deg u = Err ValueError <-> u_val u = PF Nan)
     /\ (forall e, deg u = Err e -> e <> ValueError -> e = OverflowError /\ ((exists s, u_val u = PF (Inf s)) \/ exists v, stands_for (u_val u) v /\ (2 ^ 1000 < Qabs v)%Q)))
  /\ (~ is_angle u -> deg u = Err AttributeError).
Proof.
  intros u. split.
  - intros f D. destruct (angle_scale u f D) as (t & sc & K & SF & O & Pf & PS). rewrite (deg_tidy _ _ _ K).
    assert (Y : exists y, to_float (py_scale sc) = Ok (Fin y) /\ (0 < this y)%Q /\ (Qabs (this y) <= 361)%Q).
    { destruct D as (n & I & F). rewrite K in I. unfold css_units in I. cbn [In] in I. destruct F; repeat (destruct I as [I|I]; [try discriminate I|]); try contradiction; injection I as <- <-;
        eexists; (split; [vm_compute; reflexivity|]); split; vm_compute; try reflexivity; discriminate. }
    destruct Y as (y & Y & Py & By).
    assert (KZ : qc_eqb y 0 = false) by (destruct (qc_eqb_spec y 0) as [->|]; [discriminate|reflexivity]).
    assert (KL : qc_ltb y 0 = false). { destruct (qc_ltb_spec y 0) as [Z|_]; [|reflexivity]. exfalso. unfold Qclt in Z. change (this 0%Qc) with 0%Q in Z. lra. }
    assert (FB : forall q s, b64 q = Inf s -> (2 ^ 1024 - 2 ^ 970 <= Qabs q)%Q) by (intros q s E; pose proof (b64_rounded q) as R; rewrite E in R; apply R).
    assert (SM : forall q r, (Qabs q <= 2 ^ 1000)%Q -> b64 q = Fin r -> (Qabs (this r) <= 2 ^ 1000)%Q).
    { intros q r B E. assert (T : b64 (2 ^ 1000) = Fin (Q2Qc (2 ^ 1000)%Q)) by (vm_compute; f_equal; apply Qc_is_canon; reflexivity).
      apply Qabs_Qle_condition in B. destruct B as [B1 B2]. apply b64_mono in B1, B2. rewrite b64_opp in B1. rewrite T, E in *. cbn [xneg xle] in B1, B2. rewrite this_opp in B1.
      assert (TT : (this (Q2Qc (2 ^ 1000)) == 2 ^ 1000)%Q) by apply Qred_correct. rewrite TT in B1, B2. apply Qabs_Qle_condition. split; assumption. }
    assert (PR : forall c t', b64 (this (c * y)%Qc) = Inf t' -> (2 ^ 1000 < Qabs (this c))%Q).
    { intros c t' E. apply FB in E. rewrite (Qabs_wd _ _ (this_mul c y)), Qabs_Qmult in E. destruct (Qlt_le_dec (2 ^ 1000) (Qabs (this c))) as [H|H]; [exact H|]. exfalso.
      pose proof (Qabs_nonneg (this c)). pose proof (Qabs_nonneg (this y)). assert (Z : (Qabs (this c) * Qabs (this y) <= 2 ^ 1000 * 361)%Q) by (apply Qmult_le_compat_nonneg; split; assumption).
      assert (W : (2 ^ 1000 * 361 < 2 ^ 1024 - 2 ^ 970)%Q) by (vm_compute; reflexivity). lra. }
    assert (MIX : forall a, u_val u = a ->
       let E := (v <-r (x <-r to_float a ;; y <-r to_float (py_scale sc) ;; Ok (PF (rnd (xmul x y)))) ;; tidy v) in
       (E = Err ValueError <-> a = PF Nan) /\ (forall e, E = Err e -> e <> ValueError -> e = OverflowError /\ ((exists s, a = PF (Inf s)) \/ exists v, stands_for a v /\ (2 ^ 1000 < Qabs v)%Q))).
    { intros a V. cbv zeta. rewrite Y. destruct a as [z|[q|i|]]; cbn [to_float bindr].
      - unfold float_of_int. destruct (b64 (inject_Z z)) as [c|i|] eqn:B; cbn [bindr]; [|split; [split; intros X; discriminate|]|destruct (b64_not_nan _ B)].
        + cbn [xmul rnd]. destruct (b64 (this (c * y)%Qc)) as [r|i|] eqn:BP; [| |destruct (b64_not_nan _ BP)].
          * destruct (tidy_ok (PF (Fin r)) r eq_refl) as (w & -> & _). split; [split; intros X; discriminate|discriminate].
          * split; [split; intros X; discriminate|]. intros e X _. cbn in X. injection X as <-. split; [reflexivity|]. right. exists (inject_Z z). split; [constructor|].
            apply PR in BP. destruct (Qlt_le_dec (2 ^ 1000) (Qabs (inject_Z z))) as [H|H]; [exact H|]. apply (SM _ _ H) in B. lra.
        + intros e X _. injection X as <-. split; [reflexivity|]. right. exists (inject_Z z). split; [constructor|]. apply FB in B. assert (W : (2 ^ 1000 < 2 ^ 1024 - 2 ^ 970)%Q) by (vm_compute; reflexivity). lra.
      - cbn [xmul rnd]. destruct (b64 (this (q * y)%Qc)) as [r|i|] eqn:BP; [| |destruct (b64_not_nan _ BP)].
        + destruct (tidy_ok (PF (Fin r)) r eq_refl) as (w & -> & _). split; [split; intros X; discriminate|discriminate].
        + split; [split; intros X; discriminate|]. intros e X _. cbn in X. injection X as <-. split; [reflexivity|]. right. exists (this q). split; [constructor|]. exact (PR _ _ BP).
      - cbn [xmul]. rewrite KZ. cbn [rnd]. split; [split; intros X; discriminate|]. intros e X _. cbn in X. injection X as <-. split; [reflexivity|]. left. eauto.
      - cbn [xmul rnd]. split; [split; reflexivity|]. intros e X N. cbn in X. congruence. }
    destruct (u_val u) as [z|x] eqn:V; [|exact (MIX (PF x) eq_refl)].
    destruct (py_scale sc) as [k|x] eqn:J; [|exact (MIX (PI z) eq_refl)]. cbn [fmul bindr]. destruct (tidy_ok (PI (z * k)) (Z2Qc (z * k)) eq_refl) as (w & -> & _).
    split; [split; intros X; discriminate|discriminate].
  - intros N. unfold deg. destruct (u_kind u) as [| | | | |s sc] eqn:K; try reflexivity. destruct N. exists s, sc. exact K.
Qed.
Print Assumptions C168_errors.
(** Example: 1.5 turns are 540 degrees, an int; 100.0 grad are 90; a right angle
    in radians is a float; different units of the same angle are not equal. *)
Example C168_example : (exists f, in_degrees (rmul (PF (Fin (qfrac 3 2))) turn_u) f)
  /\ deg (rmul (PF (Fin (qfrac 3 2))) turn_u) = Ok (PI 540) /\ deg (rmul (PI 100) grad_u) = Ok (PI 90)
  /\ (exists q, deg (rmul (PI 2) rad_u) = Ok (PF (Fin q))) /\ u_eqb (rmul (PI 1) turn_u) (rmul (PI 360) deg_u) = false
  /\ deg px_u = Err AttributeError.
Proof.
  split; [exists 360%Q, "turn"%string; split; [cbn; tauto|constructor]|]. do 2 (split; [vm_compute; reflexivity|]). split; [eexists; vm_compute; reflexivity|]. split; vm_compute; reflexivity.
Qed.
