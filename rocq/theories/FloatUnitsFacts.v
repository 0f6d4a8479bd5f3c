(** * Error analysis of length conversion in binary64 *)
From Coq Require Import ZArith QArith Qcanon Qabs Qround Lqa Lia Bool List String.
From Verif Require Import PyNum NumFacts Float64 TextFacts FloatFacts Units UnitsSpec UnitsFacts FloatUnits.
Open Scope Z_scope.

(** ** Relative errors compose *)
Fixpoint pw (b : Q) (k : nat) : Q := match k with O => 1%Q | S k' => (b * pw b k')%Q end.
Definition lo : Q := (1 - qpow2 (-53))%Q.
Definition hi : Q := (1 + qpow2 (-53))%Q.
Lemma pw_add b k j : (pw b (k + j) == pw b k * pw b j)%Q.
Proof. induction k; cbn [pw Nat.add]; [ring|rewrite IHk; ring]. Qed.
Lemma lo_pos k : (0 < pw lo k)%Q.
Proof. induction k; cbn [pw]; [reflexivity|]. assert (0 < lo)%Q by reflexivity. nra. Qed.
Lemma lo_le1 k : (pw lo k <= 1)%Q.
Proof. induction k; cbn [pw]; [apply Qle_refl|]. assert (0 < lo)%Q by reflexivity. assert (lo <= 1)%Q by (vm_compute; discriminate). pose proof (lo_pos k). nra. Qed.
Lemma hi_ge1 k : (1 <= pw hi k)%Q.
Proof. induction k; cbn [pw]; [apply Qle_refl|]. assert (1 <= hi)%Q by (vm_compute; discriminate). nra. Qed.
Lemma lo_mono k j : (k <= j)%nat -> (pw lo j <= pw lo k)%Q.
Proof. intros H. replace j with (k + (j - k))%nat by lia. rewrite pw_add. pose proof (lo_pos k). pose proof (lo_le1 (j - k)). pose proof (lo_pos (j - k)). nra. Qed.
Lemma hi_mono k j : (k <= j)%nat -> (pw hi k <= pw hi j)%Q.
Proof. intros H. replace j with (k + (j - k))%nat by lia. rewrite pw_add. pose proof (hi_ge1 k). pose proof (hi_ge1 (j - k)). nra. Qed.

Definition rel (k : nat) (x q : Q) : Prop := exists f, (x == q * f)%Q /\ (pw lo k <= f)%Q /\ (f <= pw hi k)%Q.
Lemma rel_refl k q : rel k q q.
Proof. exists 1%Q. split; [ring|]. split; [apply lo_le1|apply hi_ge1]. Qed.
Lemma rel_eq x q : (x == q)%Q -> rel 0 x q.
Proof. intros E. exists 1%Q. split; [rewrite E; ring|]. cbn. split; apply Qle_refl. Qed.
Lemma rel_mono k j x q : (k <= j)%nat -> rel k x q -> rel j x q.
Proof. intros H (f & E & A & B). exists f. split; [exact E|]. pose proof (lo_mono k j H). pose proof (hi_mono k j H). split; lra. Qed.
Lemma rel_trans k j x y q : rel k x y -> rel j y q -> rel (k + j) x q.
Proof.
  intros (f & E & A & B) (g & F & C & D). exists (f * g)%Q. split; [rewrite E, F; ring|]. rewrite !pw_add.
  pose proof (lo_pos k). pose proof (lo_pos j). pose proof (hi_ge1 k). pose proof (hi_ge1 j). split; nra.
Qed.
Lemma rel_mul k j x q y r : rel k x q -> rel j y r -> rel (k + j) (x * y)%Q (q * r)%Q.
Proof.
  intros (f & E & A & B) (g & F & C & D). exists (f * g)%Q. split; [rewrite E, F; ring|]. rewrite !pw_add.
  pose proof (lo_pos k). pose proof (lo_pos j). pose proof (hi_ge1 k). pose proof (hi_ge1 j). split; nra.
Qed.
Lemma rel_comp k x q q' : (q == q')%Q -> rel k x q -> rel k x q'.
Proof. intros E (f & F & A). exists f. rewrite <- E. auto. Qed.
Lemma rel_zero k x q : (q == 0)%Q -> rel k x q -> (x == 0)%Q.
Proof. intros Z (f & E & _). rewrite E, Z. ring. Qed.

(** ** Numbers of ordinary size *)
Definition ord (n : Z) (q : Q) : Prop := (q == 0)%Q \/ ((qpow2 (- n) <= Qabs q)%Q /\ (Qabs q <= qpow2 n)%Q).
Lemma ord_mono n m q : n <= m -> ord n q -> ord m q.
Proof.
  intros H [Z|[A B]]; [left; exact Z|right]. pose proof (qpow2_le (- m) (- n) ltac:(lia)). pose proof (qpow2_le n m H).
  split; [apply (Qle_trans _ _ _ H0 A)|apply (Qle_trans _ _ _ B H1)].
Qed.
Lemma ord_comp n q r : (q == r)%Q -> ord n q -> ord n r.
Proof. intros E [Z|[A B]]; [left; rewrite <- E; exact Z|right; rewrite <- E; auto]. Qed.
Lemma ord_mul n m q r : ord n q -> ord m r -> ord (n + m) (q * r).
Proof.
  intros [Z|[A B]] [W|[C D]]; try (left; rewrite ?Z, ?W; ring). right. rewrite Qabs_Qmult. replace (- (n + m)) with (- n + - m) by lia. rewrite !qpow2_add.
  pose proof (qpow2_gt0 (- n)). pose proof (qpow2_gt0 (- m)). pose proof (qpow2_gt0 n). pose proof (qpow2_gt0 m). pose proof (Qabs_nonneg q). pose proof (Qabs_nonneg r). split; nra.
Qed.
Lemma ord_rel n k x q : (k <= 20)%nat -> rel k x q -> ord n q -> ord (n + 1) x.
Proof.
  intros K R [Z|[A B]]; [left; eapply rel_zero; eassumption|right]. destruct R as (f & E & F & G).
  assert (F2 : (qpow2 (-1) <= f)%Q). { eapply Qle_trans; [|exact F]. eapply Qle_trans; [|apply (lo_mono k 20 K)]. vm_compute. discriminate. }
  assert (G2 : (f <= qpow2 1)%Q). { eapply Qle_trans; [exact G|]. eapply Qle_trans; [apply (hi_mono k 20 K)|]. vm_compute. discriminate. }
  rewrite E, Qabs_Qmult. assert (P : (0 < f)%Q) by (eapply Qlt_le_trans; [apply (qpow2_gt0 (-1))|exact F2]). rewrite (Qabs_pos f) by (apply Qlt_le_weak, P).
  replace (- (n + 1)) with (- n + -1) by lia. rewrite !qpow2_add.
  pose proof (qpow2_gt0 (- n)). pose proof (qpow2_gt0 (-1)). pose proof (qpow2_gt0 n). pose proof (qpow2_gt0 1). pose proof (Qabs_nonneg q).
  set (u := qpow2 (-1)) in *. set (v := qpow2 1) in *. clearbody u v. split; nra.
Qed.
(** Rounding an ordinary number. *)
Lemma b64_rel x : ord 1000 x -> exists r, b64 x = Fin r /\ rel 1 (this r) x.
Proof.
  intros [Z|[A B]].
  - exists 0%Qc. unfold b64. apply Qeq_eq_bool in Z as Z1. rewrite Z1. split; [reflexivity|]. exists 1%Q. split; [rewrite Z; reflexivity|]. split; vm_compute; discriminate.
  - destruct (b64_error x) as (r & E & H).
    + eapply Qle_trans; [apply qpow2_le|exact A]. lia.
    + eapply Qle_lt_trans; [exact B|]. reflexivity.
    + exists r. split; [exact E|]. assert (P : (0 < Qabs x)%Q) by (eapply Qlt_le_trans; [apply (qpow2_gt0 (- (1000)))|exact A]).
      assert (NZ : ~ (x == 0)%Q) by (intros Z; rewrite Z in P; discriminate).
      exists (this r / x)%Q. split; [field; exact NZ|]. cbn [pw]. unfold lo, hi.
      set (e := qpow2 (-53)) in *. assert (He : (0 < e)%Q) by reflexivity. clearbody e.
      assert (Q : (Qabs (this r / x - 1) <= e)%Q).
      { assert (E1 : (this r / x - 1 == (this r - x) / x)%Q) by (field; exact NZ). rewrite E1. unfold Qdiv. rewrite Qabs_Qmult, Qabs_Qinv.
        apply Qle_shift_div_r; [exact P|]. exact H. }
      apply Qabs_Qle_condition in Q. split; lra.
Qed.

(** ** Python numbers that approximate a rational *)
Definition near (k : nat) (n : Z) (p : pynum) (q : Q) : Prop := exists x, pval p = Fin x /\ rel k (this x) q /\ ord n q.
Lemma near_mono k j n m p q : (k <= j)%nat -> n <= m -> near k n p q -> near j m p q.
Proof. intros H1 H2 (x & E & R & O). exists x. split; [exact E|]. split; [eapply rel_mono; eassumption|eapply ord_mono; eassumption]. Qed.
Lemma near_comp k n p q r : (q == r)%Q -> near k n p q -> near k n p r.
Proof. intros E (x & F & R & O). exists x. split; [exact F|]. split; [eapply rel_comp; eassumption|eapply ord_comp; eassumption]. Qed.
Lemma float_near k n p q : (k <= 15)%nat -> n <= 999 -> near k n p q -> exists x, to_float p = Ok (Fin x) /\ rel (k + 1) (this x) q.
Proof.
  intros K N (x & E & R & O). destruct p as [z|y]; cbn in E |- *.
  - injection E as <-. assert (Oz : ord 1000 (inject_Z z)).
    { apply (ord_mono (n + 1)); [lia|]. eapply ord_rel with (k := k); [lia| |exact O]. destruct R as (f & F & A). exists f. split; [|exact A]. rewrite <- F. symmetry. apply this_Z2Qc. }
    destruct (b64_rel _ Oz) as (r & B & Rr). unfold float_of_int. rewrite B. exists r. split; [reflexivity|].
    replace (k + 1)%nat with (1 + k)%nat by lia. eapply rel_trans; [exact Rr|]. destruct R as (f & F & A). exists f. split; [|exact A]. rewrite <- F. symmetry. apply this_Z2Qc.
  - exists x. subst y. split; [reflexivity|]. eapply rel_mono; [|exact R]. lia.
Qed.
Lemma round_near k n x q : (k <= 20)%nat -> n <= 999 -> rel k (this x) q -> ord n q -> exists r, rnd (Fin x) = Fin r /\ rel (k + 1) (this r) q.
Proof.
  intros K N R O. assert (Ox : ord 1000 (this x)) by (apply (ord_mono (n + 1)); [lia|]; eapply ord_rel; eassumption).
  destruct (b64_rel _ Ox) as (r & B & Rr). exists r. split; [exact B|]. replace (k + 1)%nat with (1 + k)%nat by lia. eapply rel_trans; eassumption.
Qed.
Lemma fmul_near k j n m a b q r : (k + j <= 15)%nat -> n + m <= 990 -> 0 <= n -> 0 <= m -> near k n a q -> near j m b r ->
  exists c, fmul a b = Ok c /\ near (k + j + 3) (n + m) c (q * r)%Q.
Proof.
  intros K N Hn Hm A B. destruct (float_near k n a q) as (x & X & Rx); [lia|lia|exact A|]. destruct (float_near j m b r) as (y & Y & Ry); [lia|lia|exact B|].
  assert (O : ord (n + m) (q * r)) by (destruct A as (? & _ & _ & O1), B as (? & _ & _ & O2); apply ord_mul; assumption).
  assert (G : exists c, (x0 <-r to_float a ;; y0 <-r to_float b ;; Ok (PF (rnd (xmul x0 y0)))) = Ok c /\ near (k + j + 3) (n + m) c (q * r)%Q).
  { rewrite X, Y. cbn [bindr xmul]. destruct (round_near ((k + 1) + (j + 1)) (n + m) (x * y)%Qc (q * r)%Q) as (z & Z & Rz); [lia|lia| |exact O|].
    - destruct (rel_mul _ _ _ _ _ _ Rx Ry) as (f & F & H). exists f. split; [|exact H]. rewrite this_mul. exact F.
    - rewrite Z. eexists. split; [reflexivity|]. exists z. split; [reflexivity|]. split; [|exact O]. eapply rel_mono; [|exact Rz]. lia. }
  destruct a as [za|xa]; [|exact G]. destruct b as [zb|xb]; [|exact G]. cbn [fmul]. eexists. split; [reflexivity|].
  destruct A as (x1 & E1 & R1 & O1), B as (y1 & E2 & R2 & O2). cbn in E1, E2. injection E1 as <-. injection E2 as <-.
  exists (Z2Qc (za * zb)). split; [reflexivity|]. split; [|exact O]. apply (rel_mono (k + j)); [lia|].
  destruct (rel_mul _ _ _ _ _ _ R1 R2) as (f & F & H). exists f. split; [|exact H]. rewrite <- F, !this_Z2Qc, inject_Z_mult. reflexivity.
Qed.
Lemma ord_div n q d : (d = 72 \/ d = 100)%positive -> ord n q -> ord (n + 7) (q / inject_Z (Zpos d)).
Proof.
  intros D O. replace (n + 7) with (n + 7) by lia. apply ord_mul; [exact O|]. right. destruct D as [->| ->]; split; vm_compute; discriminate.
Qed.
Lemma this_divc x d : (this (x / Z2Qc (Zpos d))%Qc == this x / inject_Z (Zpos d))%Q.
Proof. rewrite this_div, this_Z2Qc. reflexivity. Qed.
Lemma rel_divc k x q d : rel k x q -> rel k (x / inject_Z (Zpos d))%Q (q / inject_Z (Zpos d))%Q.
Proof. intros (f & F & A). exists f. split; [|exact A]. rewrite F. unfold Qdiv. ring. Qed.
Lemma fdiv_int_near k n a q d : (d = 72 \/ d = 100)%positive -> (k <= 15)%nat -> n <= 980 -> near k n a q ->
  exists c, fdiv_int a d = Ok c /\ near (k + 1) (n + 7) c (q / inject_Z (Zpos d))%Q.
Proof.
  intros D K N (x & E & R & O). pose proof (ord_div n q d D O) as O'. destruct a as [z|y]; cbn in E.
  - injection E as <-. assert (Rz : rel k (z # d) (q / inject_Z (Zpos d))%Q).
    { assert (EQ : (z # d == inject_Z z / inject_Z (Zpos d))%Q) by (unfold Qdiv, Qmult, Qinv, inject_Z, Qeq; cbn; lia).
      destruct (rel_divc k (this (Z2Qc z)) q d R) as (f & F & A). exists f. split; [|exact A]. rewrite EQ, <- F, this_Z2Qc. reflexivity. }
    assert (Oz : ord 1000 (z # d)) by (apply (ord_mono (n + 7 + 1)); [lia|]; eapply ord_rel with (k := k); [lia|exact Rz|exact O']).
    destruct (b64_rel _ Oz) as (r & B & Rr). cbn [fdiv_int]. unfold int_div. rewrite B. eexists. split; [reflexivity|].
    exists r. split; [reflexivity|]. split; [|exact O']. replace (k + 1)%nat with (1 + k)%nat by lia. eapply rel_trans; eassumption.
  - subst y. cbn [fdiv_int xdiv]. destruct (round_near k (n + 7) (x / Z2Qc (Zpos d))%Qc (q / inject_Z (Zpos d))%Q) as (r & B & Rr); [lia|lia| |exact O'|].
    + destruct (rel_divc k (this x) q d R) as (f & F & A). exists f. split; [|exact A]. rewrite this_divc. exact F.
    + rewrite B. eexists. split; [reflexivity|]. exists r. split; [reflexivity|]. split; [exact Rr|exact O'].
Qed.
Lemma fdiv_float_near k n a q d : (d = 72 \/ d = 100)%positive -> (k <= 14)%nat -> n <= 980 -> near k n a q ->
  exists c, fdiv_float a d = Ok c /\ near (k + 2) (n + 7) c (q / inject_Z (Zpos d))%Q.
Proof.
  intros D K N A. assert (O : ord n q) by (destruct A as (? & _ & _ & O); exact O). pose proof (ord_div n q d D O) as O'.
  destruct (float_near k n a q) as (x & X & Rx); [lia|lia|exact A|]. unfold fdiv_float. rewrite X. cbn [bindr xdiv].
  destruct (round_near (k + 1) (n + 7) (x / Z2Qc (Zpos d))%Qc (q / inject_Z (Zpos d))%Q) as (r & B & Rr); [lia|lia| |exact O'|].
  - destruct (rel_divc (k + 1) (this x) q d Rx) as (f & F & H). exists f. split; [|exact H]. rewrite this_divc. exact F.
  - rewrite B. eexists. split; [reflexivity|]. exists r. split; [reflexivity|]. split; [|exact O']. replace (k + 2)%nat with (k + 1 + 1)%nat by lia. exact Rr.
Qed.
Lemma near_num n x : ord n (this (nval x)) -> near 0 n (py_of_num x) (this (nval x)).
Proof. intros O. destruct x; eexists; (split; [reflexivity|]); (split; [apply rel_refl|exact O]). Qed.
Lemma near_mag n p v : magnitude p v -> ord n (this v) -> near 0 n p (this v).
Proof. intros M O. destruct M; eexists; (split; [reflexivity|]); (split; [apply rel_refl|exact O]). Qed.
Lemma near_64 : near 0 7 (PI LU_PER_PIXEL) 64%Q.
Proof. eexists. split; [reflexivity|]. split; [apply rel_eq; reflexivity|]. right. split; vm_compute; discriminate. Qed.
Lemma near_scale n q : n <= 1000 -> ord n (this q) -> near 1 n (py_scale q) (this q).
Proof.
  intros N O. unfold py_scale. assert (F : near 1 n (PF (b64 (this q))) (this q)).
  { destruct (b64_rel (this q) (ord_mono _ _ _ N O)) as (r & B & R). rewrite B. exists r. split; [reflexivity|]. split; assumption. }
  destruct (Qden (this q)) eqn:D; [exact F|exact F|]. exists (Z2Qc (Qnum (this q))). split; [reflexivity|]. split; [|exact O].
  apply (rel_mono 0); [lia|]. apply rel_eq. rewrite this_Z2Qc. destruct (this q) as [a b]. cbn in D |- *. subst b. reflexivity.
Qed.
Lemma near_const z d : ord 3 (z # d) -> near 1 3 (PF (b64 (z # d))) (z # d).
Proof.
  intros O. destruct (b64_rel (z # d)) as (r & B & R); [apply (ord_mono 3); [lia|exact O]|]. rewrite B. exists r. split; [reflexivity|]. split; assumption.
Qed.

(** ** The final rounding *)
Lemma pw14 : (pw hi 14 - 1 <= 15 * qpow2 (-53))%Q /\ (1 - pw lo 14 <= 15 * qpow2 (-53))%Q.
Proof. split; vm_compute; discriminate. Qed.
Lemma rel_error x q : rel 14 x q -> (Qabs (x - q) <= 15 * qpow2 (-53) * Qabs q)%Q.
Proof.
  intros (f & E & A & B). assert (X : (x - q == q * (f - 1))%Q) by (rewrite E; ring). rewrite X, Qabs_Qmult.
  assert (Y : (Qabs (f - 1) <= 15 * qpow2 (-53))%Q).
  { destruct pw14 as [P1 P2]. set (e := (15 * qpow2 (-53))%Q) in *. clearbody e. set (a := pw hi 14) in *. set (b := pw lo 14) in *. clearbody a b. apply Qabs_Qle_condition. split; lra. }
  rewrite Qmult_comm. pose proof (Qabs_nonneg q). pose proof (Qabs_nonneg (f - 1)). set (e := (15 * qpow2 (-53))%Q) in *. clearbody e. nra.
Qed.
Lemma fround_near n p q : near 14 n p q -> (Qabs q <= qpow2 48)%Q ->
  exists k, fround p = Ok k /\ (Qabs (inject_Z k - q) <= (1 # 2) + 15 * qpow2 (-53) * Qabs q)%Q
    /\ Z.abs (k - round_half_even q) <= 1 /\ forall z, (q == inject_Z z)%Q -> k = z.
Proof.
  intros (x & E & R & _) B. pose proof (rel_error _ _ R) as H.
  assert (HB : (15 * qpow2 (-53) * Qabs q < 1 # 2)%Q).
  { eapply Qle_lt_trans with (y := (15 * qpow2 (-53) * qpow2 48)%Q); [|reflexivity]. apply Qmult_le_l; [reflexivity|exact B]. }
  set (err := (15 * qpow2 (-53) * Qabs q)%Q) in *. clearbody err.
  exists (round_half_even (this x)). split.
  { destruct p as [z|y]; cbn in E |- *; [injection E as <-|subst y; reflexivity]. f_equal. rewrite (rhe_comp _ _ (this_Z2Qc z)). symmetry. apply rhe_Z. }
  pose proof (rhe_near (this x)) as N1. set (k := round_half_even (this x)) in *. apply Qabs_Qle_condition in H.
  split; [apply Qabs_Qle_condition; split; lra|]. split.
  - pose proof (rhe_near q) as N2. set (j := round_half_even q) in *. clearbody j k.
    assert (X : (inject_Z (k - j) < 2)%Q) by (unfold Z.sub; rewrite inject_Z_plus, inject_Z_opp; lra).
    assert (Y : (inject_Z (j - k) < 2)%Q) by (unfold Z.sub; rewrite inject_Z_plus, inject_Z_opp; lra).
    change 2%Q with (inject_Z 2) in *. rewrite <- Zlt_Qlt in *. lia.
  - intros z Ez. clearbody k. assert (X : (inject_Z (k - z) < 1)%Q) by (unfold Z.sub; rewrite inject_Z_plus, inject_Z_opp, <- Ez; lra).
    assert (Y : (inject_Z (z - k) < 1)%Q) by (unfold Z.sub; rewrite inject_Z_plus, inject_Z_opp, <- Ez; lra).
    change 1%Q with (inject_Z 1) in *. rewrite <- Zlt_Qlt in *. lia.
Qed.
(** The quotient by 64 is exact. *)
Lemma px_quotient k : Z.abs k <= 2 ^ 53 -> fdiv_int (PI k) 64 = Ok (PF (Fin (qfrac k 64))).
Proof.
  intros H. unfold fdiv_int, int_div. rewrite b64_repr; [reflexivity| |].
  - exists k, (-6). split; [exact H|]. split; [lia|]. unfold Qeq, Qmult, inject_Z, qpow2. cbn. lia.
  - assert (A : (Qabs (k # 64) <= inject_Z (2 ^ 53))%Q) by (unfold Qabs, Qle, inject_Z; cbn [Qnum Qden]; lia). eapply Qle_lt_trans; [exact A|reflexivity].
Qed.
Lemma px_f_lu c u k : lu_f c u = Ok k -> Z.abs k <= 2 ^ 53 -> px_f c u = Ok (lu_to_px k).
Proof. intros L H. unfold px_f. rewrite L. cbn [bindr]. rewrite (px_quotient k H). reflexivity. Qed.
