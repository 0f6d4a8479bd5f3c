(** * Facts about the numbers of PyNum.v (no model definitions here) *)
From Coq Require Import ZArith QArith Qcanon Qround Qabs Lqa Lia Bool List.
From Verif Require Import PyNum.
Open Scope Z_scope.

(** ** Canonical rationals to rationals, so that [lra] applies *)
Lemma this_add a b : (this (a + b)%Qc == this a + this b)%Q. Proof. apply Qred_correct. Qed.
Lemma this_opp a : (this (- a)%Qc == - this a)%Q. Proof. apply Qred_correct. Qed.
Lemma this_sub a b : (this (a - b)%Qc == this a - this b)%Q.
Proof. unfold Qcminus. rewrite this_add, this_opp. reflexivity. Qed.
Lemma this_mul a b : (this (a * b)%Qc == this a * this b)%Q. Proof. apply Qred_correct. Qed.
Lemma this_0 : (this (0%Qc) == 0)%Q. Proof. reflexivity. Qed.
Lemma this_1 : (this (1%Qc) == 1)%Q. Proof. reflexivity. Qed.
Lemma this_inv a : (this (/ a)%Qc == / this a)%Q. Proof. apply Qred_correct. Qed.
Lemma this_div a b : (this (a / b)%Qc == this a / this b)%Q.
Proof. unfold Qcdiv. rewrite this_mul, this_inv. reflexivity. Qed.
Lemma this_Z2Qc z : (this (Z2Qc z) == inject_Z z)%Q. Proof. apply Qred_correct. Qed.
Lemma this_qfrac n d : (this (qfrac n d) == n # d)%Q. Proof. apply Qred_correct. Qed.
Lemma qc_eq a b : (this a == this b)%Q -> a = b. Proof. apply Qc_is_canon. Qed.
Lemma qc_eq' a b : a = b -> (this a == this b)%Q. Proof. intros ->. reflexivity. Qed.
Lemma qc_neq' (a b : Qc) : a <> b -> ~ (this a == this b)%Q.
Proof. intros H E. apply H, qc_eq, E. Qed.

Ltac qc_push := repeat (rewrite this_0 in * || rewrite this_1 in * || rewrite this_add in *
  || rewrite this_sub in * || rewrite this_mul in * || rewrite this_opp in *
  || rewrite this_Z2Qc in * || rewrite this_qfrac in *).
Ltac qc_hyps := repeat match goal with
  | H : @eq Qc _ _ |- _ => apply qc_eq' in H
  end.
Ltac qclra := intros; qc_hyps; try apply qc_eq; unfold Qcle, Qclt in *; qc_push; lra.

Lemma Z2Qc_add x y : Z2Qc (x + y) = (Z2Qc x + Z2Qc y)%Qc.
Proof. apply qc_eq. qc_push. rewrite inject_Z_plus. reflexivity. Qed.
Lemma Z2Qc_opp x : Z2Qc (- x) = (- Z2Qc x)%Qc.
Proof. apply qc_eq. qc_push. rewrite inject_Z_opp. reflexivity. Qed.
Lemma Z2Qc_sub x y : Z2Qc (x - y) = (Z2Qc x - Z2Qc y)%Qc.
Proof. unfold Z.sub, Qcminus. rewrite Z2Qc_add, Z2Qc_opp. reflexivity. Qed.
Lemma Z2Qc_mul x y : Z2Qc (x * y) = (Z2Qc x * Z2Qc y)%Qc.
Proof. apply qc_eq. qc_push. rewrite inject_Z_mult. reflexivity. Qed.
Lemma Z2Qc_inj x y : Z2Qc x = Z2Qc y -> x = y.
Proof. intros H%qc_eq'. rewrite !this_Z2Qc in H. unfold inject_Z, Qeq in H. cbn in H. lia. Qed.
Lemma Z2Qc_le x y : (Z2Qc x <= Z2Qc y)%Qc <-> x <= y.
Proof. unfold Qcle. rewrite !this_Z2Qc. rewrite <- Zle_Qle. reflexivity. Qed.
Lemma Z2Qc_lt x y : (Z2Qc x < Z2Qc y)%Qc <-> x < y.
Proof. unfold Qclt. rewrite !this_Z2Qc. rewrite <- Zlt_Qlt. reflexivity. Qed.
Lemma Z2Qc_0 : Z2Qc 0 = 0%Qc. Proof. reflexivity. Qed.
Lemma Z2Qc_1 : Z2Qc 1 = 1%Qc. Proof. reflexivity. Qed.
Lemma qfrac_eq n d : qfrac n d = (Z2Qc n / Z2Qc (Zpos d))%Qc.
Proof.
  apply qc_eq. rewrite this_qfrac, this_div, !this_Z2Qc. unfold Qdiv, inject_Z, Qinv, Qeq; cbn. lia.
Qed.

(** ** Comparisons *)
Lemma qc_ltb_spec a b : reflect (a < b)%Qc (qc_ltb a b).
Proof.
  unfold qc_ltb. destruct (a ?= b)%Qc eqn:E; constructor; unfold Qclt, Qccompare in *.
  - apply Qeq_alt in E. lra.
  - apply Qlt_alt in E. exact E.
  - apply Qgt_alt in E. lra.
Qed.
Lemma qc_leb_spec a b : reflect (a <= b)%Qc (qc_leb a b).
Proof.
  unfold qc_leb. destruct (a ?= b)%Qc eqn:E; constructor; unfold Qcle, Qccompare in *.
  - apply Qeq_alt in E. lra.
  - apply Qlt_alt in E. lra.
  - apply Qgt_alt in E. lra.
Qed.
Lemma qc_eqb_spec a b : reflect (a = b) (qc_eqb a b).
Proof.
  unfold qc_eqb, Qc_eq_bool. destruct (Qc_eq_dec a b); constructor; assumption.
Qed.
Lemma qc_eqb_refl a : qc_eqb a a = true.
Proof. destruct (qc_eqb_spec a a); congruence. Qed.

(** ** Layout numbers *)
Lemma nval_add a b : nval (nadd a b) = (nval a + nval b)%Qc.
Proof. destruct a, b; cbn; rewrite ?Z2Qc_add; reflexivity. Qed.
Lemma nval_sub a b : nval (nsub a b) = (nval a - nval b)%Qc.
Proof. destruct a, b; cbn; rewrite ?Z2Qc_sub; reflexivity. Qed.
Lemma nval_mul a b : nval (nmul a b) = (nval a * nval b)%Qc.
Proof. destruct a, b; cbn; rewrite ?Z2Qc_mul; reflexivity. Qed.
Lemma nval_neg a : nval (nneg a) = (- nval a)%Qc.
Proof. destruct a; cbn; rewrite ?Z2Qc_opp; reflexivity. Qed.
Lemma nval_NI z : nval (NI z) = Z2Qc z. Proof. reflexivity. Qed.
Lemma nltb_spec a b : reflect (nval a < nval b)%Qc (nltb a b).
Proof. apply qc_ltb_spec. Qed.
Lemma neqb_spec a b : reflect (nval a = nval b) (neqb a b).
Proof. apply qc_eqb_spec. Qed.
Lemma neqb_refl a : neqb a a = true. Proof. apply qc_eqb_refl. Qed.
Lemma nval_max a b : nval (nmax a b) = if qc_ltb (nval a) (nval b) then nval b else nval a.
Proof. unfold nmax, nltb. destruct (qc_ltb _ _); reflexivity. Qed.

(** ** Floor *)
Lemma Qfloor_bounds q : (inject_Z (Qfloor q) <= q < inject_Z (Qfloor q) + 1)%Q.
Proof.
  split; [apply Qfloor_le|]. pose proof (Qlt_floor q) as H. rewrite inject_Z_plus in H. exact H.
Qed.
Lemma Qfloor_unique q z : (inject_Z z <= q < inject_Z z + 1)%Q -> Qfloor q = z.
Proof.
  intros [H1 H2]. pose proof (Qfloor_bounds q) as [H3 H4].
  assert (inject_Z (Qfloor q) < inject_Z (z + 1))%Q by (rewrite inject_Z_plus; change (inject_Z 1) with 1%Q; lra).
  assert (inject_Z z < inject_Z (Qfloor q + 1))%Q by (rewrite inject_Z_plus; change (inject_Z 1) with 1%Q; lra).
  rewrite <- Zlt_Qlt in *. lia.
Qed.

(** ** Rounding half to even *)
Lemma rhe_comp p q : (p == q)%Q -> round_half_even p = round_half_even q.
Proof.
  intros E. unfold round_half_even. rewrite (Qfloor_comp p q E).
  assert (((p - inject_Z (Qfloor q)) ?= 1 # 2) = ((q - inject_Z (Qfloor q)) ?= 1 # 2))%Q as ->.
  { apply Qcompare_comp; [rewrite E; reflexivity | reflexivity]. }
  reflexivity.
Qed.

(** The two defining facts: at distance at most 1/2, ties go to even. *)
Lemma rhe_cases q : let r := round_half_even q in
  (inject_Z r - (1#2) < q < inject_Z r + (1#2))%Q
  \/ (Z.even r = true /\ (q == inject_Z r - (1#2) \/ q == inject_Z r + (1#2))%Q).
Proof.
  cbn zeta. unfold round_half_even. pose proof (Qfloor_bounds q) as [H1 H2].
  destruct ((q - inject_Z (Qfloor q)) ?= 1 # 2)%Q eqn:E.
  - apply Qeq_alt in E. right. destruct (Z.even (Qfloor q)) eqn:Ev.
    + split; [exact Ev|]. right. lra.
    + split; [rewrite Z.even_add, Ev; reflexivity|]. left. rewrite inject_Z_plus. change (inject_Z 1) with 1%Q. lra.
  - apply Qlt_alt in E. left. lra.
  - apply Qgt_alt in E. left. rewrite inject_Z_plus. change (inject_Z 1) with 1%Q. lra.
Qed.

Lemma rhe_unique q r :
  ((inject_Z r - (1#2) < q < inject_Z r + (1#2))%Q
   \/ (Z.even r = true /\ (q == inject_Z r - (1#2) \/ q == inject_Z r + (1#2))%Q)) ->
  round_half_even q = r.
Proof.
  intros H. pose proof (rhe_cases q) as H'. cbn zeta in H'. set (s := round_half_even q) in *.
  assert (Hb : (inject_Z s - inject_Z r < 1 /\ inject_Z r - inject_Z s < 1)%Q
     \/ (Z.even r = true /\ Z.even s = true /\ inject_Z s - inject_Z r <= 1 /\ inject_Z r - inject_Z s <= 1)%Q).
  { destruct H as [H|[Er H]], H' as [H'|[Es H']]; [left; lra | left; destruct H'; lra | left; destruct H; lra |].
    right. repeat split; trivial; destruct H, H'; lra. }
  destruct Hb as [[A B]|(Er & Es & A & B)].
  - assert (inject_Z (s - r) < 1)%Q as A' by (unfold Z.sub; rewrite inject_Z_plus, inject_Z_opp; lra).
    assert (inject_Z (r - s) < 1)%Q as B' by (unfold Z.sub; rewrite inject_Z_plus, inject_Z_opp; lra).
    change 1%Q with (inject_Z 1) in *. rewrite <- Zlt_Qlt in *. lia.
  - assert (inject_Z (s - r) <= 1)%Q as A' by (unfold Z.sub; rewrite inject_Z_plus, inject_Z_opp; lra).
    assert (inject_Z (r - s) <= 1)%Q as B' by (unfold Z.sub; rewrite inject_Z_plus, inject_Z_opp; lra).
    change 1%Q with (inject_Z 1) in *. rewrite <- Zle_Qle in *.
    apply Z.even_spec in Er. apply Z.even_spec in Es. destruct Er as [a ->], Es as [b Hs].
    rewrite Hs in *. lia.
Qed.

Lemma rhe_near q : (inject_Z (round_half_even q) - (1#2) <= q <= inject_Z (round_half_even q) + (1#2))%Q.
Proof. destruct (rhe_cases q) as [H|[_ [H|H]]]; lra. Qed.

Lemma rhe_Z z : round_half_even (inject_Z z) = z.
Proof. apply rhe_unique. left. lra. Qed.

Lemma rhe_opp q : round_half_even (- q) = - round_half_even q.
Proof.
  apply rhe_unique. rewrite inject_Z_opp, Z.even_opp.
  destruct (rhe_cases q) as [H|[E [H|H]]]; [left; lra | right; split; [exact E|]; right; lra
   | right; split; [exact E|]; left; lra].
Qed.

Lemma rhe_mono p q : (p <= q)%Q -> round_half_even p <= round_half_even q.
Proof.
  intros Hpq. destruct (Z_le_gt_dec (round_half_even p) (round_half_even q)) as [H|H]; [exact H|].
  exfalso.
  pose proof (rhe_near p) as Hp. pose proof (rhe_near q) as Hq.
  assert (Hle : round_half_even q + 1 <= round_half_even p) by lia.
  rewrite Zle_Qle, inject_Z_plus in Hle. change (inject_Z 1) with 1%Q in Hle.
  assert (E : (p == q)%Q) by lra.
  apply rhe_comp in E. lia.
Qed.

(** ** Truncation *)
Lemma trunc_q_Z z : trunc_q (this (Z2Qc z)) = z.
Proof.
  unfold Z2Qc, Q2Qc, inject_Z. cbn [this]. unfold Qred.
  pose proof (Z.ggcd_gcd z 1) as G. pose proof (Z.ggcd_correct_divisors z 1) as C.
  destruct (Z.ggcd z 1) as [g [a b]]. cbn [fst snd] in *. rewrite Z.gcd_1_r in G. subst g.
  destruct C as [Hz Hb]. rewrite Z.mul_1_l in Hz, Hb. subst a b.
  unfold trunc_q. cbn. apply Z.quot_1_r.
Qed.

(** ** Results *)
Lemma Ok_inj {A} (a b : A) : Ok a = Ok b -> a = b.
Proof. intros H. exact (f_equal (fun r => match r with Ok x => x | Err _ => a end) H). Qed.

Lemma bindr_ok {A B} (m : res A) (f : A -> res B) b :
  bindr m f = Ok b -> exists a, m = Ok a /\ f a = Ok b.
Proof. destruct m; cbn; intros H; [eauto|discriminate]. Qed.
