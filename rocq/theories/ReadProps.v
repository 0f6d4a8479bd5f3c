(** * C147: the texts float() and int() read, and the numbers they denote *)
From Coq Require Import ZArith QArith Qcanon Qabs Qpower Lqa Lia Bool String Ascii List.
From Verif Require Import PyNum NumFacts Float64 PyStr StrFacts Colors ColorSpec TextFacts FloatFacts ColorText Values Units UnitsSpec ParseSpec Parser UnitsParseProps ReadSpec.
Import ListNotations.
Open Scope string_scope.
Open Scope Z_scope.

(** *** Rounding *)
Lemma qpow2_power e : (qpow2 e == 2 ^ e)%Q.
Proof.
  unfold qpow2. destruct (Z.leb_spec 0 e).
  - change 2%Q with (inject_Z 2). apply Zpower_Qpower. exact H.
  - replace e with (- (- e)) at 2 by lia. rewrite Qpower_opp. change 2%Q with (inject_Z 2). rewrite <- Zpower_Qpower by lia.
    assert (P : 0 < 2 ^ (- e)) by (apply Z.pow_pos_nonneg; lia). rewrite <- (Z2Pos.id _ P) at 2. reflexivity.
Qed.
Lemma qpow10_power e : (qpow10 e == 10 ^ e)%Q.
Proof.
  unfold qpow10. destruct (Z.leb_spec 0 e).
  - change 10%Q with (inject_Z 10). apply Zpower_Qpower. exact H.
  - replace e with (- (- e)) at 2 by lia. rewrite Qpower_opp. change 10%Q with (inject_Z 10). rewrite <- Zpower_Qpower by lia.
    assert (P : 0 < 10 ^ (- e)) by (apply Z.pow_pos_nonneg; lia). rewrite <- (Z2Pos.id _ P) at 2. reflexivity.
Qed.
Lemma b64_comp p q : (p == q)%Q -> b64 p = b64 q.
Proof.
  intros E. unfold b64. assert (Z : Qeq_bool p 0 = Qeq_bool q 0).
  { destruct (Qeq_bool p 0) eqn:A, (Qeq_bool q 0) eqn:B; try reflexivity; [apply Qeq_bool_eq in A; apply Qeq_bool_neq in B|apply Qeq_bool_neq in A; apply Qeq_bool_eq in B]; exfalso; [apply B; rewrite <- E; exact A|apply A; rewrite E; exact B]. }
  rewrite Z. destruct (Qeq_bool q 0) eqn:B; [reflexivity|]. apply Qeq_bool_neq in B.
  assert (P : (0 < Qabs q)%Q). { destruct (Qlt_le_dec 0 (Qabs q)) as [L|L]; [exact L|]. exfalso. apply B. apply Qabs_Qle_condition in L. lra. }
  assert (L : ilog2 (Qabs p) = ilog2 (Qabs q)). { destruct (ilog2_spec _ P) as [L1 L2]. apply ilog2_unique; rewrite E; assumption. }
  rewrite L. cbv zeta. rewrite (rhe_comp (p * _)%Q (q * qpow2 (- Z.max (ilog2 (Qabs q) - 52) (-1074)))%Q) by (rewrite E; reflexivity). reflexivity.
Qed.
Lemma b64_form q : ~ (q == 0)%Q ->
  let ex := Z.max (ilog2 (Qabs q) - 52) (-1074) in let m := round_half_even (q * qpow2 (- ex))%Q in
  Z.abs m <= 2 ^ 53 /\ b64 q = if 2 ^ 1024 <=? Z.abs m * 2 ^ (Z.max ex 0) then Inf (m <? 0) else Fin (Q2Qc (inject_Z m * qpow2 ex)%Q).
Proof.
  intros NZ. cbn zeta. assert (P : (0 < Qabs q)%Q).
  { destruct (Qlt_le_dec 0 (Qabs q)) as [L|L]; [exact L|]. exfalso. apply NZ. pose proof (Qabs_nonneg q). apply Qabs_Qle_condition in L. lra. }
  destruct (ilog2_spec _ P) as [L1 L2]. set (L := ilog2 (Qabs q)) in *. set (ex := Z.max (L - 52) (-1074)).
  set (m := round_half_even (q * qpow2 (- ex))%Q). split.
  - assert (X : (Qabs (q * qpow2 (- ex)) < inject_Z (2 ^ 53))%Q).
    { rewrite Qabs_pow2. rewrite <- (qpow2_pos 53) by lia. assert (E : (Qabs q * qpow2 (- ex) < qpow2 (L + 1) * qpow2 (- ex))%Q) by (pose proof (qpow2_gt0 (- ex)); nra).
      rewrite <- qpow2_add in E. assert (qpow2 (L + 1 + - ex) <= qpow2 53)%Q by (apply qpow2_le; unfold ex; lia). lra. }
    apply Qabs_Qlt_condition in X. destruct X as [X1 X2].
    assert (m <= 2 ^ 53). { replace (2 ^ 53) with (round_half_even (inject_Z (2 ^ 53))) by apply rhe_Z. apply rhe_mono. lra. }
    assert (- 2 ^ 53 <= m). { replace (- 2 ^ 53) with (round_half_even (inject_Z (- 2 ^ 53))) by apply rhe_Z. apply rhe_mono. rewrite inject_Z_opp. lra. }
    lia.
  - unfold b64. destruct (Qeq_bool q 0) eqn:Z0; [apply Qeq_bool_eq in Z0; contradiction|]. reflexivity.
Qed.
(** Where it overflows. *)
Definition limit : Q := (qpow2 1024 - qpow2 970)%Q.
Lemma rhe_abs x : Z.abs (round_half_even x) = round_half_even (Qabs x).
Proof.
  destruct (Qlt_le_dec x 0) as [L|L].
  - rewrite (rhe_comp _ _ (Qabs_neg x ltac:(lra))), rhe_opp. assert (round_half_even x <= 0); [|lia]. change 0 with (round_half_even (inject_Z 0)). apply rhe_mono. change (inject_Z 0) with 0%Q. lra.
  - rewrite (rhe_comp _ _ (Qabs_pos x L)). assert (0 <= round_half_even x); [|lia]. change 0 with (round_half_even (inject_Z 0)) at 1. apply rhe_mono. exact L.
Qed.
Lemma overflow_test q : ~ (q == 0)%Q ->
  let ex := Z.max (ilog2 (Qabs q) - 52) (-1074) in let m := round_half_even (q * qpow2 (- ex))%Q in
  ((limit <= Qabs q)%Q -> 2 ^ 1024 <= Z.abs m * 2 ^ (Z.max ex 0)) /\ ((Qabs q < limit)%Q -> Z.abs m * 2 ^ (Z.max ex 0) < 2 ^ 1024).
Proof.
  intros NZ. cbn zeta. assert (P : (0 < Qabs q)%Q).
  { destruct (Qlt_le_dec 0 (Qabs q)) as [L|L]; [exact L|]. exfalso. apply NZ. pose proof (Qabs_nonneg q). apply Qabs_Qle_condition in L. lra. }
  pose proof (proj1 (b64_form q NZ)) as M. cbn zeta in M.
  destruct (ilog2_spec _ P) as [L1 L2]. set (L := ilog2 (Qabs q)) in *. set (ex := Z.max (L - 52) (-1074)) in *.
  set (m := round_half_even (q * qpow2 (- ex))%Q) in *.
  assert (A : Z.abs m = round_half_even (Qabs q * qpow2 (- ex))%Q). { unfold m. rewrite rhe_abs. apply rhe_comp, Qabs_pow2. }
  assert (K : (limit * qpow2 (- 971) == inject_Z (2 ^ 53) - (1 # 2))%Q) by (vm_compute; reflexivity).
  pose proof (qpow2_gt0 (- ex)) as Px. split; intros H.
  - assert (G : 1023 <= L). { assert (1023 < L + 1); [|lia]. apply qpow2_lt_inv. eapply Qle_lt_trans; [|exact L2]. eapply Qle_trans; [|exact H]. vm_compute. discriminate. }
    assert (EX : ex = L - 52) by (unfold ex; lia). rewrite Z.max_l by lia. destruct (Z.eq_dec L 1023) as [E|E].
    + assert (2 ^ 53 <= Z.abs m).
      { rewrite A. change (2 ^ 53) with (round_half_even (inject_Z (2 ^ 53) - (1 # 2))) at 1. apply rhe_mono. rewrite <- K. replace (- ex) with (- 971) by lia. apply Qmult_le_compat_r; [exact H|]. apply Qlt_le_weak, qpow2_gt0. }
      replace (2 ^ 1024) with (2 ^ 53 * 2 ^ ex) by (rewrite <- Z.pow_add_r by lia; f_equal; lia). apply Z.mul_le_mono_nonneg_r; [apply Z.pow_nonneg; lia|assumption].
    + assert (2 ^ 52 <= Z.abs m).
      { rewrite A. change (2 ^ 52) with (round_half_even (inject_Z (2 ^ 52))) at 1. apply rhe_mono. rewrite <- (qpow2_pos 52) by lia. replace 52 with (L + - ex) at 1 by lia. rewrite qpow2_add. apply Qmult_le_compat_r; [exact L1|lra]. }
      apply Z.le_trans with (2 ^ 52 * 2 ^ ex); [rewrite <- Z.pow_add_r by lia; apply Z.pow_le_mono_r; lia|]. apply Z.mul_le_mono_nonneg_r; [apply Z.pow_nonneg; lia|assumption].
  - assert (G : L < 1024). { apply qpow2_lt_inv. eapply Qle_lt_trans; [exact L1|]. eapply Qlt_trans; [exact H|]. reflexivity. }
    destruct (Z.eq_dec L 1023) as [E|E].
    + assert (EX : ex = 971) by (unfold ex; lia). assert (X : (Qabs q * qpow2 (- ex) < inject_Z (2 ^ 53) - (1 # 2))%Q).
      { rewrite <- K, EX. apply Qmult_lt_compat_r; [apply qpow2_gt0|exact H]. }
      pose proof (rhe_near (Qabs q * qpow2 (- ex))) as R. rewrite <- A in R. assert (Y : (inject_Z (Z.abs m) < inject_Z (2 ^ 53))%Q) by lra. rewrite <- Zlt_Qlt in Y.
      rewrite EX, Z.max_l by lia. replace (2 ^ 1024) with (2 ^ 53 * 2 ^ 971) by (rewrite <- Z.pow_add_r by lia; reflexivity). apply Z.mul_lt_mono_pos_r; [apply Z.pow_pos_nonneg; lia|exact Y].
    + apply Z.le_lt_trans with (2 ^ 53 * 2 ^ (Z.max ex 0)); [apply Z.mul_le_mono_nonneg_r; [apply Z.pow_nonneg; lia|exact M]|].
      rewrite <- Z.pow_add_r by lia. apply Z.pow_lt_mono_r; unfold ex; lia.
Qed.
Lemma limit_power : (2 ^ 1024 - 2 ^ 970 == limit)%Q.
Proof. unfold limit. rewrite !qpow2_power. reflexivity. Qed.
Lemma double_repr r : double r -> repr r.
Proof. intros [(m & e & M & E & R) _]. exists m, e. rewrite qpow2_power. auto. Qed.
Lemma tie_power (m e : Z) (r y : Q) : (r == inject_Z m * qpow2 e)%Q -> (r == inject_Z m * 2 ^ e)%Q.
Proof. rewrite qpow2_power. auto. Qed.
Lemma b64_rounded q : rounded q (b64 q).
Proof.
  assert (N : forall r, b64 q = Fin r -> forall r', double r' -> (Qabs (this r - q) <= Qabs (r' - q))%Q
        /\ ((Qabs (this r - q) == Qabs (r' - q))%Q -> ~ (r' == this r)%Q ->
            exists m e, (this r == inject_Z (2 * m) * 2 ^ e)%Q
              /\ ((r' == inject_Z (2 * m + 1) * 2 ^ e)%Q \/ (r' == inject_Z (2 * m - 1) * 2 ^ e)%Q))).
  { intros r E r' D. destruct (b64_nearest_fin q r E r' (double_repr r' D)) as [A B]. split; [exact A|]. intros X Y. destruct (B X Y) as (m & e & R1 & R2). exists m, e. rewrite <- !qpow2_power. auto. }
  destruct (Qeq_dec q 0) as [Z0|NZ].
  - assert (E : b64 q = Fin 0%Qc) by (unfold b64; apply Qeq_eq_bool in Z0; rewrite Z0; reflexivity). rewrite E. split; [|split].
    + rewrite limit_power, Z0. reflexivity.
    + split; [exists 0, 0; split; [lia|]; split; [lia|reflexivity]|]. rewrite <- qpow2_power. reflexivity.
    + exact (N _ E).
  - destruct (b64_form q NZ) as [M F]. destruct (overflow_test q NZ) as [O1 O2]. cbn zeta in *. rewrite F in *.
    set (ex := Z.max (ilog2 (Qabs q) - 52) (-1074)) in *. pose proof (rhe_abs (q * qpow2 (- ex))%Q) as RA. pose proof (qpow2_gt0 (- ex)) as Px.
    assert (S1 : (0 <= q)%Q -> 0 <= round_half_even (q * qpow2 (- ex))%Q). { intros L. change 0 with (round_half_even (inject_Z 0)) at 1. apply rhe_mono. change (inject_Z 0) with 0%Q. nra. }
    assert (S2 : (q < 0)%Q -> round_half_even (q * qpow2 (- ex))%Q <= 0). { intros L. change 0 with (round_half_even (inject_Z 0)). apply rhe_mono. change (inject_Z 0) with 0%Q. nra. }
    set (m := round_half_even (q * qpow2 (- ex))%Q) in *. destruct (Z.leb_spec (2 ^ 1024) (Z.abs m * 2 ^ Z.max ex 0)) as [O|O].
    + cbn [rounded]. rewrite limit_power. split; [apply Qnot_lt_le; intros C; specialize (O2 C); lia|].
      assert (m <> 0) by (intros Z; rewrite Z in O; cbn [Z.abs] in O; rewrite Z.mul_0_l in O; apply (Zle_not_lt _ _ O); reflexivity). rewrite Z.ltb_lt. split; intros L.
      * apply Qnot_le_lt. intros C. specialize (S1 C). lia.
      * specialize (S2 L). lia.
    + cbn [rounded]. rewrite limit_power. split; [apply Qnot_le_lt; intros C; specialize (O1 C); lia|]. split; [|exact (N _ eq_refl)].
      split.
      * exists m, ex. split; [exact M|]. split; [unfold ex; lia|]. cbn [this Q2Qc]. rewrite Qred_correct, qpow2_power. reflexivity.
      * cbn [this Q2Qc]. rewrite Qred_correct, <- qpow2_power, Qabs_pow2. change (Qabs (inject_Z m)) with (inject_Z (Z.abs m)).
        assert (X : (inject_Z (Z.abs m) * qpow2 ex <= inject_Z (Z.abs m * 2 ^ Z.max ex 0))%Q).
        { rewrite inject_Z_mult, <- (qpow2_pos (Z.max ex 0)) by lia. rewrite !(Qmult_comm (inject_Z (Z.abs m))). apply Qmult_le_compat_r; [apply qpow2_le; lia|]. change 0%Q with (inject_Z 0). rewrite <- Zle_Qle. lia. }
        eapply Qle_lt_trans; [exact X|]. rewrite (qpow2_pos 1024) by lia. rewrite <- Zlt_Qlt. exact O.
Qed.
(** An odd multiple of 2^e is an even multiple of 2^f only if f < e. *)
Lemma odd_even k m e f : (inject_Z (2 * k + 1) * 2 ^ e == inject_Z (2 * m) * 2 ^ f)%Q -> f < e.
Proof.
  rewrite <- !qpow2_power. intros H. destruct (Z_lt_le_dec f e) as [L|L]; [exact L|exfalso].
  assert (X : (inject_Z (2 * k + 1) == inject_Z (2 * m * 2 ^ (f - e)))%Q).
  { rewrite (inject_Z_mult (2 * m)), <- (qpow2_pos (f - e)) by lia. replace (f - e) with (f + - e) by lia. rewrite qpow2_add, Qmult_assoc, <- H, <- Qmult_assoc, qpow2_inv. ring. }
  unfold Qeq, inject_Z in X. cbn [Qnum Qden] in X. rewrite !Z.mul_1_r, <- Z.mul_assoc in X. set (w := m * 2 ^ (f - e)) in X. clearbody w. lia.
Qed.
Lemma rounded_unique q x y : rounded q x -> rounded q y -> x = y.
Proof.
  destruct x as [r|a|], y as [s|b|]; cbn [rounded]; try contradiction.
  - intros (_ & D1 & N1) (_ & D2 & N2). f_equal. destruct (Qeq_dec (this s) (this r)) as [E|E]; [apply Qc_is_canon; symmetry; exact E|exfalso].
    destruct (N1 _ D2) as [A T1], (N2 _ D1) as [B T2]. assert (EQ : (Qabs (this r - q) == Qabs (this s - q))%Q) by (apply Qle_antisym; assumption).
    destruct (T1 EQ E) as (m & e & R1 & S1). destruct (T2 (Qeq_sym _ _ EQ) (fun H => E (Qeq_sym _ _ H))) as (m' & e' & R2 & S2).
    assert (O1 : exists k, (this s == inject_Z (2 * k + 1) * 2 ^ e)%Q) by (destruct S1 as [S1|S1]; [exists m; exact S1|exists (m - 1); rewrite S1; replace (2 * (m - 1) + 1) with (2 * m - 1) by lia; reflexivity]).
    assert (O2 : exists k, (this r == inject_Z (2 * k + 1) * 2 ^ e')%Q) by (destruct S2 as [S2|S2]; [exists m'; exact S2|exists (m' - 1); rewrite S2; replace (2 * (m' - 1) + 1) with (2 * m' - 1) by lia; reflexivity]).
    destruct O1 as [k K], O2 as [j J]. assert (e' < e) by (apply (odd_even k m'); rewrite <- K; exact R2). assert (e < e') by (apply (odd_even j m); rewrite <- J; exact R1). lia.
  - intros (A & _) (B & _). lra.
  - intros (A & _) (B & _). lra.
  - intros (_ & A) (_ & B). f_equal. destruct a, b; try reflexivity; [symmetry; apply B, A; reflexivity|apply A, B; reflexivity].
Qed.
Lemma rounded_b64 p q x : (p == q)%Q -> (rounded q x <-> x = b64 p).
Proof. intros E. rewrite (b64_comp p q E). split; [intros R; exact (rounded_unique q x _ R (b64_rounded q))|intros ->; apply b64_rounded]. Qed.

(** *** Runs of digits *)
Definition no_digit (s : string) : Prop := match s with String c _ => is_digit c = false | EmptyString => True end.
Definition edge (s : string) : Prop := match s with String c _ => is_digit c = false /\ Ascii.eqb c "_" = false | EmptyString => True end.
Lemma digit_plain c : is_digit c = true -> Ascii.eqb c "_" = false.
Proof. revert c. by_chars (fun c => implb (is_digit c) (negb (Ascii.eqb c "_"))). intros D. rewrite D in X. cbn in X. apply negb_true_iff, X. Qed.
Lemma run_digits w ds : run w ds -> digits ds /\ ds <> "" /\ match w with String c _ => is_digit c = true | _ => False end.
Proof. unfold digits. induction 1 as [c D|c w ds D R (A & N & _)|c w ds D R (A & N & _)]; cbn [all_chars]; rewrite D, ?A; repeat split; auto; discriminate. Qed.
Lemma edge_drop r b b' : edge r -> drop_underscores r b = drop_underscores r b'.
Proof. destruct r as [|c r]; [reflexivity|]. intros [_ E]. cbn [drop_underscores]. rewrite E. reflexivity. Qed.
Lemma run_drop w ds r r' : run w ds -> edge r -> drop_underscores r true = Some r' -> forall prev, drop_underscores (w ++ r) prev = Some (ds ++ r').
Proof.
  intros R E D. induction R as [c C|c w ds C R IH|c w ds C R IH]; intros prev; cbn [append drop_underscores]; rewrite (digit_plain _ C).
  - change (is_digit c) with (dec_digit c). rewrite C, D. reflexivity.
  - rewrite IH. reflexivity.
  - change (Ascii.eqb "_" "_") with true. cbv iota. change (is_digit c) with (dec_digit c). rewrite C. cbn [andb]. destruct (run_digits _ _ R) as (_ & _ & H). destruct w as [|d w]; [destruct H|].
    cbn [append]. rewrite H. change (String d (w ++ r)) with (String d w ++ r). rewrite IH. reflexivity.
Qed.
Lemma drop_digit t : forall prev u, drop_underscores t prev = Some u -> match t with String d _ => is_digit d = true | _ => False end -> match u with String d _ => is_digit d = true | _ => False end.
Proof.
  destruct t as [|d t]; intros prev u; [intros _ []|]. cbn [drop_underscores]. intros H D. rewrite (digit_plain _ D) in H. destruct (drop_underscores t _); [|discriminate]. injection H as <-. exact D.
Qed.
Lemma drop_run t : forall prev ds r', drop_underscores t prev = Some (ds ++ r') -> digits ds -> ds <> "" -> no_digit r' ->
  exists lead w r, t = lead ++ w ++ r /\ run w ds /\ drop_underscores r true = Some r' /\ edge r /\ (lead = "" \/ prev = true /\ lead = "_").
Proof.
  induction t as [|c t IH]; intros prev ds r' H D N B; cbn [drop_underscores] in H.
  - injection H as H. destruct ds; [congruence|discriminate].
  - destruct (Ascii.eqb_spec c "_") as [->|NU].
    + destruct (prev && _)%bool eqn:P; [|discriminate]. apply andb_prop in P. destruct P as [-> P]. destruct (IH _ _ _ H D N B) as (l & w & r & -> & R & X & Y & [-> |[C _]]); [|discriminate].
      exists "_", w, r. repeat split; auto.
    + destruct (drop_underscores t (is_digit c)) as [u|] eqn:U; [|discriminate]. injection H as H. destruct ds as [|d ds]; [congruence|]. cbn [append] in H. injection H as <- ->.
      apply andb_prop in D. destruct D as [DC D]. destruct ds as [|d ds].
      * cbn [append] in U. change (dec_digit c) with (is_digit c) in DC. rewrite DC in U. exists "", (String c ""), t. split; [reflexivity|]. split; [constructor; exact DC|]. split; [exact U|]. split; [|auto].
        destruct t as [|d t]; [exact I|]. cbn [edge]. destruct (is_digit d) eqn:DD.
        { pose proof (drop_digit _ _ _ U DD) as X. destruct r'; [destruct X|]. cbn in B. congruence. }
        split; [reflexivity|]. destruct (Ascii.eqb_spec d "_") as [->|NE]; [|reflexivity]. cbn [drop_underscores] in U. change (Ascii.eqb "_" "_") with true in U. cbv iota in U. cbn [andb] in U.
        destruct t as [|e t]; [discriminate|]. destruct (is_digit e) eqn:DE; [|discriminate]. pose proof (drop_digit _ _ _ U DE) as X. destruct r'; [destruct X|]. cbn in B. congruence.
      * destruct (IH _ _ _ U D ltac:(discriminate) B) as (l & w & r & -> & R & X & Y & L). exists "", (String c (l ++ w)), r. cbn [append]. rewrite app_assoc_s. split; [reflexivity|]. split; [|auto].
        destruct L as [-> |[_ ->]]; cbn [append]; [apply run_next|apply run_under]; assumption.
Qed.
Lemma drop_opt_run t b ds r' : drop_underscores t b = Some (ds ++ r') -> digits ds -> no_digit r' -> b = false ->
  exists w r b', t = w ++ r /\ opt_run w ds /\ drop_underscores r b' = Some r'.
Proof.
  intros H D B ->. destruct ds as [|c ds]; [exists "", t, false; split; [reflexivity|]; split; [left; auto|exact H]|].
  destruct (drop_run _ _ _ _ H D ltac:(discriminate) B) as (l & w & r & -> & R & X & _ & [-> |[C _]]); [|discriminate]. exists w, r, true. split; [reflexivity|]. split; [right; exact R|exact X].
Qed.
Lemma drop_char t prev c r' : drop_underscores t prev = Some (String c r') -> is_digit c = false -> exists r, t = String c r /\ drop_underscores r false = Some r'.
Proof.
  destruct t as [|d t]; cbn [drop_underscores]; [discriminate|]. intros H C. destruct (Ascii.eqb_spec d "_") as [->|NU].
  - destruct (prev && _)%bool eqn:P; [|discriminate]. apply andb_prop in P. destruct P as [_ P]. destruct t as [|e t]; [discriminate|]. pose proof (drop_digit _ _ _ H P) as X. cbn in X. congruence.
  - destruct (drop_underscores t (is_digit d)) eqn:U; [|discriminate]. injection H as -> ->. rewrite C in U. eauto.
Qed.
Lemma drop_nil t prev : drop_underscores t prev = Some "" -> t = "".
Proof.
  destruct t as [|d t]; [reflexivity|]. cbn [drop_underscores]. destruct (Ascii.eqb d "_").
  - destruct (prev && _)%bool eqn:P; [|discriminate]. apply andb_prop in P. destruct P as [_ P]. destruct t as [|e t]; [discriminate|]. intros H. destruct (drop_digit _ _ _ H P).
  - destruct (drop_underscores t _); discriminate.
Qed.
Lemma span_full s : forall a n z m r, span_digits s a n = (z, m, r) -> exists ds, s = ds ++ r /\ digits ds /\ z = dec_value a ds /\ m = n + Z.of_nat (String.length ds) /\ no_digit r.
Proof.
  induction s as [|c s IH]; intros a n z m r; cbn [span_digits].
  - intros H. injection H as <- <- <-. exists "". repeat split. cbn. lia.
  - destruct (is_digit c) eqn:D; intros H.
    + destruct (IH _ _ _ _ _ H) as (ds & -> & A & -> & -> & N). exists (String c ds). split; [reflexivity|]. split; [unfold digits; cbn [all_chars]; change (dec_digit c) with (is_digit c); rewrite D; exact A|].
      split; [reflexivity|]. split; [cbn [String.length]; lia|exact N].
    + injection H as <- <- <-. exists "". repeat split; [cbn; lia|exact D].
Qed.
Lemma span_run ds r a n : digits ds -> no_digit r -> span_digits (ds ++ r) a n = (dec_value a ds, n + Z.of_nat (String.length ds), r).
Proof. intros D N. rewrite (span_dec _ D). destruct r as [|c r]; [reflexivity|]. cbn [span_digits]. cbn in N. rewrite N. reflexivity. Qed.

(** *** Signs and exponents *)
Definition no_sign (s : string) : Prop := match s with String c _ => Ascii.eqb c "-" = false /\ Ascii.eqb c "+" = false | EmptyString => True end.
Lemma sign_inv t neg u : read_sign t = (neg, u) -> exists sg, t = sg ++ u /\ sign_text sg neg /\ (no_digit sg).
Proof.
  destruct t as [|c t]; cbn [read_sign]; [intros H; injection H as <- <-; exists ""; repeat split; left; auto|].
  destruct (Ascii.eqb_spec c "-") as [->|N]; [intros H; injection H as <- <-; exists "-"; repeat split; right; auto|].
  destruct (Ascii.eqb_spec c "+") as [->|P]; intros H; injection H as <- <-; [exists "+"|exists ""]; repeat split; left; auto.
Qed.
Lemma sign_read sg neg u : sign_text sg neg -> no_sign u -> read_sign (sg ++ u) = (neg, u).
Proof. intros [[[-> | ->] ->]|[-> ->]] N; try reflexivity. destruct u as [|c u]; [reflexivity|]. destruct N as [N P]. cbn [append read_sign]. rewrite N, P. reflexivity. Qed.
Lemma sign_drop sg neg b t u : sign_text sg neg -> drop_underscores t b = Some (sg ++ u) -> exists t', t = sg ++ t' /\ exists b', drop_underscores t' b' = Some u /\ (b = false -> b' = false).
Proof.
  intros S H. assert (X : sg = "" \/ sg = "+" \/ sg = "-") by (destruct S as [[[-> | ->] _]|[-> _]]; auto).
  destruct X as [->|[->| ->]]; [exists t; split; [reflexivity|]; exists b; auto| |]; destruct (drop_char _ _ _ _ H eq_refl) as (t' & -> & D); exists t'; (split; [reflexivity|]); exists false; auto.
Qed.
Lemma sign_drop_back sg neg t u : sign_text sg neg -> (forall b, drop_underscores t b = Some u) -> forall b, drop_underscores (sg ++ t) b = Some (sg ++ u).
Proof. intros [[[-> | ->] _]|[-> _]] D b; cbn [append drop_underscores]; [apply D| |]; change (Ascii.eqb "+" "_") with false; change (Ascii.eqb "-" "_") with false; cbv iota; rewrite D; reflexivity. Qed.
Definition read_exp (r : string) : option Z :=
  match r with
  | EmptyString => Some 0
  | String c r' =>
      if Ascii.eqb c "e"%char || Ascii.eqb c "E"%char then
        let (neg, t) := read_sign r' in
        let '(e, ne, t') := span_digits t 0 0 in
        if (ne =? 0) || negb (is_empty t') then None else Some (if neg then - e else e)
      else None
  end.
Lemma exp_inv t b r e : drop_underscores t b = Some r -> read_exp r = Some e -> exponent t e.
Proof.
  intros H R. destruct r as [|c r]; cbn [read_exp] in R.
  - injection R as <-. apply drop_nil in H. left. auto.
  - destruct (Ascii.eqb c "e" || Ascii.eqb c "E")%bool eqn:E; [|discriminate]. assert (C : (String c "" = "e" \/ String c "" = "E") /\ is_digit c = false).
    { apply orb_prop in E. destruct E as [E|E]; apply Ascii.eqb_eq in E; subst; auto. }
    destruct C as [C CD]. destruct (drop_char _ _ _ _ H CD) as (t' & -> & D). destruct (read_sign r) as [neg u] eqn:S. destruct (sign_inv _ _ _ S) as (sg & -> & ST & _).
    destruct (sign_drop _ _ _ _ _ ST D) as (t'' & -> & b' & D' & B'). rewrite (B' eq_refl) in D'. destruct (span_digits u 0 0) as [[z k] v] eqn:SP. destruct (span_full _ _ _ _ _ _ SP) as (ds & -> & DS & -> & -> & NV).
    destruct (Z.eqb_spec (0 + Z.of_nat (String.length ds)) 0) as [|LN]; [discriminate|]. destruct v as [|x v]; [|discriminate]. cbn [orb negb is_empty] in R. injection R as <-.
    destruct (drop_run _ _ _ _ D' DS ltac:(intros ->; apply LN; reflexivity) NV) as (l & w & r' & -> & RW & X & _ & [-> |[Y _]]); [|discriminate]. apply drop_nil in X. subst r'. rewrite app_nil_r_s. cbn [append].
    right. exists (String c ""), sg, neg, w, ds. repeat split; auto.
Qed.
Lemma exp_read t e : exponent t e -> edge t /\ exists r, (forall b, drop_underscores t b = Some r) /\ read_exp r = Some e /\ no_digit r.
Proof.
  intros [[-> ->]|(m & sg & neg & w & ds & M & S & R & -> & ->)]; [split; [exact I|exists ""; repeat split]|].
  destruct (run_digits _ _ R) as (D & N & _).
  assert (DR : forall b, drop_underscores w b = Some ds). { intros b. rewrite <- (app_nil_r_s w), <- (app_nil_r_s ds). apply run_drop; [exact R|exact I|reflexivity]. }
  pose proof (sign_drop_back _ _ _ _ S DR) as DS. assert (NS : no_sign ds). { destruct ds as [|c ds]; [exact I|]. pose proof (sign_digits _ D N) as X. cbn [read_sign] in X. cbn [no_sign]. destruct (Ascii.eqb c "-"); [discriminate|]. destruct (Ascii.eqb c "+"); [|auto]. injection X as X. exfalso. clear -X. apply (f_equal String.length) in X. cbn in X. lia. }
  assert (SP : span_digits ds 0 0 = (dec_value 0 ds, 0 + Z.of_nat (String.length ds), "")). { rewrite <- (app_nil_r_s ds) at 1. apply span_run; [exact D|exact I]. }
  assert (L : (0 + Z.of_nat (String.length ds) =? 0) = false). { apply Z.eqb_neq. destruct ds; [congruence|cbn [String.length]; lia]. }
  destruct M as [-> | ->]; (split; [split; reflexivity|]); eexists; (split; [intros b; cbn [append drop_underscores]; change (Ascii.eqb "e" "_") with false; change (Ascii.eqb "E" "_") with false; cbv iota; rewrite DS; reflexivity|]);
    (split; [|reflexivity]); cbn [read_exp]; cbn [Ascii.eqb Bool.eqb orb]; rewrite (sign_read _ _ _ S NS), SP, L; reflexivity.
Qed.

(** *** Decimals *)
Definition read_mant (s : string) : Z * Z * Z * string :=
  let '(ip, ni, r) := span_digits s 0 0 in
  match r with
  | String c r' => if Ascii.eqb c "."%char then let '(m, n, r'') := span_digits r' ip 0 in (m, ni, n, r'') else (ip, ni, 0, r)
  | EmptyString => (ip, ni, 0, r)
  end.
Lemma read_decimal_parts s : read_decimal s = let '(m, ni, nf, r) := read_mant s in if ni + nf =? 0 then None else match read_exp r with Some e => Some (inject_Z m * qpow10 (e - nf))%Q | None => None end.
Proof.
  unfold read_decimal, read_mant. destruct (span_digits s 0 0) as [[ip ni] r]. assert (E : forall m nf r, match r with
    | "" => Some (inject_Z m * qpow10 (- nf))%Q
    | String c r' => if (Ascii.eqb c "e" || Ascii.eqb c "E")%bool then let (neg, t) := read_sign r' in let '(e, ne, t') := span_digits t 0 0 in
        if ((ne =? 0) || negb (is_empty t'))%bool then None else Some (inject_Z m * qpow10 ((if neg then - e else e) - nf))%Q else None end
    = match read_exp r with Some e => Some (inject_Z m * qpow10 (e - nf))%Q | None => None end).
  { intros m nf [|c r']; cbn [read_exp]; [reflexivity|]. destruct (_ || _)%bool; [|reflexivity]. destruct (read_sign r') as [neg t]. destruct (span_digits t 0 0) as [[e ne] t']. destruct (_ || _)%bool; reflexivity. }
  destruct r as [|c r]; [rewrite <- E; reflexivity|]. destruct (Ascii.eqb c ".").
  - destruct (span_digits r ip 0) as [[m n] r']. rewrite <- E. reflexivity.
  - rewrite <- E. reflexivity.
Qed.
Definition value (ip fp : string) (e : Z) : Q := (inject_Z (dec_value 0 (ip ++ fp)) * 10 ^ (e - Z.of_nat (String.length fp)))%Q.
Lemma decimal_inv t u q : drop_underscores t false = Some u -> read_decimal u = Some q ->
  exists w e ip fp x, t = w ++ e /\ mantissa w ip fp /\ exponent e x /\ (q == value ip fp x)%Q.
Proof.
  intros D. rewrite read_decimal_parts. unfold read_mant. destruct (span_digits u 0 0) as [[z ni] r] eqn:S. destruct (span_full _ _ _ _ _ _ S) as (ip & -> & DI & -> & -> & NR).
  destruct (drop_opt_run _ _ _ _ D DI NR eq_refl) as (w & r0 & b & -> & RW & D0). clear D.
  assert (P : (exists e, run w ip /\ drop_underscores r0 b = Some r /\ e = r) -> forall x, read_exp r = Some x -> (ip <> "") ->
     exists w' e ip' fp x', w ++ r0 = w' ++ e /\ mantissa w' ip' fp /\ exponent e x' /\ (inject_Z (dec_value 0 ip) * qpow10 (x - 0) == value ip' fp x')%Q).
  { intros (_ & RI & _) x X _. exists w, r0, ip, "", x. split; [reflexivity|]. split; [left; auto|]. split; [exact (exp_inv _ _ _ _ D0 X)|]. unfold value. rewrite app_nil_r_s, qpow10_power. reflexivity. }
  destruct r as [|c r].
  - destruct (Z.eqb_spec (0 + Z.of_nat (String.length ip) + 0) 0) as [|L]; [discriminate|]. cbn [read_exp]. intros H. injection H as <-.
    destruct RW as [[-> ->]|RW]; [exfalso; apply L; reflexivity|]. apply (P (ex_intro _ _ (conj RW (conj D0 eq_refl))) 0 eq_refl). intros ->; apply L; reflexivity.
  - destruct (Ascii.eqb_spec c ".") as [->|NP].
    + destruct (span_digits r (dec_value 0 ip) 0) as [[m n] r'] eqn:S2. destruct (span_full _ _ _ _ _ _ S2) as (fp & -> & DF & -> & -> & NR').
      destruct (Z.eqb_spec (0 + Z.of_nat (String.length ip) + (0 + Z.of_nat (String.length fp))) 0) as [|L]; [discriminate|].
      destruct (read_exp r') as [x|] eqn:X; [|discriminate]. intros H. injection H as <-. destruct (drop_char _ _ _ _ D0 eq_refl) as (r1 & -> & D1).
      destruct (drop_opt_run _ _ _ _ D1 DF NR' eq_refl) as (w2 & r2 & b2 & -> & RW2 & D2). exists (w ++ "." ++ w2), r2, ip, fp, x. split; [rewrite !app_assoc_s; reflexivity|]. split.
      * right. exists w, w2. split; [reflexivity|]. split; [exact RW|]. split; [exact RW2|]. intros E. apply L. assert (X' : String.length (ip ++ fp) = 0%nat) by (rewrite E; reflexivity). rewrite length_app_s in X'. lia.
      * split; [exact (exp_inv _ _ _ _ D2 X)|]. unfold value. rewrite dec_value_app, qpow10_power. reflexivity.
    + destruct (Z.eqb_spec (0 + Z.of_nat (String.length ip) + 0) 0) as [|L]; [discriminate|]. destruct (read_exp (String c r)) as [x|] eqn:X; [|discriminate]. intros H. injection H as <-.
      destruct RW as [[-> ->]|RW]; [exfalso; apply L; reflexivity|]. apply (P (ex_intro _ _ (conj RW (conj D0 eq_refl))) x eq_refl). intros ->; apply L; reflexivity.
Qed.
Lemma opt_drop w ds r r' : opt_run w ds -> edge r -> (forall b, drop_underscores r b = Some r') -> forall b, drop_underscores (w ++ r) b = Some (ds ++ r').
Proof. intros [[-> ->]|R] E D b; [apply D|]. apply run_drop; auto. Qed.
Lemma opt_digits w ds : opt_run w ds -> digits ds.
Proof. intros [[-> ->]|R]; [reflexivity|]. apply (run_digits _ _ R). Qed.
Lemma decimal_read w e ip fp x : mantissa w ip fp -> exponent e x ->
  exists u q, (forall b, drop_underscores (w ++ e) b = Some u) /\ read_decimal u = Some q /\ (q == value ip fp x)%Q
    /\ match u with String c _ => is_digit c = true \/ c = "."%char | _ => False end.
Proof.
  intros M X. destruct (exp_read _ _ X) as (E & r & D & RX & NR). destruct M as [[R ->]|(a & b & -> & RA & RB & N)].
  - destruct (run_digits _ _ R) as (DI & NI & _). exists (ip ++ r). eexists. split; [intros b; apply run_drop; auto|]. split; [|split].
    + rewrite read_decimal_parts. unfold read_mant. rewrite (span_run _ _ _ _ DI NR).
      assert (P : forall ni nf, ni = Z.of_nat (String.length ip) -> nf = 0 -> (ni + nf =? 0) = false) by (intros; apply Z.eqb_neq; destruct ip; [congruence|cbn [String.length] in *; lia]).
      destruct r as [|c r]; cbv beta iota.
      * rewrite P by lia. rewrite RX. reflexivity.
      * destruct (Ascii.eqb_spec c ".") as [->|NP]; [discriminate RX|]. rewrite P by lia. rewrite RX. reflexivity.
    + unfold value. rewrite app_nil_r_s, qpow10_power. reflexivity.
    + destruct ip as [|c ip]; [congruence|]. cbn [append]. left. apply andb_prop in DI. apply DI.
  - pose proof (opt_digits _ _ RA) as DI. pose proof (opt_digits _ _ RB) as DF. exists (ip ++ "." ++ fp ++ r). eexists. split; [|split; [|split]].
    + intros k. rewrite !app_assoc_s. apply opt_drop; [exact RA|split; reflexivity|]. intros k'. cbn [append drop_underscores]. change (Ascii.eqb "." "_") with false. cbv iota. rewrite (opt_drop _ _ _ _ RB E D). reflexivity.
    + rewrite read_decimal_parts. unfold read_mant. rewrite (span_run ip ("." ++ fp ++ r)); [|exact DI|reflexivity]. cbv beta iota. cbn [append]. change (Ascii.eqb "." ".") with true. cbv iota.
      rewrite (span_run _ _ _ _ DF NR). cbv beta iota. destruct (Z.eqb_spec (0 + Z.of_nat (String.length ip) + (0 + Z.of_nat (String.length fp))) 0) as [L|_].
      { exfalso. apply N. assert (K : String.length (ip ++ fp) = 0%nat) by (rewrite length_app_s; lia). destruct (ip ++ fp); [reflexivity|discriminate]. }
      rewrite RX. reflexivity.
    + unfold value. rewrite dec_value_app, qpow10_power. reflexivity.
    + destruct ip as [|c ip]; cbn [append]; [right; reflexivity|]. left. apply andb_prop in DI. apply DI.
Qed.
(** *** Words *)
Lemma letter_lower a b : In a (list_ascii_of_string "infinityan") -> (same_letter a b <-> lower_char b = a).
Proof.
  intros I. unfold same_letter. assert (X : forall a, (b = a \/ N_of_ascii b = (N_of_ascii a - 32)%N) <-> (Ascii.eqb b a || N.eqb (N_of_ascii b) (N_of_ascii a - 32))%bool = true).
  { intros c. rewrite orb_true_iff, Ascii.eqb_eq, N.eqb_eq. reflexivity. }
  rewrite X. assert (Y : lower_char b = a <-> Ascii.eqb (lower_char b) a = true) by (symmetry; apply Ascii.eqb_eq). rewrite Y. clear X Y.
  assert (Z : (Ascii.eqb b a || N.eqb (N_of_ascii b) (N_of_ascii a - 32))%bool = Ascii.eqb (lower_char b) a); [|rewrite Z; reflexivity].
  apply Bool.eqb_prop. assert (W : forallb (fun a => Bool.eqb (Ascii.eqb b a || N.eqb (N_of_ascii b) (N_of_ascii a - 32))%bool (Ascii.eqb (lower_char b) a)) (list_ascii_of_string "infinityan") = true).
  { clear. revert b. by_chars (fun b => forallb (fun a => Bool.eqb (Ascii.eqb b a || N.eqb (N_of_ascii b) (N_of_ascii a - 32))%bool (Ascii.eqb (lower_char b) a)) (list_ascii_of_string "infinityan")). exact X. }
  rewrite forallb_forall in W. exact (W a I).
Qed.
Lemma spelled_lower word s : incl (list_ascii_of_string word) (list_ascii_of_string "infinityan") -> (spelled word s <-> lower s = word).
Proof.
  unfold spelled. revert s. induction word as [|a word IH]; intros s I.
  - destruct s; cbn; split; intros H; try discriminate; try reflexivity; try constructor. inversion H.
  - destruct s as [|b s]; [cbn; split; intros H; [inversion H|discriminate]|]. cbn [list_ascii_of_string lower]. apply incl_cons_inv in I. destruct I as [Ia I]. split; intros H.
    + inversion H; subst. f_equal; [apply letter_lower; assumption|apply IH; assumption].
    + injection H as H1 H2. constructor; [apply letter_lower; assumption|apply IH; assumption].
Qed.
Lemma word_ok w : In w ["inf"; "infinity"; "nan"] -> incl (list_ascii_of_string w) (list_ascii_of_string "infinityan").
Proof. cbn [In]. intros [<- |[<- |[<- |[]]]] a; cbn; tauto. Qed.
(** The characters of such a word. *)
Lemma lower_chars w s : In w ["inf"; "infinity"; "nan"] -> lower s = w -> all_chars num_char s = true /\ all_chars (fun c => negb (is_digit c)) s = true /\ no_sign s.
Proof.
  intros I E. assert (A : forall a s, In a (list_ascii_of_string (lower s)) -> True) by auto. clear A.
  assert (C : Forall (fun c => In (lower_char c) (list_ascii_of_string "infinityan")) (list_ascii_of_string s)).
  { pose proof (word_ok w I) as W. rewrite <- E in W. clear -W. induction s as [|c s IH]; constructor; [apply W; left; reflexivity|]. apply IH. intros a J. apply W. right. exact J. }
  assert (K : forall c, In (lower_char c) (list_ascii_of_string "infinityan") -> (num_char c && negb (is_digit c) && negb (Ascii.eqb c "-") && negb (Ascii.eqb c "+"))%bool = true).
  { by_chars (fun c => implb (existsb (Ascii.eqb (lower_char c)) (list_ascii_of_string "infinityan")) (num_char c && negb (is_digit c) && negb (Ascii.eqb c "-") && negb (Ascii.eqb c "+"))).
    intros J. assert (Y : existsb (Ascii.eqb (lower_char c)) (list_ascii_of_string "infinityan") = true) by (apply existsb_exists; exists (lower_char c); split; [exact J|apply Ascii.eqb_refl]). rewrite Y in X. exact X. }
  split; [|split].
  - clear -C K. induction s as [|c s IH]; [reflexivity|]. inversion C; subst. cbn [all_chars]. rewrite IH by assumption. specialize (K c H1). destruct (num_char c); [reflexivity|discriminate].
  - clear -C K. induction s as [|c s IH]; [reflexivity|]. inversion C; subst. cbn [all_chars]. rewrite IH by assumption. specialize (K c H1). destruct (num_char c), (negb (is_digit c)); try discriminate; reflexivity.
  - destruct s as [|c s]; [exact Logic.I|]. inversion C; subst. specialize (K c H1). cbn [no_sign]. destruct (num_char c), (negb (is_digit c)), (Ascii.eqb c "-"), (Ascii.eqb c "+"); try discriminate; auto.
Qed.
(** Characters of a decimal. *)
Definition solid (c : ascii) : bool := negb (is_num_space c).
Lemma run_solid w ds : run w ds -> all_chars solid w = true.
Proof.
  assert (D : forall c, dec_digit c = true -> solid c = true) by (by_chars (fun c => implb (dec_digit c) (solid c)); intros H; rewrite H in X; exact X).
  induction 1 as [c C|c w ds C R IH|c w ds C R IH]; cbn [all_chars]; rewrite (D c C), ?IH; reflexivity.
Qed.
Lemma decimal_solid w e ip fp x : mantissa w ip fp -> exponent e x -> all_chars solid (w ++ e) = true.
Proof.
  intros M X. rewrite all_chars_app. assert (O : forall a ds, opt_run a ds -> all_chars solid a = true) by (intros a ds [[-> _]|R]; [reflexivity|exact (run_solid _ _ R)]).
  assert (S : forall s neg, sign_text s neg -> all_chars solid s = true) by (intros s neg [[[-> | ->] _]|[-> _]]; reflexivity).
  apply andb_true_intro. split.
  - destruct M as [[R _]|(a & b & -> & RA & RB & _)]; [exact (run_solid _ _ R)|]. rewrite !all_chars_app, (O _ _ RA), (O _ _ RB). reflexivity.
  - destruct X as [[-> _]|(m & s & neg & d & ds & Mm & St & R & -> & _)]; [reflexivity|]. rewrite !all_chars_app, (S _ _ St), (run_solid _ _ R). destruct Mm as [-> | ->]; reflexivity.
Qed.
(** *** float() and int() *)
Lemma num_blanks a : all_chars is_num_space a = true -> blanks a.
Proof. apply all_chars_impl. intros c. rewrite blank_num. auto. Qed.
Lemma signed_value neg z k : (inject_Z (signed neg z) * k == if neg then - (inject_Z z * k) else inject_Z z * k)%Q.
Proof. destruct neg; cbn [signed]; [rewrite inject_Z_opp; ring|reflexivity]. Qed.
Lemma stripped p t q : blanks p -> blanks q -> all_chars solid t = true -> num_strip (p ++ t ++ q) = t.
Proof. intros P Q S. apply strip_pad; [apply blanks_num, P|apply blanks_num, Q|]. apply trimmed_all. exact S. Qed.
Lemma sign_solid s neg : sign_text s neg -> all_chars solid s = true.
Proof. intros [[[-> | ->] _]|[-> _]]; reflexivity. Qed.
Theorem C147_float : forall s x, py_float s = Ok x <-> float_text s x.
Proof.
  intros s x. split.
  - unfold py_float. destruct (num_strip_pads s) as (a & b & E & A & B). set (t0 := num_strip s) in *. clearbody t0. destruct (drop_underscores t0 false) as [t|] eqn:D; [|discriminate].
    destruct (read_sign t) as [neg u] eqn:RS. destruct (sign_inv _ _ _ RS) as (sg & -> & ST & _). cbv zeta.
    assert (W : forall w y, In w ["inf"; "infinity"; "nan"] -> lower u = w -> (spelled w u -> float_body u neg y) -> float_text s y).
    { intros w y I L K. destruct (lower_chars w u I L) as (_ & ND & _). assert (t0 = sg ++ u).
      { apply (drop_underscores_plain _ _ _ D). rewrite all_chars_app, ND. destruct ST as [[[-> | ->] _]|[-> _]]; reflexivity. }
      subst t0. exists a, sg, neg, u, b. split; [apply num_blanks, A|]. split; [apply num_blanks, B|]. split; [exact ST|]. split; [apply K, spelled_lower; [apply word_ok, I|exact L]|rewrite E, app_assoc_s; reflexivity]. }
    destruct (String.eqb_spec (lower u) "inf") as [L|_]; cbn [orb]; [intros H; injection H as <-; apply (W "inf" _ (or_introl eq_refl) L); intros; apply body_inf; auto|].
    destruct (String.eqb_spec (lower u) "infinity") as [L|_]; cbn [orb]; [intros H; injection H as <-; apply (W "infinity" _ (or_intror (or_introl eq_refl)) L); intros; apply body_inf; auto|].
    destruct (String.eqb_spec (lower u) "nan") as [L|_]; [intros H; injection H as <-; apply (W "nan" _ (or_intror (or_intror (or_introl eq_refl))) L); intros; apply body_nan; auto|].
    destruct (read_decimal u) as [q|] eqn:RD; [|discriminate]. intros H. injection H as <-. destruct (sign_drop _ _ _ _ _ ST D) as (t' & -> & b' & D' & B'). rewrite (B' eq_refl) in D'.
    destruct (decimal_inv _ _ _ D' RD) as (w & e & ip & fp & ex & -> & M & X & Q). exists a, sg, neg, (w ++ e), b. split; [apply num_blanks, A|]. split; [apply num_blanks, B|]. split; [exact ST|].
    split; [|rewrite E, !app_assoc_s; reflexivity]. eapply body_decimal; [exact M|exact X|]. eapply rounded_b64; [|reflexivity].
    rewrite signed_value. unfold value in Q. destruct neg; rewrite Q; reflexivity.
  - intros (p & sg & neg & b & q & P & Q & ST & F & ->). unfold py_float. rewrite <- (app_assoc_s sg).
    assert (W : forall w, In w ["inf"; "infinity"; "nan"] -> spelled w b -> drop_underscores (num_strip (p ++ (sg ++ b) ++ q)) false = Some (sg ++ b) /\ read_sign (sg ++ b) = (neg, b) /\ lower b = w).
    { intros w I S. apply (spelled_lower w b (word_ok w I)) in S. destruct (lower_chars w b I S) as (N & _ & NS). split; [|split; [apply sign_read; assumption|exact S]].
      rewrite stripped; [|exact P|exact Q|].
      - apply drop_underscores_id. rewrite all_chars_app, N, andb_true_r. destruct ST as [[[-> | ->] _]|[-> _]]; reflexivity.
      - rewrite all_chars_app, (sign_solid _ _ ST). cbn [andb]. revert N. apply all_chars_impl. intros c H. apply andb_prop in H. apply H. }
    inversion F as [w ip fp e ex ng v M X R|sb ng S|sb ng S]; subst.
    + destruct (decimal_read _ _ _ _ _ M X) as (u & z & D & RD & Z & H1). rewrite stripped; [|exact P|exact Q|].
      2: { rewrite all_chars_app, (sign_solid _ _ ST), (decimal_solid _ _ _ _ _ M X). reflexivity. }
      rewrite (sign_drop_back _ _ _ _ ST D), (sign_read _ _ _ ST).
      2: { destruct u as [|c u]; [exact I|]. cbn [no_sign]. destruct H1 as [H1| ->]; [|auto]. clear -H1. revert c H1. by_chars (fun c => implb (is_digit c) (negb (Ascii.eqb c "-") && negb (Ascii.eqb c "+"))). intros H. rewrite H in X. cbn in X. apply andb_prop in X. destruct X as [X1 X2]. apply negb_true_iff in X1, X2. auto. }
      assert (PF : plain_first u = true). { destruct u as [|c u]; [reflexivity|]. cbn [plain_first]. destruct H1 as [H1| ->]; [|reflexivity]. clear -H1. revert c H1. by_chars (fun c => implb (is_digit c) (negb (Ascii.eqb (lower_char c) "i" || Ascii.eqb (lower_char c) "n"))). intros H. rewrite H in X. exact X. }
      destruct (plain_first_special _ PF) as [-> ->]. rewrite RD. f_equal. symmetry. refine (proj1 (rounded_b64 _ _ x _) R).
      rewrite signed_value. unfold value in Z. destruct neg; rewrite Z; reflexivity.
    + destruct S as [S|S]; [destruct (W "inf" (or_introl eq_refl) S) as (-> & -> & ->)|destruct (W "infinity" (or_intror (or_introl eq_refl)) S) as (-> & -> & ->)]; reflexivity.
    + destruct (W "nan" (or_intror (or_intror (or_introl eq_refl))) S) as (-> & -> & ->). reflexivity.
Qed.
Print Assumptions C147_float.
Lemma digits_inv t : forall acc prev z, read_digits 10 t acc prev = Some z -> exists lead w ds, t = lead ++ w /\ ((w = "" /\ ds = "" /\ prev = true /\ lead = "") \/ run w ds) /\ z = dec_value acc ds /\ (lead = "" \/ prev = true /\ lead = "_").
Proof.
  induction t as [|c t IH]; intros acc prev z; cbn [read_digits].
  - destruct prev; [|discriminate]. intros H. injection H as <-. exists "", "", "". split; [reflexivity|]. split; [left; auto|]. split; [reflexivity|auto].
  - destruct (Ascii.eqb_spec c "_") as [->|NU].
    + destruct prev; [|discriminate]. intros H. destruct (IH _ _ _ H) as (l & w & ds & -> & R & -> & [-> |[C _]]); [|discriminate]. destruct R as [(_ & _ & C & _)|R]; [discriminate|].
      exists "_", w, ds. repeat split; auto.
    + destruct (digit_in 10 c) as [v|] eqn:DV; [|discriminate]. intros H. destruct (IH _ _ _ H) as (l & w & ds & -> & R & -> & L).
      assert (DC : dec_digit c = true). { clear -DV. revert c v DV. by_chars (fun c => match digit_in 10 c with Some _ => dec_digit c | None => true end). intros v D. rewrite D in X. exact X. }
      destruct (digit10 c DC) as (DV' & _). assert (v = Z.of_N (N_of_ascii c) - 48) as -> by congruence.
      exists "", (String c (l ++ w)), (String c ds). split; [reflexivity|]. split; [|split; [reflexivity|auto]]. right.
      destruct R as [(-> & -> & _ & ->)|R]; [constructor; exact DC|]. destruct L as [-> |[_ ->]]; cbn [append]; [apply run_next|apply run_under]; assumption.
Qed.
Lemma digits_run w ds : run w ds -> forall acc prev, read_digits 10 w acc prev = Some (dec_value acc ds).
Proof.
  induction 1 as [c C|c w ds C R IH|c w ds C R IH]; intros acc prev; cbn [read_digits]; rewrite (digit_plain _ C), (proj1 (digit10 _ C)); [reflexivity|apply IH|].
  change (Ascii.eqb "_" "_") with true. cbv iota. apply IH.
Qed.
Theorem C147_int : forall s z, py_int s = Ok z <-> int_text s z.
Proof.
  intros s z. unfold py_int, py_int_base. change (10 =? 16) with false. cbv iota. split.
  - destruct (num_strip_pads s) as (a & b & E & A & B). set (t0 := num_strip s) in *. clearbody t0. destruct (read_sign t0) as [neg u] eqn:RS. destruct (sign_inv _ _ _ RS) as (sg & -> & ST & _).
    destruct (read_digits 10 u 0 false) as [v|] eqn:RD; [|discriminate]. intros H. injection H as <-. destruct (digits_inv _ _ _ _ RD) as (l & w & ds & -> & R & -> & [-> |[C _]]); [|discriminate].
    destruct R as [(_ & _ & C & _)|R]; [discriminate|]. exists a, sg, neg, w, ds, b. split; [apply num_blanks, A|]. split; [apply num_blanks, B|]. repeat split; auto. rewrite E, !app_assoc_s. reflexivity.
  - intros (p & sg & neg & w & ds & q & P & Q & ST & R & -> & ->). rewrite <- (app_assoc_s sg). rewrite stripped; [|exact P|exact Q|].
    2: { rewrite all_chars_app, (sign_solid _ _ ST), (run_solid _ _ R). reflexivity. }
    rewrite (sign_read _ _ _ ST); [rewrite (digits_run _ _ R); reflexivity|].
    destruct (run_digits _ _ R) as (_ & _ & H1). destruct w as [|c w]; [exact I|]. cbn [no_sign]. clear -H1. revert c H1. by_chars (fun c => implb (is_digit c) (negb (Ascii.eqb c "-") && negb (Ascii.eqb c "+"))). intros H. rewrite H in X. cbn in X. apply andb_prop in X. destruct X as [X1 X2]. apply negb_true_iff in X1, X2. auto.
Qed.
Print Assumptions C147_int.
(** A written length. *)
Theorem C147_lengths : forall s u, units (VStr s) = Ok u <->
  exists d x, float_text d x /\ ((s = d /\ u = mkU KPx (PF x)) \/ exists t k, In (t, k) css_units /\ s = d ++ t /\ u = mkU k (PF x)).
Proof.
  intros s u. rewrite C87_accepted_texts. split; intros (d & x & F & H); exists d, x; (split; [apply C147_float; exact F|exact H]).
Qed.
Print Assumptions C147_lengths.
(** A text with blanks, a sign, an underscore, digits after the point and an
    exponent; a tie; the first number that overflows. *)
Example C147_example :
  float_text " -1_2.5E+01 " (Fin (Q2Qc (inject_Z (-125))))
  /\ match py_float "9007199254740993" with Ok (Fin r) => qc_eqb r (Z2Qc 9007199254740992) | _ => false end = true
  /\ match py_float "1.797693134862315807e308" with Ok (Fin r) => true | _ => false end = true
  /\ py_float "1.797693134862315808e308" = Ok (Inf false) /\ py_float "1_.5" = Err ValueError /\ py_float "-iNf" = Ok (Inf true)
  /\ int_text "+1_000" 1000.
Proof.
  split; [|split; [|split; [|split; [|split; [|split]]]]]; try (vm_compute; reflexivity).
  - apply C147_float. assert (X : forall y, match py_float " -1_2.5E+01 " with Ok (Fin r) => qc_eqb r y | _ => false end = true -> py_float " -1_2.5E+01 " = Ok (Fin y)).
    { intros y. destruct (py_float " -1_2.5E+01 ") as [[r| |]|]; try discriminate. intros H. destruct (qc_eqb_spec r y); [subst; reflexivity|discriminate]. }
    apply X. vm_compute. reflexivity.
  - apply C147_int. vm_compute. reflexivity.
Qed.
