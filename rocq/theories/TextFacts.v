(** * Facts about suffixes, decimal digits and text-to-number conversion *)
From Coq Require Import ZArith QArith Qcanon Qabs Bool String Ascii List Lia.
From Verif Require Import PyNum NumFacts Units Float64 PyStr StrFacts.
Import ListNotations.
Open Scope string_scope.
Open Scope Z_scope.

(** ** Suffixes *)
Lemma endswith_spec s x : endswith s x = true <-> exists p, x = p ++ s.
Proof.
  split.
  - induction x as [|c x IH]; cbn [endswith]; intros H; apply orb_prop in H; destruct H as [H|H]; try discriminate.
    + apply String.eqb_eq in H. exists "". symmetry. exact H.
    + apply String.eqb_eq in H. exists "". symmetry. exact H.
    + destruct (IH H) as [p ->]. exists (String c p). reflexivity.
  - intros [p ->]. induction p as [|c p IH]; cbn [append].
    + destruct s; cbn [endswith]; rewrite String.eqb_refl; reflexivity.
    + cbn [endswith]. rewrite IH. apply orb_true_r.
Qed.
Lemma take_app p s : take (String.length p) (p ++ s) = p.
Proof. induction p as [|c p IH]; cbn; [destruct s; reflexivity|congruence]. Qed.
Lemma drop_app p s : drop (String.length p) (p ++ s) = s.
Proof. induction p as [|c p IH]; cbn; [reflexivity|exact IH]. Qed.
Lemma drop_end_app p s : drop_end (String.length s) (p ++ s) = p.
Proof.
  unfold drop_end. rewrite length_app_s. replace (String.length p + String.length s - String.length s)%nat with (String.length p) by lia.
  apply take_app.
Qed.
Lemma app_inv_tail_s p q s : p ++ s = q ++ s -> p = q.
Proof.
  revert q. induction p as [|c p IH]; intros [|d q] H; cbn in H.
  - reflexivity.
  - apply (f_equal String.length) in H. cbn in H. rewrite length_app_s in H. lia.
  - apply (f_equal String.length) in H. cbn in H. rewrite length_app_s in H. lia.
  - injection H as -> H. f_equal. apply IH, H.
Qed.
Lemma app_split a b c d : a ++ b = c ++ d ->
  (exists r, b = r ++ d /\ c = a ++ r) \/ (exists r, r <> "" /\ d = r ++ b /\ a = c ++ r).
Proof.
  revert c. induction a as [|x a IH]; intros c H.
  - left. exists c. cbn in *. auto.
  - destruct c as [|y c]; cbn in H.
    + right. exists (String x a). split; [discriminate|]. cbn. auto.
    + injection H as -> H. destruct (IH _ H) as [(r & -> & ->)|(r & N & -> & ->)]; [left|right]; exists r; cbn; auto.
Qed.
Lemma endswith_drop s x : endswith s x = true -> x = drop_end (String.length s) x ++ s.
Proof. intros H. apply endswith_spec in H. destruct H as [p ->]. rewrite drop_end_app. reflexivity. Qed.

(** ** Decimal digits *)
Lemma digit_char_spec d : 0 <= d < 10 -> is_digit (digit_char d) = true /\ code (digit_char d) = 48 + d.
Proof.
  intros H. assert (C : d = 0 \/ d = 1 \/ d = 2 \/ d = 3 \/ d = 4 \/ d = 5 \/ d = 6 \/ d = 7 \/ d = 8 \/ d = 9) by lia.
  destruct C as [->|[->|[->|[->|[->|[->|[->|[->|[->| ->]]]]]]]]]; split; reflexivity.
Qed.
(** [numeral ds k z]: ds is a non-empty run of k decimal digits of value z. *)
Definition numeral (ds : string) (k z : Z) : Prop :=
  ds <> "" /\ all_chars is_digit ds = true /\ 0 < k
  /\ forall t a n, span_digits (ds ++ t) a n = span_digits t (a * 10 ^ k + z) (n + k).
Lemma show_pos_numeral fuel : forall z acc, 0 <= z < 10 ^ Z.of_nat fuel -> (0 < fuel)%nat ->
  exists ds k, show_pos fuel z acc = ds ++ acc /\ numeral ds k z.
Proof.
  induction fuel as [|f IH]; intros z acc Hz Hf; [lia|]. cbn [show_pos].
  assert (M : 0 <= z mod 10 < 10) by (apply Z.mod_pos_bound; lia).
  destruct (digit_char_spec _ M) as [D1 D2].
  assert (one : numeral (String (digit_char (z mod 10)) "") 1 (z mod 10)).
  { split; [discriminate|]. split; [cbn; rewrite D1; reflexivity|]. split; [lia|]. intros t a n. cbn [append span_digits]. rewrite D1, D2. f_equal; lia. }
  destruct (Z.ltb_spec z 10).
  - exists (String (digit_char (z mod 10)) ""), 1. split; [reflexivity|]. rewrite Z.mod_small in * by lia. exact one.
  - assert (f <> O). { intros ->. cbn in Hz. lia. }
    assert (Q : 0 <= z / 10 < 10 ^ Z.of_nat f).
    { split; [apply Z.div_pos; lia|]. apply Z.div_lt_upper_bound; [lia|]. rewrite Nat2Z.inj_succ, Z.pow_succ_r in Hz by lia. lia. }
    destruct (IH (z / 10) (String (digit_char (z mod 10)) acc) Q) as (ds & k & E & N & A & K & S); [lia|].
    exists (ds ++ String (digit_char (z mod 10)) ""), (k + 1). split; [rewrite E, app_assoc_s; reflexivity|].
    split; [destruct ds; [congruence|discriminate]|]. split; [rewrite all_chars_app, A; cbn; rewrite D1; reflexivity|]. split; [lia|].
    intros t a n. rewrite app_assoc_s, S. cbn [append span_digits]. rewrite D1, D2. f_equal; [|lia].
    rewrite Z.pow_add_r by lia. pose proof (Z.div_mod z 10). change (10 ^ 1) with 10. lia.
Qed.
Lemma show_nonneg_numeral z : 0 <= z -> exists k, numeral (show_nonneg z) k z.
Proof.
  intros Hz. unfold show_nonneg. destruct (show_pos_numeral (S (Z.to_nat (Z.log2 z))) z "") as (ds & k & E & N).
  - split; [exact Hz|]. rewrite Nat2Z.inj_succ, Z2Nat.id by apply Z.log2_nonneg.
    destruct (Z.eq_dec z 0) as [->|]; [reflexivity|].
    apply Z.lt_le_trans with (2 ^ Z.succ (Z.log2 z)); [apply Z.log2_spec; lia|]. apply Z.pow_le_mono_l. lia.
  - lia.
  - rewrite app_nil_r_s in E. exists k. rewrite E. exact N.
Qed.

(** ** Strings made of certain characters only *)
Lemma all_chars_impl (f g : ascii -> bool) s : (forall c, f c = true -> g c = true) -> all_chars f s = true -> all_chars g s = true.
Proof.
  intros H. induction s as [|c s IH]; cbn; [reflexivity|]. intros E. apply andb_prop in E. destruct E as [E1 E2].
  rewrite (H _ E1), (IH E2). reflexivity.
Qed.
Definition every_char (P : ascii -> bool) : Prop := forall c, P c = true.
Lemma every_char_check P : forallb P (map (fun n => ascii_of_nat n) (seq 0 256)) = true -> every_char P.
Proof.
  intros H c. rewrite forallb_forall in H. rewrite <- (ascii_nat_embedding c). apply H, in_map, in_seq.
  pose proof (nat_ascii_bounded c). lia.
Qed.
Ltac by_chars P := let c := fresh "c" in intros c; assert (X : every_char P) by (apply every_char_check; vm_compute; reflexivity); specialize (X c); cbv beta in X.
Definition num_char (c : ascii) : bool := negb (is_num_space c) && negb (Ascii.eqb c "_").
Lemma num_char_digit c : is_digit c = true -> num_char c = true.
Proof. revert c. by_chars (fun c => implb (is_digit c) (num_char c)). intros H. rewrite H in X. exact X. Qed.
Lemma num_strip_id s : all_chars num_char s = true -> num_strip s = s.
Proof.
  intros H. assert (H' : all_chars (fun c => negb (is_num_space c)) s = true).
  { revert H. apply all_chars_impl. intros c E. apply andb_prop in E. apply E. }
  unfold num_strip. rewrite (lstrip_all _ _ H'). apply rstrip_all, H'.
Qed.
Lemma drop_underscores_id s : all_chars num_char s = true -> forall prev, drop_underscores s prev = Some s.
Proof.
  induction s as [|c s IH]; cbn; [reflexivity|]. intros H prev. apply andb_prop in H. destruct H as [H1 H2].
  apply andb_prop in H1. destruct H1 as [_ H1]. apply negb_true_iff in H1. rewrite H1, (IH H2). reflexivity.
Qed.
(** a first character that no special value starts with *)
Definition plain_first (s : string) : bool :=
  match s with String c _ => negb (Ascii.eqb (lower_char c) "i" || Ascii.eqb (lower_char c) "n") | EmptyString => true end.
Lemma plain_first_special s : plain_first s = true -> (String.eqb (lower s) "inf" || String.eqb (lower s) "infinity" = false) /\ String.eqb (lower s) "nan" = false.
Proof.
  destruct s as [|c s]; cbn [plain_first lower]; [split; reflexivity|]. intros H. apply negb_true_iff, orb_false_elim in H.
  destruct H as [H1 H2]. cbn [String.eqb]. rewrite H1, H2. split; reflexivity.
Qed.

(** [signed ds z]: an optional minus sign and a numeral. *)
Definition signed (s : string) (z : Z) : Prop :=
  exists ds k m, numeral ds k m /\ ((s = ds /\ z = m) \/ (s = String "-" ds /\ z = - m)).
Lemma show_Z_signed z : signed (show_Z z) z.
Proof.
  unfold show_Z. destruct (Z.ltb_spec z 0).
  - destruct (show_nonneg_numeral (- z)) as [k N]; [lia|]. exists (show_nonneg (- z)), k, (- z). split; [exact N|]. right. split; [reflexivity|lia].
  - destruct (show_nonneg_numeral z) as [k N]; [lia|]. exists (show_nonneg z), k, z. auto.
Qed.
Lemma numeral_head ds k z : numeral ds k z -> exists c r, ds = String c r /\ is_digit c = true.
Proof. intros (N & A & _). destruct ds as [|c r]; [congruence|]. cbn in A. apply andb_prop in A. exists c, r. split; [reflexivity|apply A]. Qed.
Lemma numeral_sign ds k z t : numeral ds k z -> read_sign (ds ++ t) = (false, ds ++ t).
Proof.
  intros H. destruct (numeral_head _ _ _ H) as (c & r & -> & D). cbn [append read_sign].
  assert (Ascii.eqb c "-" = false /\ Ascii.eqb c "+" = false) as [-> ->]; [|reflexivity].
  clear H. revert c D. by_chars (fun c => implb (is_digit c) (negb (Ascii.eqb c "-") && negb (Ascii.eqb c "+"))). intros D. rewrite D in X. cbn in X.
  apply andb_prop in X. destruct X as [X1 X2]. apply negb_true_iff in X1, X2. auto.
Qed.
Lemma digit_plain c r : is_digit c = true -> plain_first (String c r) = true.
Proof.
  revert c. by_chars (fun c => implb (is_digit c) (negb (Ascii.eqb (lower_char c) "i" || Ascii.eqb (lower_char c) "n"))).
  intros H. rewrite H in X. exact X.
Qed.
(** float() of a signed numeral followed by t, up to reading the decimal *)
Lemma py_float_signed s z t : signed s z -> all_chars num_char t = true ->
  exists ds k m (neg : bool), numeral ds k m /\ z = (if neg then - m else m)
  /\ py_float (s ++ t) = match read_decimal (ds ++ t) with Some q => Ok (b64 (if neg then - q else q)%Q) | None => Err ValueError end.
Proof.
  intros (ds & k & m & N & S) T. pose proof N as (_ & A & _).
  assert (A' : all_chars num_char (ds ++ t) = true).
  { rewrite all_chars_app, T, andb_true_r. revert A. apply all_chars_impl, num_char_digit. }
  destruct (numeral_head _ _ _ N) as (c & r & E & D).
  destruct (plain_first_special (ds ++ t)) as [P1 P2]; [rewrite E; apply digit_plain, D|].
  destruct S as [[-> ->]|[-> ->]].
  - exists ds, k, m, false. split; [exact N|]. split; [reflexivity|]. unfold py_float.
    rewrite (num_strip_id _ A'), (drop_underscores_id _ A'), (numeral_sign _ _ _ _ N). cbv beta iota zeta. rewrite P1, P2. reflexivity.
  - exists ds, k, m, true. split; [exact N|]. split; [reflexivity|]. unfold py_float. cbn [append].
    assert (A2 : all_chars num_char (String "-" (ds ++ t)) = true) by (cbn [all_chars]; rewrite A'; reflexivity).
    rewrite (num_strip_id _ A2), (drop_underscores_id _ A2). change (read_sign (String "-" (ds ++ t))) with (true, ds ++ t).
    cbv beta iota zeta. rewrite P1, P2. reflexivity.
Qed.
Lemma read_decimal_numeral ds k m : numeral ds k m -> read_decimal ds = Some (inject_Z m).
Proof.
  intros (_ & _ & K & S). unfold read_decimal. rewrite <- (app_nil_r_s ds), S. cbn [span_digits].
  replace (0 * 10 ^ k + m) with m by lia. destruct (Z.eqb_spec (0 + k + 0) 0); [lia|].
  unfold qpow10. cbn. unfold Qmult, inject_Z. cbn. rewrite Z.mul_1_r. reflexivity.
Qed.
Lemma read_decimal_letter ds k m c r : numeral ds k m ->
  is_digit c = false -> Ascii.eqb c "." = false -> Ascii.eqb c "e" || Ascii.eqb c "E" = false -> read_decimal (ds ++ String c r) = None.
Proof.
  intros (_ & _ & K & S) D P E. unfold read_decimal. rewrite S. cbn [span_digits]. rewrite D, P.
  destruct (Z.eqb_spec (0 + k + 0) 0); [lia|]. rewrite E. reflexivity.
Qed.
Lemma py_float_signed_ok s z : signed s z -> py_float s = Ok (b64 (inject_Z z)).
Proof.
  intros H. destruct (py_float_signed s z "" H eq_refl) as (ds & k & m & neg & N & -> & E). rewrite app_nil_r_s in E. rewrite E, app_nil_r_s, (read_decimal_numeral _ _ _ N).
  destruct neg; reflexivity.
Qed.
Lemma py_float_show z : py_float (show_Z z) = Ok (b64 (inject_Z z)).
Proof. apply py_float_signed_ok, show_Z_signed. Qed.
Lemma py_float_letter s z c r : signed s z -> all_chars num_char (String c r) = true ->
  is_digit c = false -> Ascii.eqb c "." = false -> Ascii.eqb c "e" || Ascii.eqb c "E" = false -> py_float (s ++ String c r) = Err ValueError.
Proof.
  intros H T D P E. destruct (py_float_signed s z _ H T) as (ds & k & m & neg & N & _ & ->). rewrite (read_decimal_letter _ _ _ _ _ N D P E). reflexivity.
Qed.

(** ** Whole numbers that binary64 represents exactly *)
Definition double (z : Z) : Prop := exists m e, Z.abs m <= 2 ^ 53 /\ 0 <= e <= 970 /\ z = m * 2 ^ e.
Lemma double_small z : Z.abs z <= 2 ^ 53 -> double z.
Proof. intros H. exists z, 0. split; [exact H|]. split; [lia|]. change (2 ^ 0) with 1. lia. Qed.
Lemma ilog2_Z z : 0 < z -> ilog2 (inject_Z z) = Z.log2 z.
Proof.
  intros H. unfold ilog2, inject_Z. cbn [Qnum Qden]. change (Z.log2 1) with 0. rewrite Z.sub_0_r.
  pose proof (Z.log2_nonneg z). destruct (Z.leb_spec 0 (Z.log2 z)); [|lia].
  destruct (Z.log2_spec z H). destruct (Z.leb_spec (1 * 2 ^ Z.log2 z) z); lia.
Qed.
Lemma qpow2_pos e : 0 <= e -> qpow2 e = inject_Z (2 ^ e).
Proof. intros H. unfold qpow2. destruct (Z.leb_spec 0 e); [reflexivity|lia]. Qed.
Lemma qpow2_inv e : (qpow2 e * qpow2 (- e) == 1)%Q.
Proof.
  unfold qpow2. destruct (Z.leb_spec 0 e), (Z.leb_spec 0 (- e)); try lia.
  - replace e with 0 by lia. reflexivity.
  - rewrite Z.opp_involutive. assert (0 < 2 ^ e) by (apply Z.pow_pos_nonneg; lia). unfold Qmult, inject_Z, Qeq. cbn [Qnum Qden]. rewrite Pos.mul_1_l, Z2Pos.id by lia. lia.
  - assert (0 < 2 ^ (- e)) by (apply Z.pow_pos_nonneg; lia). unfold Qmult, inject_Z, Qeq. cbn [Qnum Qden].
    rewrite Pos.mul_1_r, Z2Pos.id by lia. lia.
Qed.
Lemma b64_exact z : double z -> b64 (inject_Z z) = Fin (Z2Qc z).
Proof.
  intros (m & e & Hm & He & Ez). unfold b64. destruct (Qeq_bool (inject_Z z) 0) eqn:Z0.
  { apply Qeq_bool_eq in Z0. assert (z = 0) as -> by (unfold Qeq, inject_Z in Z0; cbn in Z0; lia). reflexivity. }
  assert (NZ : z <> 0) by (intros ->; discriminate). cbv zeta. change (Qabs (inject_Z z)) with (inject_Z (Z.abs z)). rewrite ilog2_Z by lia.
  set (L := Z.log2 (Z.abs z)). pose proof (Z.log2_nonneg (Z.abs z)) as HL. fold L in HL. rewrite Z.max_l by lia. set (ex := L - 52).
  assert (Pe : 0 < 2 ^ e) by (apply Z.pow_pos_nonneg; lia).
  assert (Am : Z.abs z = Z.abs m * 2 ^ e) by (rewrite Ez, Z.abs_mul, (Z.abs_eq (2 ^ e)) by lia; reflexivity).
  assert (Mnz : 0 < Z.abs m) by (destruct (Z.eq_dec m 0) as [->|]; [rewrite Z.mul_0_l in Ez; congruence|lia]).
  assert (D : exists w, (inject_Z z * qpow2 (- ex) == inject_Z w)%Q /\ Z.abs w <= 2 ^ 53).
  { assert (HL2 : L = Z.log2 (Z.abs m) + e) by (unfold L; rewrite Am, Z.log2_mul_pow2 by lia; lia).
    assert (Bz : 2 ^ L <= Z.abs z < 2 ^ (L + 1)) by (replace (L + 1) with (Z.succ L) by lia; apply Z.log2_spec; lia).
    assert (W : exists w, (0 <= ex -> z = w * 2 ^ ex) /\ (ex < 0 -> w = z * 2 ^ (- ex))).
    { destruct (Z_lt_le_dec ex 0) as [N|P]; [exists (z * 2 ^ (- ex)); split; [lia|reflexivity]|].
      destruct (Z.eq_dec (Z.abs m) (2 ^ 53)) as [E|NE].
      - assert (Z.log2 (Z.abs m) = 53) as E53 by (rewrite E; reflexivity). assert (ex = e + 1) as Eex by lia.
        exists (Z.sgn m * 2 ^ 52). split; [|lia]. intros _. rewrite Eex, Ez, Z.pow_add_r by lia.
        assert (Em : m = Z.sgn m * (2 ^ 52 * 2 ^ 1)) by (change (2 ^ 52 * 2 ^ 1) with (2 ^ 53); rewrite <- E, Z.mul_comm; symmetry; apply Z.abs_sgn).
        rewrite Em at 1. ring.
      - assert (Z.log2 (Z.abs m) <= 52). { apply Z.lt_succ_r. apply Z.log2_lt_pow2; [lia|]. change (Z.succ 52) with 53. lia. }
        exists (m * 2 ^ (e - ex)). split; [|lia]. intros _. rewrite <- Z.mul_assoc, <- Z.pow_add_r by lia. rewrite Ez. f_equal. f_equal. lia. }
    destruct W as (w & W1 & W2). exists w. destruct (Z_lt_le_dec ex 0) as [N|P].
    - specialize (W2 N). split.
      + rewrite qpow2_pos by lia. unfold Qmult, inject_Z, Qeq. cbn. lia.
      + rewrite W2, Z.abs_mul, (Z.abs_eq (2 ^ _)) by (apply Z.pow_nonneg; lia).
        assert (Z.abs z * 2 ^ (- ex) <= 2 ^ (L + 1) * 2 ^ (- ex)) by (apply Z.mul_le_mono_nonneg_r; [apply Z.pow_nonneg|]; lia).
        rewrite <- Z.pow_add_r in H by lia. replace (L + 1 + - ex) with 53 in H by lia. exact H.
    - specialize (W1 P). split.
      + rewrite W1. rewrite inject_Z_mult, <- (qpow2_pos ex P). rewrite <- Qmult_assoc, qpow2_inv. ring.
      + assert (Z.abs w * 2 ^ ex < 2 ^ 53 * 2 ^ ex).
        { rewrite <- Z.pow_add_r by lia. replace (53 + ex) with (L + 1) by lia. rewrite <- (Z.abs_eq (2 ^ ex)) by (apply Z.pow_nonneg; lia).
          rewrite <- Z.abs_mul, <- W1. lia. }
        apply Z.mul_lt_mono_pos_r in H; [lia|]. apply Z.pow_pos_nonneg; lia. }
  destruct D as (w & Ew & Bw). rewrite (rhe_comp _ _ Ew), rhe_Z.
  assert (Ev : (inject_Z w * qpow2 ex == inject_Z z)%Q) by (rewrite <- Ew, <- Qmult_assoc, (Qmult_comm (qpow2 (- ex))), qpow2_inv; ring).
  assert (NO : Z.abs w * 2 ^ Z.max ex 0 < 2 ^ 1024).
  { destruct (Z_lt_le_dec ex 0) as [N|P].
    - rewrite Z.max_r by lia. change (2 ^ 0) with 1. rewrite Z.mul_1_r. apply Z.le_lt_trans with (2 ^ 53); [exact Bw|reflexivity].
    - rewrite Z.max_l by lia. rewrite qpow2_pos in Ev by lia. rewrite <- inject_Z_mult in Ev. apply (proj1 (inject_Z_injective _ _)) in Ev.
      assert (Z.abs w * 2 ^ ex = Z.abs z) as -> by (rewrite <- Ev, Z.abs_mul, (Z.abs_eq (2 ^ ex)) by (apply Z.pow_nonneg; lia); reflexivity).
      rewrite Am. apply Z.le_lt_trans with (2 ^ 53 * 2 ^ 970); [apply Z.mul_le_mono_nonneg; try lia; apply Z.pow_le_mono_r; lia|].
      rewrite <- Z.pow_add_r by lia. apply Z.pow_lt_mono_r; lia. }
  destruct (Z.leb_spec (2 ^ 1024) (Z.abs w * 2 ^ Z.max ex 0)); [lia|].
  f_equal. apply qc_eq. unfold Z2Qc, Q2Qc, this. rewrite !Qred_correct. exact Ev.
Qed.

(** ** The last character of a text that float() accepts *)
Fixpoint ends_in (f : ascii -> bool) (s : string) : bool :=
  match s with EmptyString => false | String c EmptyString => f c | String _ r => ends_in f r end.
Lemma ends_in_app f p s : ends_in f s = true -> ends_in f (p ++ s) = true.
Proof.
  intros H. induction p as [|c p IH]; cbn [append]; [exact H|]. cbn [ends_in].
  destruct (p ++ s) as [|d r] eqn:E; [destruct p; [|discriminate]; cbn in E; subst; discriminate|]. exact IH.
Qed.
Lemma ends_in_app_inv f p s : s <> "" -> ends_in f (p ++ s) = ends_in f s.
Proof.
  intros N. induction p as [|c p IH]; cbn [append]; [reflexivity|]. cbn [ends_in].
  destruct (p ++ s) as [|d r] eqn:E; [destruct p; [|discriminate]; cbn in E; congruence|]. exact IH.
Qed.
Lemma ends_in_impl f g s : (forall c, f c = true -> g c = true) -> ends_in f s = true -> ends_in g s = true.
Proof. intros H. induction s as [|c s IH]; cbn [ends_in]; [discriminate|]. destruct s; [apply H|exact IH]. Qed.
Lemma ends_in_all f s : all_chars f s = true -> s <> "" -> ends_in f s = true.
Proof.
  induction s as [|c s IH]; cbn [all_chars ends_in]; [congruence|]. intros H _. apply andb_prop in H. destruct s; [apply H|]. apply IH; [apply H|discriminate].
Qed.
Lemma lstrip_split f s : exists w, s = w ++ lstrip_by f s /\ all_chars f w = true.
Proof.
  induction s as [|c s (w & IH & A)]; cbn [lstrip_by]; [exists ""; auto|]. destruct (f c) eqn:E; [|exists ""; auto].
  exists (String c w). cbn. rewrite E, A. split; [congruence|reflexivity].
Qed.
Lemma rstrip_split f s : exists w, s = rstrip_by f s ++ w /\ all_chars f w = true.
Proof.
  induction s as [|c s (w & IH & A)]; cbn [rstrip_by]; [exists ""; auto|].
  destruct (is_empty (rstrip_by f s)) eqn:E, (f c) eqn:F; cbn [andb].
  - exists (String c w). destruct (rstrip_by f s); [|discriminate]. cbn in *. rewrite F, A. split; [congruence|reflexivity].
  - exists w. cbn. split; [congruence|exact A].
  - exists w. cbn. split; [congruence|exact A].
  - exists w. cbn. split; [congruence|exact A].
Qed.
Lemma num_strip_split s : exists a b, s = a ++ num_strip s ++ b /\ all_chars is_num_space b = true.
Proof.
  unfold num_strip. destruct (lstrip_split is_num_space s) as (a & Ea & _), (rstrip_split is_num_space (lstrip_by is_num_space s)) as (b & Eb & B).
  exists a, b. split; [rewrite <- Eb; exact Ea|exact B].
Qed.
Lemma drop_underscores_ends f s : forall prev t, drop_underscores s prev = Some t -> ends_in f t = true -> ends_in f s = true.
Proof.
  induction s as [|c s IH]; intros prev t; cbn [drop_underscores]; [intros H; injection H as <-; discriminate|].
  destruct (Ascii.eqb c "_").
  - destruct (prev && _)%bool eqn:P; [|discriminate]. intros H E. specialize (IH _ _ H E). cbn [ends_in]. destruct s; [discriminate|exact IH].
  - destruct (drop_underscores s _) as [u|] eqn:D; [|discriminate]. intros H E. injection H as <-. cbn [ends_in] in *.
    destruct s as [|d s]; [cbn in D; injection D as <-; exact E|]. destruct u as [|e u].
    + exfalso. cbn [drop_underscores] in D. destruct (Ascii.eqb d "_").
      * destruct (is_digit c && match s with EmptyString => false | String x _ => is_digit x end)%bool eqn:P; [|discriminate].
        apply andb_prop in P. destruct P as [_ P]. destruct s as [|x s]; [discriminate|]. cbn [drop_underscores] in D.
        assert (Ascii.eqb x "_" = false) as X.
        { clear -P. revert x P. by_chars (fun x => implb (is_digit x) (negb (Ascii.eqb x "_"))). intros P. rewrite P in X. cbn in X. apply negb_true_iff, X. }
        rewrite X in D. destruct (drop_underscores s _); discriminate.
      * destruct (drop_underscores s _); discriminate.
    + exact (IH _ _ D E).
Qed.
Lemma lower_ends f s : ends_in f (lower s) = true -> ends_in (fun c => f (lower_char c)) s = true.
Proof. induction s as [|c s IH]; cbn [lower ends_in]; [discriminate|]. destruct s as [|d s]; [auto|]. intros H. apply IH. exact H. Qed.
Lemma span_digits_split s : forall a n z m r, span_digits s a n = (z, m, r) ->
  exists w, s = w ++ r /\ all_chars is_digit w = true /\ m = n + Z.of_nat (String.length w).
Proof.
  induction s as [|c s IH]; intros a n z m r; cbn [span_digits].
  - intros H. injection H as <- <- <-. exists "". cbn. split; [reflexivity|]. split; [reflexivity|lia].
  - destruct (is_digit c) eqn:D.
    + intros H. destruct (IH _ _ _ _ _ H) as (w & -> & A & ->). exists (String c w). cbn [append all_chars String.length]. rewrite D, A.
      split; [reflexivity|]. split; [reflexivity|lia].
    + intros H. injection H as <- <- <-. exists "". cbn. split; [reflexivity|]. split; [reflexivity|lia].
Qed.
Definition digit_or_point (c : ascii) : bool := is_digit c || Ascii.eqb c ".".
Lemma digits_end w : all_chars is_digit w = true -> w <> "" -> ends_in digit_or_point w = true.
Proof. intros A N. apply ends_in_all; [|exact N]. revert A. apply all_chars_impl. intros c H. unfold digit_or_point. rewrite H. reflexivity. Qed.
Lemma read_decimal_ends s q : read_decimal s = Some q -> ends_in digit_or_point s = true.
Proof.
  unfold read_decimal. destruct (span_digits s 0 0) as [[ip ni] r] eqn:E1. destruct (span_digits_split _ _ _ _ _ _ E1) as (w & -> & W & ->).
  intros H. destruct r as [|c r].
  - rewrite app_nil_r_s. destruct w as [|x w]; [discriminate|]. apply digits_end; [exact W|discriminate].
  - destruct (Ascii.eqb c ".") eqn:P.
    + destruct (span_digits r ip 0) as [[m nf] r2] eqn:E2. destruct (span_digits_split _ _ _ _ _ _ E2) as (w2 & -> & W2 & ->).
      destruct r2 as [|d r2].
      * rewrite app_nil_r_s. apply ends_in_app. cbn [ends_in]. destruct w2 as [|y w2]; [unfold digit_or_point; rewrite P; apply orb_true_r|].
        apply digits_end; [exact W2|discriminate].
      * destruct (_ =? 0) eqn:Z0; [discriminate|]. destruct (Ascii.eqb d "e" || Ascii.eqb d "E") eqn:X; [|discriminate].
        destruct (read_sign r2) as [neg t] eqn:RS. destruct (span_digits t 0 0) as [[e ne] t'] eqn:E3.
        destruct (span_digits_split _ _ _ _ _ _ E3) as (w3 & -> & W3 & ->). destruct t' as [|y t']; [|rewrite orb_true_r in H; discriminate].
        destruct w3 as [|y w3]; [discriminate|]. rewrite app_nil_r_s in RS.
        assert (Y : ends_in digit_or_point r2 = true).
        { destruct r2 as [|z r2]; [discriminate|]. cbn [read_sign] in RS. pose proof (digits_end _ W3 ltac:(discriminate)) as Q.
          destruct (Ascii.eqb z "-"); [injection RS as _ ->; apply (ends_in_app _ (String z "")), Q|].
          destruct (Ascii.eqb z "+"); inversion RS; subst; [apply (ends_in_app _ (String _ "")), Q|exact Q]. }
        apply ends_in_app. change (String c (w2 ++ String d r2)) with (String c w2 ++ String d "" ++ r2). apply ends_in_app, ends_in_app, Y.
    + destruct (_ =? 0) eqn:Z0; [discriminate|]. destruct (Ascii.eqb c "e" || Ascii.eqb c "E") eqn:X; [|discriminate].
      destruct (read_sign r) as [neg t] eqn:RS. destruct (span_digits t 0 0) as [[e ne] t'] eqn:E3.
      destruct (span_digits_split _ _ _ _ _ _ E3) as (w3 & -> & W3 & ->). destruct t' as [|y t']; [|rewrite orb_true_r in H; discriminate].
      destruct w3 as [|y w3]; [discriminate|]. rewrite app_nil_r_s in RS.
      assert (Y : ends_in digit_or_point r = true).
      { destruct r as [|z r]; [discriminate|]. cbn [read_sign] in RS. pose proof (digits_end _ W3 ltac:(discriminate)) as Q.
        destruct (Ascii.eqb z "-"); [injection RS as _ ->; apply (ends_in_app _ (String z "")), Q|].
        destruct (Ascii.eqb z "+"); inversion RS; subst; [apply (ends_in_app _ (String _ "")), Q|exact Q]. }
      apply ends_in_app. apply (ends_in_app _ (String c "")), Y.
Qed.
(** blanks, digits, the point, and the last letters of inf, infinity, nan *)
Definition float_last (c : ascii) : bool :=
  is_num_space c || digit_or_point c || Ascii.eqb (lower_char c) "f" || Ascii.eqb (lower_char c) "y" || Ascii.eqb (lower_char c) "n".
Lemma py_float_ends s x : py_float s = Ok x -> ends_in float_last s = true.
Proof.
  unfold py_float. destruct (drop_underscores _ _) as [t|] eqn:D; [|discriminate]. destruct (read_sign t) as [neg u] eqn:RS. cbv zeta. intros H.
  assert (U : ends_in float_last u = true).
  { destruct (_ || _)%bool eqn:I.
    - assert (L : ends_in (fun c => Ascii.eqb c "f" || Ascii.eqb c "y") (lower u) = true).
      { apply orb_prop in I. destruct I as [I|I]; apply String.eqb_eq in I; rewrite I; reflexivity. }
      apply lower_ends in L. revert L. apply ends_in_impl. intros c E. unfold float_last. apply orb_prop in E.
      destruct E as [E|E]; rewrite E, ?orb_true_r; reflexivity.
    - destruct (String.eqb _ "nan") eqn:N.
      + assert (L : ends_in (fun c => Ascii.eqb c "n") (lower u) = true) by (apply String.eqb_eq in N; rewrite N; reflexivity).
        apply lower_ends in L. revert L. apply ends_in_impl. intros c E. unfold float_last. rewrite E, ?orb_true_r; reflexivity.
      + destruct (read_decimal u) as [q|] eqn:R; [|discriminate]. apply read_decimal_ends in R. revert R. apply ends_in_impl.
        intros c E. unfold float_last. rewrite E, ?orb_true_r; reflexivity. }
  assert (T : ends_in float_last t = true).
  { destruct t as [|c t]; cbn [read_sign] in RS; [injection RS as _ <-; discriminate|].
    destruct (Ascii.eqb c "-"); [injection RS as _ <-; apply (ends_in_app _ (String c "")), U|].
    destruct (Ascii.eqb c "+"); injection RS as _ <-; [apply (ends_in_app _ (String c "")), U|exact U]. }
  apply (drop_underscores_ends _ _ _ _ D) in T. destruct (num_strip_split s) as (a & b & E & B). rewrite E. apply ends_in_app.
  destruct b as [|c b]; [rewrite app_nil_r_s; exact T|]. apply ends_in_app. apply ends_in_all; [|discriminate].
  revert B. apply all_chars_impl. intros d Hd. unfold float_last. rewrite Hd. reflexivity.
Qed.

(** ** A text ending in n that float() accepts ends in "an" *)
Lemma lower_app a b : lower (a ++ b) = lower a ++ lower b.
Proof. induction a as [|c a IH]; cbn; congruence. Qed.
Lemma drop_underscores_plain s : forall prev t, drop_underscores s prev = Some t -> all_chars (fun c => negb (is_digit c)) t = true -> s = t.
Proof.
  induction s as [|c s IH]; intros prev t; cbn [drop_underscores]; [congruence|]. destruct (Ascii.eqb c "_").
  - destruct (prev && _)%bool eqn:P; [|discriminate]. apply andb_prop in P. destruct P as [_ P]. intros H A. exfalso.
    destruct s as [|d s]; [discriminate|]. cbn [drop_underscores] in H.
    assert (Ascii.eqb d "_" = false) as X.
    { clear -P. revert d P. by_chars (fun x => implb (is_digit x) (negb (Ascii.eqb x "_"))). intros P. rewrite P in X. cbn in X. apply negb_true_iff, X. }
    rewrite X in H. destruct (drop_underscores s _); [|discriminate]. injection H as <-. cbn [all_chars] in A. rewrite P in A. discriminate.
  - destruct (drop_underscores s _) as [u|] eqn:D; [|discriminate]. intros H A. injection H as <-. cbn [all_chars] in A. apply andb_prop in A.
    f_equal. eapply IH; [exact D|apply A].
Qed.
Lemma lower_no_digit s t : lower s = t -> all_chars (fun c => negb (is_digit c)) t = true -> all_chars (fun c => negb (is_digit c)) s = true.
Proof.
  revert t. induction s as [|c s IH]; intros t <-; cbn [lower all_chars]; [auto|]. intros H. apply andb_prop in H. destruct H as [H1 H2].
  rewrite (IH _ eq_refl H2), andb_true_r. revert c H1. by_chars (fun c => implb (negb (is_digit (lower_char c))) (negb (is_digit c))).
  intros H. rewrite H in X. exact X.
Qed.
Definition is_n (c : ascii) : bool := Ascii.eqb (lower_char c) "n".
Lemma ends_in_contra f g s : ends_in f s = true -> (forall c, f c = true -> g c = false) -> ends_in g s = true -> False.
Proof.
  intros F H. induction s as [|c s IH]; cbn [ends_in] in *; [discriminate|]. destruct s; [|auto]. intros G. rewrite (H _ F) in G. discriminate.
Qed.
Lemma py_float_ends_n s x : py_float s = Ok x -> ends_in is_n s = true -> exists p, lower s = p ++ "nan".
Proof.
  intros H E. pose proof H as H0. unfold py_float in H. destruct (num_strip_split s) as (a & b & S & B).
  assert (b = "") as ->.
  { destruct b as [|c b]; [reflexivity|]. exfalso. rewrite S, <- app_assoc_s, ends_in_app_inv in E by discriminate.
    eapply (ends_in_contra is_num_space is_n); [apply ends_in_all; [exact B|discriminate]| |exact E].
    by_chars (fun c => implb (is_num_space c) (negb (is_n c))). intros X'. rewrite X' in X. apply negb_true_iff, X. }
  rewrite app_nil_r_s in S. destruct (drop_underscores (num_strip s) false) as [t|] eqn:D; [|discriminate].
  destruct (read_sign t) as [neg u] eqn:RS. cbv zeta in H.
  assert (ST : exists g, t = g ++ u).
  { destruct t as [|c t]; cbn [read_sign] in RS; [injection RS as _ <-; exists ""; reflexivity|].
    destruct (Ascii.eqb c "-"); [injection RS as _ <-; exists (String c ""); reflexivity|].
    destruct (Ascii.eqb c "+"); injection RS as _ <-; [exists (String c "")|exists ""]; reflexivity. }
  destruct ST as (g & ->).
  assert (contra : forall f, ends_in f u = true -> (forall c, f c = true -> is_n c = false) -> False).
  { intros f F N. assert (F' : ends_in f s = true).
    { rewrite S. apply ends_in_app. eapply drop_underscores_ends; [exact D|]. apply ends_in_app, F. }
    exact (ends_in_contra _ _ _ F' N E). }
  destruct (String.eqb (lower u) "inf" || String.eqb (lower u) "infinity") eqn:I.
  { exfalso. apply (contra (fun c => Ascii.eqb (lower_char c) "f" || Ascii.eqb (lower_char c) "y")).
    - apply (lower_ends (fun c => Ascii.eqb c "f" || Ascii.eqb c "y")). apply orb_prop in I. destruct I as [I|I]; apply String.eqb_eq in I; rewrite I; reflexivity.
    - by_chars (fun c => implb (Ascii.eqb (lower_char c) "f" || Ascii.eqb (lower_char c) "y") (negb (is_n c))).
      intros X'. rewrite X' in X. apply negb_true_iff, X. }
  destruct (String.eqb (lower u) "nan") eqn:N.
  - apply String.eqb_eq in N. exists (lower a ++ lower g). rewrite app_assoc_s, <- N, <- !lower_app. f_equal. rewrite S at 1. f_equal.
    eapply drop_underscores_plain; [exact D|]. rewrite all_chars_app. rewrite (lower_no_digit _ _ N eq_refl), andb_true_r.
    destruct g as [|c g]; [reflexivity|]. clear - RS. cbn [append read_sign] in RS. assert (g = "" /\ (c = "-"%char \/ c = "+"%char)) as [-> C].
    { destruct (Ascii.eqb_spec c "-"); [injection RS as _ RS; split; [|auto]; destruct g as [|d g]; [reflexivity|exfalso]|].
      - apply (f_equal String.length) in RS. cbn in RS. rewrite length_app_s in RS. lia.
      - destruct (Ascii.eqb_spec c "+"); injection RS as _ RS; [split; [|auto]; destruct g as [|d g]; [reflexivity|exfalso]|exfalso];
          apply (f_equal String.length) in RS; cbn in RS; rewrite length_app_s in RS; lia. }
    destruct C as [->| ->]; reflexivity.
  - destruct (read_decimal u) eqn:R; [|discriminate]. exfalso. apply read_decimal_ends in R. apply (contra _ R).
    by_chars (fun c => implb (digit_or_point c) (negb (is_n c))). intros X'. rewrite X' in X. apply negb_true_iff, X.
Qed.
