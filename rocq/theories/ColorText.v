(** * Facts for the colour properties: texts *)
From Coq Require Import ZArith QArith Qcanon Bool String Ascii List Lia.
From Verif Require Import PyNum NumFacts Units Float64 PyStr StrFacts TextFacts Colors Values Parser ColorSpec.
Import ListNotations.
Open Scope string_scope.
Open Scope Z_scope.

(** ** Pairs of characters *)
Definition all_ascii : list ascii := map ascii_of_nat (seq 0 256).
Lemma all_ascii_in c : In c all_ascii.
Proof. unfold all_ascii. rewrite <- (ascii_nat_embedding c). apply in_map, in_seq. pose proof (nat_ascii_bounded c). lia. Qed.
Lemma every_pair (P : ascii -> ascii -> bool) : forallb (fun a => forallb (P a) all_ascii) all_ascii = true -> forall a b, P a b = true.
Proof.
  intros H a b. rewrite forallb_forall in H. specialize (H a (all_ascii_in a)). rewrite forallb_forall in H. exact (H b (all_ascii_in b)).
Qed.
Definition opt_eqb (a b : option Z) : bool := match a, b with Some x, Some y => x =? y | None, None => true | _, _ => false end.
Lemma opt_eqb_eq a b : opt_eqb a b = true -> a = b.
Proof. destruct a, b; cbn; try discriminate; [|reflexivity]. intros H. apply Z.eqb_eq in H. congruence. Qed.
Definition ok_of (r : res Z) : option Z := match r with Ok z => Some z | Err _ => None end.
Lemma int16_pair a b : py_int16 (String a (String b "")) = match pair_value a b with Some z => Ok z | None => Err ValueError end.
Proof.
  assert (E : ok_of (py_int16 (String a (String b ""))) = pair_value a b).
  { apply opt_eqb_eq. revert a b. apply (every_pair (fun a b => opt_eqb (ok_of (py_int16 (String a (String b "")))) (pair_value a b))).
    vm_compute. reflexivity. }
  rewrite <- E. destruct (py_int16 _) eqn:F; cbn [ok_of]; [reflexivity|]. apply py_int_base_err in F. congruence.
Qed.
Lemma pair_twice c : pair_value c c = match hex_value c with Some x => Some (17 * x) | None => None end.
Proof.
  apply opt_eqb_eq. revert c. by_chars (fun c => opt_eqb (pair_value c c) (match hex_value c with Some x => Some (17 * x) | None => None end)). exact X.
Qed.
Lemma hex_range c x : hex_value c = Some x -> 0 <= x <= 15.
Proof.
  revert c x. by_chars (fun c => match hex_value c with Some x => (0 <=? x) && (x <=? 15) | None => true end). intros x E. rewrite E in X.
  apply andb_prop in X. destruct X as [A B]. apply Z.leb_le in A, B. lia.
Qed.
(** alpha fractions *)
Definition in_unit (x : xq) : bool := match x with Fin q => qc_leb 0 q && qc_leb q 1 | _ => false end.
Lemma alpha_range z : 0 <= z <= 255 -> exists q, b64 (z # 255) = Fin q /\ unit_interval q.
Proof.
  intros H. assert (E : in_unit (b64 (z # 255)) = true).
  { assert (X : forallb (fun n => in_unit (b64 (Z.of_nat n # 255))) (seq 0 256) = true) by (vm_compute; reflexivity).
    rewrite forallb_forall in X. specialize (X (Z.to_nat z)). rewrite Z2Nat.id in X by lia. apply X, in_seq. lia. }
  destruct (b64 (z # 255)) as [q| |]; try discriminate. exists q. split; [reflexivity|]. cbn in E. apply andb_prop in E. destruct E as [A B].
  destruct (qc_leb_spec 0 q), (qc_leb_spec q 1); try discriminate. split; assumption.
Qed.

(** ** Hexadecimal colours *)
Lemma pound_hex l : pound_sign_color (hash l) = match hex_color l with Some v => Ok (byte_color v) | None => Err ValueError end.
Proof.
  unfold hash. destruct l as [|a [|b [|c [|d [|e [|f [|g [|h [|i l]]]]]]]]]; try reflexivity;
  cbn [string_of_list_ascii pound_sign_color String.length hex_color]; unfold char_at, twice, int16, alpha16, int_div;
  cbn [drop take append]; rewrite ?int16_pair;
  repeat match goal with |- context [pair_value ?x ?y] => destruct (pair_value x y) end; reflexivity.
Qed.
Lemma color_hash n l : color n (VStr (hash l)) = match hex_color l with
  | Some v => Ok (VColor (OId n) (byte_color v), S n) | None => Err ValueError end.
Proof.
  unfold color, color_text, hash. change (Ascii.eqb "#" "#") with true. cbv iota. change (String "#" (string_of_list_ascii l)) with (hash l).
  rewrite pound_hex. destruct (hex_color l); reflexivity.
Qed.

(** ** Stripping blanks *)
Lemma lstrip_pad f p t : all_chars f p = true -> lstrip_by f (p ++ t) = lstrip_by f t.
Proof. induction p as [|c p IH]; cbn; [reflexivity|]. intros H. apply andb_prop in H. destruct H as [-> H]. apply IH, H. Qed.
Lemma rstrip_blank f q : all_chars f q = true -> rstrip_by f q = "".
Proof. induction q as [|c q IH]; cbn; [reflexivity|]. intros H. apply andb_prop in H. destruct H as [-> H]. rewrite (IH H). reflexivity. Qed.
Lemma rstrip_pad f s q : all_chars f q = true -> rstrip_by f (s ++ q) = rstrip_by f s.
Proof. intros H. induction s as [|c s IH]; cbn; [apply rstrip_blank, H|]. rewrite IH. reflexivity. Qed.
(** first and last characters are not in f *)
Definition trimmed (f : ascii -> bool) (s : string) : Prop :=
  match s with EmptyString => True | String c _ => f c = false end /\ rstrip_by f s = s.
Lemma strip_pad f p s q : all_chars f p = true -> all_chars f q = true -> trimmed f s ->
  rstrip_by f (lstrip_by f (p ++ s ++ q)) = s.
Proof.
  intros P Q [H T]. rewrite (lstrip_pad _ _ _ P). destruct s as [|c s].
  - cbn [append]. rewrite <- (app_nil_r_s q), (lstrip_pad _ _ _ Q). reflexivity.
  - cbn [append]. rewrite (lstrip_none _ _ _ H). change (String c (s ++ q)) with (String c s ++ q). rewrite (rstrip_pad _ _ _ Q). exact T.
Qed.
Lemma trimmed_all f s : all_chars (fun c => negb (f c)) s = true -> trimmed f s.
Proof.
  intros H. split; [|apply rstrip_all, H]. destruct s; [exact I|]. cbn in H. apply andb_prop in H. apply negb_true_iff, H.
Qed.
Lemma blank_num c : blank c = is_num_space c.
Proof. revert c. by_chars (fun c => Bool.eqb (blank c) (is_num_space c)). apply Bool.eqb_prop, X. Qed.
Lemma blank_space c : blank c = true -> is_space c = true.
Proof. revert c. by_chars (fun c => implb (blank c) (is_space c)). intros H. rewrite H in X. exact X. Qed.
Lemma blanks_num s : blanks s -> all_chars is_num_space s = true.
Proof. apply all_chars_impl. intros c. rewrite blank_num. auto. Qed.
Lemma blanks_space s : blanks s -> all_chars is_space s = true.
Proof. apply all_chars_impl, blank_space. Qed.

(** ** int() of a written whole number *)
Lemma dec_digit_is c : dec_digit c = is_digit c.
Proof. reflexivity. Qed.
Lemma digits_is s : digits s -> all_chars is_digit s = true.
Proof. intros H. exact H. Qed.
Lemma digit10 c : dec_digit c = true -> digit_in 10 c = Some (Z.of_N (N_of_ascii c) - 48) /\ Ascii.eqb c "_" = false /\ num_char c = true /\ Ascii.eqb "%" c = false.
Proof.
  revert c. by_chars (fun c => implb (dec_digit c) (opt_eqb (digit_in 10 c) (Some (Z.of_N (N_of_ascii c) - 48)) && negb (Ascii.eqb c "_") && num_char c && negb (Ascii.eqb "%" c))).
  intros H. rewrite H in X. cbn [implb] in X. apply andb_prop in X. destruct X as [X D]. apply andb_prop in X. destruct X as [X C]. apply andb_prop in X. destruct X as [A B].
  apply opt_eqb_eq in A. apply negb_true_iff in B, D. auto.
Qed.
Lemma read_digits_dec ds : forall acc, digits ds -> ds <> "" -> read_digits 10 ds acc false = Some (dec_value acc ds).
Proof.
  assert (G : forall acc, digits ds -> read_digits 10 ds acc true = Some (dec_value acc ds)).
  { induction ds as [|c ds IH]; intros acc D; [reflexivity|]. cbn [read_digits dec_value]. apply andb_prop in D. destruct D as [D1 D2].
    destruct (digit10 _ D1) as (-> & -> & _). apply IH, D2. }
  intros acc D N. destruct ds as [|c ds]; [congruence|]. cbn [read_digits dec_value]. pose proof D as D'. apply andb_prop in D. destruct D as [D1 D2].
  specialize (G acc D'). cbn [read_digits dec_value] in G. destruct (digit10 _ D1) as (E & F & _). rewrite E, F in *. exact G.
Qed.
Lemma digits_num ds : digits ds -> all_chars num_char ds = true.
Proof. apply all_chars_impl. intros c H. apply digit10, H. Qed.
Lemma sign_digits ds : digits ds -> ds <> "" -> read_sign ds = (false, ds).
Proof.
  intros D N. destruct ds as [|c ds]; [congruence|]. apply andb_prop in D. destruct D as [D _]. cbn [read_sign].
  assert (Ascii.eqb c "-" = false /\ Ascii.eqb c "+" = false) as [-> ->]; [|reflexivity].
  clear N. revert c D. by_chars (fun c => implb (dec_digit c) (negb (Ascii.eqb c "-") && negb (Ascii.eqb c "+"))). intros D. rewrite D in X. cbn in X.
  apply andb_prop in X. destruct X as [X1 X2]. apply negb_true_iff in X1, X2. auto.
Qed.
Lemma whole_sign s z : whole_text s z -> exists ds (neg : bool), ds <> "" /\ digits ds /\ read_sign s = (neg, ds) /\ z = if neg then - dec_value 0 ds else dec_value 0 ds.
Proof.
  intros (ds & N & D & [[-> ->]|[[-> ->]|[-> ->]]]).
  - exists ds, false. rewrite (sign_digits _ D N). auto.
  - exists ds, false. auto.
  - exists ds, true. auto.
Qed.
Lemma whole_num s z : whole_text s z -> all_chars num_char s = true.
Proof. intros (ds & N & D & [[-> _]|[[-> _]|[-> _]]]); cbn; apply digits_num, D. Qed.
Lemma num_trimmed s : all_chars num_char s = true -> trimmed is_num_space s.
Proof. intros H. apply trimmed_all. revert H. apply all_chars_impl. intros c E. apply andb_prop in E. apply E. Qed.
Lemma py_int_stripped s z : whole_text s z -> forall t, num_strip t = s -> py_int t = Ok z.
Proof.
  intros W t E. unfold py_int, py_int_base. rewrite E. destruct (whole_sign _ _ W) as (ds & neg & N & D & -> & ->). cbv beta iota zeta.
  change (10 =? 16) with false. cbv iota. rewrite (read_digits_dec _ _ D N). reflexivity.
Qed.
Lemma py_int_arg t z : arg whole_text t z -> py_int t = Ok z.
Proof.
  intros (p & s & q & P & Q & W & ->). apply (py_int_stripped s z W). apply strip_pad.
  - apply blanks_num, P.
  - apply blanks_num, Q.
  - apply num_trimmed, (whole_num _ _ W).
Qed.
(** percentages *)
Lemma percent_strip t z : arg percent_text t z -> py_int (rstrip_percent (strip t)) = Ok z.
Proof.
  intros (p & s & q & P & Q & (u & W & ->) & ->). pose proof (whole_num _ _ W) as A.
  assert (NS : all_chars (fun c => negb (is_space c)) u = true).
  { destruct W as (ds & N & D & H). assert (all_chars (fun c => negb (is_space c)) ds = true).
    { revert D. apply all_chars_impl. by_chars (fun c => implb (dec_digit c) (negb (is_space c))). intros E. rewrite E in X. exact X. }
    destruct H as [[-> _]|[[-> _]|[-> _]]]; cbn; exact H0. }
  assert (NP : all_chars (fun c => negb (Ascii.eqb "%" c)) u = true).
  { destruct W as (ds & N & D & H). assert (all_chars (fun c => negb (Ascii.eqb "%" c)) ds = true).
    { revert D. apply all_chars_impl. intros c E. destruct (digit10 _ E) as (_ & _ & _ & ->). reflexivity. }
    destruct H as [[-> _]|[[-> _]|[-> _]]]; cbn [all_chars append]; exact H0. }
  unfold strip. rewrite strip_pad.
  - unfold rstrip_percent. rewrite rstrip_pad by reflexivity. rewrite (rstrip_all _ _ NP). apply (py_int_stripped u z W).
    apply num_strip_id, A.
  - apply blanks_space, P.
  - apply blanks_space, Q.
  - apply trimmed_all. rewrite all_chars_app, NS. reflexivity.
Qed.
Lemma int_fdiv_100 z : Z.abs z <= 2 ^ 53 -> int_fdiv z 100 = Ok (b64 (z # 100)).
Proof.
  intros H. unfold int_fdiv, float_of_int. rewrite (b64_exact z (double_small z H)). cbn [bindr]. f_equal. f_equal.
  assert (E : this (Z2Qc z) = inject_Z z). { unfold Z2Qc, Q2Qc, this, inject_Z, Qred. pose proof (Z.ggcd_correct_divisors z 1) as C. pose proof (Z.ggcd_gcd z 1) as G. rewrite Z.gcd_1_r in G.
    destruct (Z.ggcd z 1) as [g [x y]]. cbn in G. subst g. destruct C as [-> C2]. rewrite Z.mul_1_l in *. cbn [fst snd]. rewrite <- C2. reflexivity. }
  rewrite E. unfold Qdiv, Qinv, inject_Z, Qmult. cbn [Qnum Qden]. rewrite Z.mul_1_r. reflexivity.
Qed.
Lemma percent10_arg t z : Z.abs z <= 2 ^ 53 -> arg percent_text t z -> percent10 t = Ok (PF (b64 (z # 100))).
Proof. intros B H. unfold percent10. rewrite (percent_strip _ _ H). cbn [bindr]. rewrite (int_fdiv_100 z B). reflexivity. Qed.

(** ** float() of a written number *)
Lemma span_dec ds : digits ds -> forall t a n, span_digits (ds ++ t) a n = span_digits t (dec_value a ds) (n + Z.of_nat (String.length ds)).
Proof.
  induction ds as [|c ds IH]; intros D t a n; cbn [append].
  - cbn [dec_value String.length]. change (Z.of_nat 0) with 0. rewrite Z.add_0_r. reflexivity.
  - apply andb_prop in D. destruct D as [D1 D2]. cbn [span_digits]. change (is_digit c) with (dec_digit c). rewrite D1, (IH D2). cbn [dec_value String.length].
    rewrite Nat2Z.inj_succ. replace (n + 1 + Z.of_nat (String.length ds)) with (n + Z.succ (Z.of_nat (String.length ds))) by lia. reflexivity.
Qed.
Lemma dec_value_app a b acc : dec_value acc (a ++ b) = dec_value (dec_value acc a) b.
Proof. revert acc. induction a as [|c a IH]; intros acc; [reflexivity|]. cbn. apply IH. Qed.
Lemma qpow10_neg n : qpow10 (- Z.of_nat n) = (1 # Z.to_pos (10 ^ Z.of_nat n))%Q.
Proof.
  unfold qpow10. rewrite Z.opp_involutive. destruct (Z.leb_spec 0 (- Z.of_nat n)); [|reflexivity].
  assert (Z.of_nat n = 0) as -> by lia. reflexivity.
Qed.
Lemma read_fraction s q : fraction_text s q -> read_decimal s = Some q.
Proof.
  intros (ip & fp & I & F & N & -> & ->). unfold read_decimal. rewrite (span_dec _ I). cbn [append span_digits].
  change (is_digit ".") with false. cbv beta iota. rewrite Ascii.eqb_refl. cbv beta iota.
  rewrite <- (app_nil_r_s fp) at 1. rewrite (span_dec _ F). cbn [span_digits]. cbv beta iota zeta.
  assert (L : (String.length ip + String.length fp <> 0)%nat). { rewrite <- length_app_s. destruct (ip ++ fp); [congruence|cbn; lia]. }
  destruct (Z.eqb_spec (0 + Z.of_nat (String.length ip) + (0 + Z.of_nat (String.length fp))) 0); [lia|].
  rewrite !Z.add_0_l, ?app_nil_r_s, qpow10_neg, dec_value_app. f_equal. unfold Qmult, inject_Z. cbn [Qnum Qden]. rewrite Z.mul_1_r. reflexivity.
Qed.
Lemma fraction_num s q : fraction_text s q -> all_chars num_char s = true.
Proof.
  intros (ip & fp & I & F & N & -> & ->). rewrite !all_chars_app, (digits_num _ I), (digits_num _ F). reflexivity.
Qed.
Lemma py_float_stripped s q : number_text s q -> forall t, num_strip t = s -> py_float t = Ok (b64 q).
Proof.
  intros [F|(z & W & ->)] t E; unfold py_float; rewrite E.
  - rewrite (drop_underscores_id _ (fraction_num _ _ F)). pose proof (read_fraction _ _ F) as R.
    destruct F as (ip & fp & I & F & N & -> & ->). assert (read_sign (ip ++ "." ++ fp) = (false, ip ++ "." ++ fp)) as ->.
    { destruct ip as [|c ip]; [reflexivity|]. apply andb_prop in I. destruct I as [I _].
      pose proof (sign_digits (String c "")) as S. cbn [append read_sign] in *. assert (digits (String c "")) as D by (unfold digits; cbn; rewrite I; reflexivity).
      specialize (S D). destruct (Ascii.eqb c "-"); [discriminate S; discriminate|]. destruct (Ascii.eqb c "+"); [discriminate S; discriminate|]. reflexivity. }
    destruct (plain_first_special (ip ++ "." ++ fp)) as [P1 P2].
    { destruct ip as [|c ip]; [reflexivity|]. apply andb_prop in I. destruct I as [I _]. apply digit_plain, I. }
    cbv beta iota zeta. rewrite P1, P2, R. reflexivity.
  - rewrite (drop_underscores_id _ (whole_num _ _ W)). destruct (whole_sign _ _ W) as (ds & neg & N & D & -> & ->).
    destruct (plain_first_special ds) as [P1 P2]. { destruct ds as [|c ds]; [congruence|]. apply andb_prop in D. destruct D as [D _]. apply digit_plain, D. }
    cbv beta iota zeta. rewrite P1, P2.
    assert (read_decimal ds = Some (inject_Z (dec_value 0 ds))) as ->.
    { unfold read_decimal. rewrite <- (app_nil_r_s ds), (span_dec _ D). cbn [span_digits]. cbv beta iota zeta.
      destruct (Z.eqb_spec (0 + Z.of_nat (String.length ds) + 0) 0); [destruct ds; [congruence|cbn in *; lia]|].
      rewrite app_nil_r_s. unfold qpow10. cbn. unfold Qmult, inject_Z. cbn. rewrite Z.mul_1_r. reflexivity. }
    destruct neg; reflexivity.
Qed.
Lemma py_float_arg t q : arg number_text t q -> py_float t = Ok (b64 q).
Proof.
  intros (p & s & r & P & R & W & ->). apply (py_float_stripped s q W). apply strip_pad.
  - apply blanks_num, P.
  - apply blanks_num, R.
  - apply num_trimmed. destruct W as [F|(z & W & _)]; [apply (fraction_num _ _ F)|apply (whole_num _ _ W)].
Qed.

(** ** Characters of a text int() accepts *)
Lemma read_digits_chars s : forall acc prev z, read_digits 10 s acc prev = Some z -> all_chars (fun c => dec_digit c || Ascii.eqb c "_") s = true.
Proof.
  induction s as [|c s IH]; intros acc prev z; cbn [read_digits all_chars]; [reflexivity|]. destruct (Ascii.eqb c "_") eqn:U.
  - destruct prev; [|discriminate]. intros H. rewrite orb_true_r. cbn. exact (IH _ _ _ H).
  - destruct (digit_in 10 c) eqn:D; [|discriminate]. intros H. rewrite (IH _ _ _ H), andb_true_r. apply orb_true_iff. left. clear -D.
    revert c z0 D. by_chars (fun c => match digit_in 10 c with Some _ => dec_digit c | None => true end). intros z D. rewrite D in X. exact X.
Qed.
Lemma read_digits_some s : forall acc z, read_digits 10 s acc false = Some z -> existsb dec_digit (list_ascii_of_string s) = true.
Proof.
  destruct s as [|c s]; intros acc z; cbn [read_digits]; [discriminate|]. destruct (Ascii.eqb c "_"); [discriminate|].
  destruct (digit_in 10 c) eqn:D; [|discriminate]. intros _. cbn [list_ascii_of_string existsb]. apply orb_true_iff. left. clear -D.
  revert c z0 D. by_chars (fun c => match digit_in 10 c with Some _ => dec_digit c | None => true end). intros z D. rewrite D in X. exact X.
Qed.
Lemma existsb_app_s f a b : existsb f (list_ascii_of_string (a ++ b)) = existsb f (list_ascii_of_string a) || existsb f (list_ascii_of_string b).
Proof. induction a as [|c a IH]; cbn; [reflexivity|]. rewrite IH, orb_assoc. reflexivity. Qed.
Lemma num_strip_pads s : exists a b, s = a ++ num_strip s ++ b /\ all_chars is_num_space a = true /\ all_chars is_num_space b = true.
Proof.
  unfold num_strip. destruct (lstrip_split is_num_space s) as (a & Ea & A), (rstrip_split is_num_space (lstrip_by is_num_space s)) as (b & Eb & B).
  exists a, b. split; [rewrite <- Eb; exact Ea|]. auto.
Qed.
Lemma py_int_chars t z : py_int t = Ok z -> all_chars int_char t = true /\ existsb dec_digit (list_ascii_of_string t) = true.
Proof.
  unfold py_int, py_int_base. change (10 =? 16) with false. cbv iota. destruct (num_strip_pads t) as (a & b & E & A & B).
  set (u := num_strip t) in *. clearbody u. destruct (read_sign u) as [neg ds] eqn:S. destruct (read_digits 10 ds 0 false) eqn:D; [|discriminate]. intros _.
  assert (I : forall c, is_num_space c = true -> int_char c = true). { intros c. rewrite <- blank_num. intros H. unfold int_char. rewrite H. rewrite orb_true_r. reflexivity. }
  assert (U : all_chars int_char u = true /\ existsb dec_digit (list_ascii_of_string u) = true).
  { pose proof (read_digits_chars _ _ _ _ D) as C. pose proof (read_digits_some _ _ _ D) as F.
    assert (C' : all_chars int_char ds = true). { revert C. apply all_chars_impl. intros c H. unfold int_char. apply orb_prop in H. destruct H as [-> | ->]; rewrite ?orb_true_r; reflexivity. }
    unfold read_sign in S. destruct u as [|c u]; [injection S as <- <-; discriminate F|].
    destruct (Ascii.eqb c "-") eqn:M; [|destruct (Ascii.eqb c "+") eqn:P].
    - injection S as <- <-. cbn [all_chars list_ascii_of_string existsb]. unfold int_char at 1. rewrite M, C', F, !orb_true_r. auto.
    - injection S as <- <-. cbn [all_chars list_ascii_of_string existsb]. unfold int_char at 1. rewrite P, C', F, !orb_true_r. auto.
    - injection S as <- <-. auto. }
  rewrite E, !all_chars_app, !existsb_app_s. destruct U as [-> ->]. rewrite (all_chars_impl _ _ _ I A), (all_chars_impl _ _ _ I B). split; [reflexivity|]. cbn. apply orb_true_r.
Qed.

(** ** Splitting the arguments *)
Lemma split_on_none s : no_comma s = true -> split_on "," s = [s].
Proof.
  induction s as [|c s IH]; [reflexivity|]. cbn [split_on]. intros H. apply andb_prop in H. destruct H as [H1 H2]. apply negb_true_iff in H1. rewrite H1, (IH H2). reflexivity.
Qed.
Lemma split_on_cons w t : no_comma w = true -> split_on "," (w ++ String "," t) = w :: split_on "," t.
Proof.
  induction w as [|c w IH]; [reflexivity|]. cbn [append split_on]. intros H. apply andb_prop in H. destruct H as [H1 H2]. apply negb_true_iff in H1. rewrite H1, (IH H2). reflexivity.
Qed.
Lemma split_on_join ts : ts <> [] -> Forall (fun t => no_comma t = true) ts -> split_on "," (join "," ts) = ts.
Proof.
  intros N F. induction F as [|t ts T F IH]; [congruence|]. destruct ts as [|u ts].
  - cbn. apply split_on_none, T.
  - change (join "," (t :: u :: ts)) with (t ++ String "," (join "," (u :: ts))). rewrite (split_on_cons _ _ T), IH by discriminate. reflexivity.
Qed.
Lemma drop_end_1 p c : drop_end 1 (p ++ String c "") = p.
Proof. apply (drop_end_app p (String c "")). Qed.
Lemma arg_no_comma {A} (P : string -> A -> Prop) t v : (forall s x, P s x -> no_comma s = true) -> arg P t v -> no_comma t = true.
Proof.
  intros H (p & s & q & B1 & B2 & Y & ->). unfold no_comma. rewrite !all_chars_app. fold (no_comma s). rewrite (H _ _ Y).
  assert (G : forall b, blanks b -> all_chars (fun c => negb (Ascii.eqb c ",")) b = true).
  { intros b. apply all_chars_impl. by_chars (fun c => implb (blank c) (negb (Ascii.eqb c ","))). intros E. rewrite E in X. exact X. }
  rewrite (G _ B1), (G _ B2). reflexivity.
Qed.
Lemma digits_no_comma ds : digits ds -> no_comma ds = true.
Proof. apply all_chars_impl. by_chars (fun c => implb (dec_digit c) (negb (Ascii.eqb c ","))). intros E. rewrite E in X. exact X. Qed.
Lemma whole_no_comma s z : whole_text s z -> no_comma s = true.
Proof. intros (ds & N & D & [[-> _]|[[-> _]|[-> _]]]); unfold no_comma; cbn; apply digits_no_comma, D. Qed.
Lemma percent_no_comma s z : percent_text s z -> no_comma s = true.
Proof. intros (t & W & ->). unfold no_comma. rewrite all_chars_app. fold (no_comma t). rewrite (whole_no_comma _ _ W). reflexivity. Qed.
Lemma number_no_comma s q : number_text s q -> no_comma s = true.
Proof.
  intros [(ip & fp & I & F & N & -> & _)|(z & W & _)]; [|apply (whole_no_comma _ _ W)]. unfold no_comma. rewrite !all_chars_app.
  fold (no_comma ip) (no_comma fp). rewrite (digits_no_comma _ I), (digits_no_comma _ F). reflexivity.
Qed.
