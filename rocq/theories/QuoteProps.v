(** * Texts given to quotes (C156) *)
From Coq Require Import ZArith QArith Qcanon Bool String Ascii List Lia.
From Verif Require Import PyNum Units Float64 PyStr Colors Values Parser Choices Decl StrFacts TextFacts DeclFacts ParserFacts ParserSpec ParserProps DeclSpec QuoteSpec.
Import ListNotations.
Open Scope string_scope.
Open Scope Z_scope.

Lemma each_forallb (P : ascii -> Prop) f s : (forall c, P c -> f c = true) -> each P s -> forallb f (list_ascii_of_string s) = true.
Proof. intros H E. apply forallb_forall. intros c I. unfold each in E. rewrite Forall_forall in E. auto. Qed.
Lemma code_nat c : code c = Z.of_nat (nat_of_ascii c).
Proof. unfold code, nat_of_ascii. rewrite N_nat_Z. reflexivity. Qed.
Lemma in_range_nat lo hi c : (lo <= nat_of_ascii c <= hi)%nat -> in_range (Z.of_nat lo) (Z.of_nat hi) c = true.
Proof. intros H. unfold in_range. rewrite code_nat. apply andb_true_iff. split; apply Z.leb_le; lia. Qed.
Lemma digit_is c : digit c -> is_digit c = true.
Proof. intros H. apply (in_range_nat 48 57), H. Qed.
Lemma letter_is c : letter c -> is_name_start c = true.
Proof.
  intros [H|[H|H]]; unfold is_name_start.
  - assert (in_range 65 90 c = true) as -> by exact (in_range_nat 65 90 c H). reflexivity.
  - assert (in_range 97 122 c = true) as -> by exact (in_range_nat 97 122 c H). apply orb_true_iff. left. apply orb_true_r.
  - apply orb_true_iff. right. apply Ascii.eqb_eq. rewrite <- (ascii_nat_embedding c), H. reflexivity.
Qed.
Lemma zero_free f s : (forall c, f c = true -> Ascii.eqb zero c = false) -> forallb f (list_ascii_of_string s) = true -> contains zero s = false.
Proof.
  intros H F. unfold contains. destruct (existsb _ _) eqn:E; [|reflexivity]. apply existsb_exists in E. destruct E as (c & I & E).
  rewrite forallb_forall in F. rewrite (H c (F c I)) in E. discriminate.
Qed.
Lemma ordinary_zero q s : quote_mark q -> each (ordinary q) s -> contains zero s = false.
Proof.
  intros Q E. unfold contains. destruct (existsb _ _) eqn:X; [|reflexivity]. apply existsb_exists in X. destruct X as (c & I & X).
  unfold each in E. rewrite Forall_forall in E. destruct (E c I) as (_ & _ & N). apply Ascii.eqb_eq in X. subst c. exfalso. apply N. reflexivity.
Qed.
Lemma contains_cons x c s : contains x (String c s) = (Ascii.eqb x c || contains x s)%bool.
Proof. reflexivity. Qed.
Lemma contains_app x s t : contains x (s ++ t) = (contains x s || contains x t)%bool.
Proof. induction s as [|c s IH]; [reflexivity|]. cbn [append]. rewrite !contains_cons, IH, orb_assoc. reflexivity. Qed.
Lemma mark_eval q r : quote_mark q -> contains zero r = false -> triple q r = false -> literal_eval (String q r) = read_literal q r.
Proof.
  intros Q Z T. unfold literal_eval. rewrite contains_cons, Z, T. destruct Q as [-> | ->]; reflexivity.
Qed.
Lemma ordinary_triple q s r : each (ordinary q) s -> r = "" \/ r = String q "" -> triple q (s ++ r) = false.
Proof.
  intros E [-> | ->]; (destruct s as [|c s]; [reflexivity|]); inversion E as [|? ? (A & _) _]; subst; cbn [append triple];
    (destruct (Ascii.eqb_spec c q); [congruence|]); (destruct (s ++ _) as [|? ?]; reflexivity).
Qed.
Lemma read_ordinary q c r : ordinary q c -> is_space c = false -> read_literal q (String c r) = put c (read_literal q r).
Proof.
  intros (A & B & _) S. cbn [read_literal]. destruct (Ascii.eqb_spec c q); [congruence|]. destruct (Ascii.eqb_spec c backslash) as [->|]; [exfalso; apply B; reflexivity|].
  assert ((code c =? 10) || (code c =? 13) = false)%bool as ->; [|reflexivity].
  destruct c as [[] [] [] [] [] [] [] []]; first [reflexivity|discriminate S].
Qed.
Lemma read_quoted q s : quote_mark q -> each (ordinary q) s -> no_space s = true -> read_literal q (s ++ String q "") = LitStr s.
Proof.
  intros Q. induction s as [|c s IH]; intros E N.
  - destruct Q as [-> | ->]; reflexivity.
  - inversion E as [|? ? O E']; subst. cbn [no_space all_chars] in N. apply andb_prop in N. destruct N as [N1 N2]. cbn [append].
    rewrite read_ordinary by (auto; apply negb_true_iff; exact N1). rewrite (IH E' N2). reflexivity.
Qed.
Lemma read_open q s : quote_mark q -> each (ordinary q) s -> no_space s = true -> read_literal q s = LitBad.
Proof.
  intros Q. induction s as [|c s IH]; intros E N.
  - reflexivity.
  - inversion E as [|? ? O E']; subst. cbn [no_space all_chars] in N. apply andb_prop in N. destruct N as [N1 N2].
    rewrite read_ordinary by (auto; apply negb_true_iff; exact N1). rewrite (IH E' N2). reflexivity.
Qed.
Lemma no_space_tail c r : no_space (String c r) = true -> no_space r = true.
Proof. cbn. intros H. apply andb_prop in H. apply H. Qed.
Lemma no_space_head a b : no_space (a ++ b) = true -> no_space a = true.
Proof. unfold no_space. rewrite all_chars_app. intros H. apply andb_prop in H. apply H. Qed.

Lemma eval_quoted w s : word w -> quoted w s -> eval_quote w = Ok (Some s).
Proof.
  intros [_ W] (q & Q & E & ->). unfold eval_quote. rewrite mark_eval; [|exact Q| |apply ordinary_triple; auto].
  - rewrite read_quoted; [reflexivity|exact Q|exact E|]. apply no_space_tail, no_space_head in W. exact W.
  - rewrite contains_app, (ordinary_zero q s Q E). destruct Q as [-> | ->]; reflexivity.
Qed.
(** words that do not start with a quotation mark *)
Lemma bare_eval c r : quote_mark c \/ literal_eval (String c r) = (if contains zero (String c r) then LitBad else read_bare (String c r)).
Proof.
  unfold literal_eval. destruct (contains zero (String c r)); [auto|].
  destruct (Ascii.eqb_spec c squote) as [->|]; [left; left; reflexivity|]. destruct (Ascii.eqb_spec c dquote) as [->|]; [left; right; reflexivity|]. auto.
Qed.
Lemma name_start c : is_name_start c = true -> starts_nothing c = false /\ (~ quote_mark c) /\ Ascii.eqb zero c = false.
Proof.
  intros H. assert (X : (starts_nothing c = false /\ Ascii.eqb c "'" = false /\ Ascii.eqb c """" = false) /\ Ascii.eqb zero c = false).
  { destruct c as [[] [] [] [] [] [] [] []]; first [discriminate H|repeat split; reflexivity]. }
  destruct X as [(A & B & C) D]. repeat split; try assumption. intros [-> | ->]; discriminate.
Qed.
Lemma digit_start c : is_digit c = true -> starts_nothing c = false /\ is_name_start c = false /\ (~ quote_mark c) /\ Ascii.eqb zero c = false
  /\ Ascii.eqb c "+" = false /\ Ascii.eqb c "-" = false /\ Ascii.eqb c "." = false.
Proof.
  intros H. assert (X : starts_nothing c = false /\ is_name_start c = false /\ (Ascii.eqb c "'" = false /\ Ascii.eqb c """" = false) /\ Ascii.eqb zero c = false
    /\ Ascii.eqb c "+" = false /\ Ascii.eqb c "-" = false /\ Ascii.eqb c "." = false).
  { destruct c as [[] [] [] [] [] [] [] []]; first [discriminate H|repeat split; reflexivity]. }
  destruct X as (A & B & (C1 & C2) & D). split; [exact A|]. split; [exact B|]. split; [|exact D]. intros [-> | ->]; discriminate.
Qed.
Lemma name_eval w : name w -> literal_eval w = if in_dec string_dec w ["True"; "False"; "None"] then LitNoLen else LitBad.
Proof.
  intros (c & r & -> & L & R). apply letter_is in L. destruct (name_start c L) as (S & Q & Z0).
  assert (F : forallb (fun d => is_name_start d || is_digit d)%bool (list_ascii_of_string r) = true).
  { apply (each_forallb _ _ _) with (2 := R). intros d [D|D]; [rewrite (letter_is d D); reflexivity|rewrite (digit_is d D); apply orb_true_r]. }
  destruct (bare_eval c r) as [X| -> ]; [contradiction|].
  assert (contains zero (String c r) = false) as ->.
  { rewrite contains_cons, Z0. apply (zero_free _ r) with (2 := F). intros d D. apply orb_prop in D. destruct D as [D|D]; [apply name_start in D|apply digit_start in D]; tauto. }
  cbn [read_bare]. unfold all_of. rewrite S, L, F. cbn [andb].
  destruct (in_dec _ _ _) as [I|I].
  - cbn [In] in I. destruct I as [I|[I|[I|[]]]]; rewrite <- I; reflexivity.
  - destruct (String.eqb_spec (String c r) "True") as [E|_]; [exfalso; apply I; rewrite E; cbn; auto|].
    destruct (String.eqb_spec (String c r) "False") as [E|_]; [exfalso; apply I; rewrite E; cbn; auto|].
    destruct (String.eqb_spec (String c r) "None") as [E|_]; [exfalso; apply I; rewrite E; cbn; auto|]. reflexivity.
Qed.
(** a sign in front of a character that is a digit or a point *)
Lemma sign_eval s c r : sign s -> is_digit c = true \/ c = "."%char -> contains zero (String c r) = false ->
  literal_eval (s ++ String c r) =
    (if all_of is_digit (String c r) then if negb (Ascii.eqb c "0") || all_of (Ascii.eqb "0") r then LitNoLen else LitBad
     else let '(_, n, rest) := span_digits (String c r) 0 0 in
          match rest with
          | String p f => if Ascii.eqb p "." && all_of is_digit f && ((0 <? n) || negb (is_empty f)) then LitNoLen else LitUnknown
          | EmptyString => LitUnknown
          end).
Proof.
  intros S C Z0. destruct S as [->|[->| ->]]; cbn [append].
  - destruct (bare_eval c r) as [X| -> ].
    + exfalso. destruct C as [C| ->]; [apply digit_start in C; tauto|destruct X; discriminate].
    + rewrite Z0. unfold read_bare. assert (starts_nothing c = false /\ is_name_start c = false /\ Ascii.eqb c "+" = false /\ Ascii.eqb c "-" = false) as (-> & -> & P & M).
      { destruct C as [C| ->]; [apply digit_start in C; tauto|repeat split; reflexivity]. }
      cbn [andb unsigned]. rewrite P, M. reflexivity.
  - destruct (bare_eval "+" (String c r)) as [[X|X]| -> ]; try discriminate. rewrite contains_cons, Z0. reflexivity.
  - destruct (bare_eval "-" (String c r)) as [[X|X]| -> ]; try discriminate. rewrite contains_cons, Z0. reflexivity.
Qed.
Lemma digits_zero s : each digit s -> contains zero s = false.
Proof. intros E. apply (zero_free is_digit); [intros c C; apply digit_start in C; tauto|]. exact (each_forallb _ _ _ digit_is E). Qed.
Lemma span_each a : forall acc n t, each digit a -> (forall c r, t = String c r -> is_digit c = false) ->
  exists z, span_digits (a ++ t) acc n = (z, n + Z.of_nat (String.length a), t).
Proof.
  induction a as [|c a IH]; intros acc n t E T.
  - exists acc. cbn [append String.length]. rewrite Z.add_0_r. destruct t as [|d t]; [reflexivity|]. cbn [span_digits]. rewrite (T d t eq_refl). reflexivity.
  - inversion E as [|? ? C E']; subst. cbn [append span_digits]. rewrite (digit_is c C). destruct (IH (acc * 10 + (code c - 48)) (n + 1) t E' T) as (z & ->).
    exists z. f_equal. f_equal. cbn [String.length]. lia.
Qed.
Lemma zeros_is r : all_of (Ascii.eqb "0") r = true <-> each (eq "0"%char) r.
Proof.
  unfold all_of, each. rewrite forallb_forall, Forall_forall. split; intros H c I; [apply Ascii.eqb_eq, H, I|]. rewrite <- (H c I). reflexivity.
Qed.
Lemma eval_no_length w : no_length w -> literal_eval w = LitNoLen.
Proof.
  intros [w' I|s d r S D R Z0|s a b S A B N].
  - cbn [In] in I. destruct I as [<-|[<-|[<-|[]]]]; reflexivity.
  - rewrite sign_eval; [|exact S|left; exact (digit_is d D)|].
    + assert (all_of is_digit (String d r) = true) as ->. { unfold all_of. cbn. rewrite (digit_is d D). exact (each_forallb _ _ _ digit_is R). }
      destruct Z0 as [Z0|Z0]; [destruct (Ascii.eqb_spec d "0"); [contradiction|]; reflexivity|]. apply zeros_is in Z0. rewrite Z0, orb_true_r. reflexivity.
    + rewrite contains_cons, (digits_zero r R). apply digit_is, digit_start in D. destruct D as (_ & _ & _ & -> & _). reflexivity.
  - assert (Zr : contains zero (a ++ "." ++ b) = false). { rewrite !contains_app, (digits_zero a A), (digits_zero b B). reflexivity. }
    assert (exists c r, a ++ "." ++ b = String c r /\ (is_digit c = true \/ c = "."%char)) as (c & r & E & C).
    { destruct a as [|c a]; [exists "."%char, b; auto|]. exists c, (a ++ "." ++ b). inversion A; subst. split; [reflexivity|]. left. apply digit_is. assumption. }
    rewrite E in Zr |- *. rewrite sign_eval by assumption. rewrite <- E.
    assert (all_of is_digit (a ++ "." ++ b) = false) as ->.
    { unfold all_of. change ("." ++ b) with (String "." b). clear -A. induction a as [|c a IH]; [reflexivity|]. cbn [append list_ascii_of_string forallb]. inversion A as [|? ? A1 A2]; subst. rewrite (IH A2). apply andb_false_r. }
    destruct (span_each a 0 0 ("." ++ b) A) as (z & ->). { intros x y H. injection H as <- _. reflexivity. }
    cbn [append]. assert (all_of is_digit b = true) as -> by exact (each_forallb _ _ _ digit_is B). cbn [Ascii.eqb Bool.eqb andb].
    assert (((0 <? 0 + Z.of_nat (String.length a)) || negb (is_empty b))%bool = true) as ->; [|reflexivity].
    destruct N as [N|N]; [destruct a; [congruence|]; reflexivity|destruct b; [congruence|apply orb_true_r]].
Qed.
Lemma eval_no_literal w : word w -> no_literal w -> literal_eval w = LitBad.
Proof.
  intros [_ W] X. destruct X as [w' N I|c r C|q r Q E|s r S R Z0].
  - rewrite (name_eval w' N). destruct (in_dec _ _ _); [contradiction|reflexivity].
  - assert (X : starts_nothing c = true /\ Ascii.eqb c "'" = false /\ Ascii.eqb c """" = false).
    { destruct C as [C|C].
      - cbn [list_ascii_of_string In] in C. repeat destruct C as [<-|C]; try contradiction; repeat split; reflexivity.
      - cbn [In] in C. destruct C as [C|[C|[]]]; rewrite <- (ascii_nat_embedding c), <- C; repeat split; reflexivity. }
    destruct X as (X & Q1 & Q2). destruct (bare_eval c r) as [[-> | ->]| -> ]; try discriminate. destruct (contains _ _); [reflexivity|]. cbn [read_bare]. rewrite X. reflexivity.
  - rewrite mark_eval; [|exact Q|exact (ordinary_zero q r Q E)|rewrite <- (app_nil_r_s r); apply ordinary_triple; auto]. apply read_open; [exact Q|exact E|exact (no_space_tail _ _ W)].
  - rewrite sign_eval; [|exact S|left; reflexivity|].
    + assert (all_of is_digit (String "0" r) = true) as -> by (unfold all_of; cbn; exact (each_forallb _ _ _ digit_is R)).
      destruct (all_of (Ascii.eqb "0") r) eqn:E; [apply zeros_is in E; contradiction|]. reflexivity.
    + rewrite contains_cons, (digits_zero r R). reflexivity.
Qed.

(** what the two readings of a list of words give *)
Lemma quote_text ts s : Forall word ts -> spaced ts s ->
  quotes (VStr s) = if negb (Nat.eqb (List.length ts) 0) && Nat.even (List.length ts) then ps <-r quote_pairs ts ;; Ok (VQuotes ps) else Err ValueError.
Proof. intros W S. unfold quotes. rewrite (spaced_split ts s W S), (map_strip_words _ W). reflexivity. Qed.
Lemma two_by_two {A} (P : list A -> Prop) : P [] -> (forall a, P [a]) -> (forall a b r, P r -> P (a :: b :: r)) -> forall l, P l.
Proof.
  intros P0 P1 P2. assert (G : forall k l, (List.length l <= k)%nat -> P l).
  { induction k as [|k IH]; intros l L; (destruct l as [|a [|b r]]; [exact P0|exact (P1 a) || (cbn in L; lia)|]); [cbn in L; lia|]. apply P2, IH. cbn in L. lia. }
  intros l. apply (G (List.length l)). lia.
Qed.
Lemma even_two {A} (a b : A) r : Nat.Even (List.length (a :: b :: r)) <-> Nat.Even (List.length r).
Proof. cbn [List.length]. split; intros (m & E); [exists (m - 1)%nat|exists (S m)]; lia. Qed.
Lemma pairs_strings ts us : Forall word ts -> Forall2 quoted ts us -> Forall (fun u => u <> "") us -> quote_pairs ts = Ok (pairs_of us).
Proof.
  revert us. pattern ts. apply two_by_two; clear ts.
  - intros us _ F _. inversion F. reflexivity.
  - intros a us _ F _. inversion F as [|? ? ? ? ? F1]; subst. inversion F1. reflexivity.
  - intros a b r IH us W F N. inversion F as [|? x ? us1 Qa F1]; subst. inversion F1 as [|? y ? us2 Qb F2]; subst. inversion W as [|? ? Wa W1]; subst. inversion W1 as [|? ? Wb W2]; subst.
    inversion N as [|? ? Na N1]; subst. inversion N1 as [|? ? Nb N2]; subst.
    cbn [quote_pairs pairs_of]. rewrite (eval_quoted a x Wa Qa), (eval_quoted b y Wb Qb). cbn [bindr check_len].
    destruct x; [congruence|]. destruct y; [congruence|]. cbn [is_empty bindr]. rewrite (IH us2 W2 F2 N2). reflexivity.
Qed.
Lemma pairs_bad ts : Forall word ts -> Nat.Even (List.length ts) -> Forall (fun w => no_literal w \/ exists t, quoted w t) ts ->
  Exists (fun w => no_literal w \/ quoted w "") ts -> quote_pairs ts = Err ValueError.
Proof.
  pattern ts. apply two_by_two; clear ts.
  - intros _ _ _ X. inversion X.
  - intros a _ (m & E) _. cbn in E. lia.
  - intros a b r IH W E F X. apply (proj1 (even_two a b r)) in E. inversion W as [|? ? Wa W1]; subst. inversion W1 as [|? ? Wb W2]; subst. inversion F as [|? ? Fa F1]; subst. inversion F1 as [|? ? Fb F2]; subst.
    assert (V : forall w, word w -> no_literal w -> eval_quote w = Err ValueError) by (intros w Ww H; unfold eval_quote; rewrite (eval_no_literal w Ww H); reflexivity).
    cbn [quote_pairs]. destruct Fa as [Fa|(x & Fa)]; [rewrite (V a Wa Fa); reflexivity|]. rewrite (eval_quoted a x Wa Fa). cbn [bindr].
    destruct Fb as [Fb|(y & Fb)]; [rewrite (V b Wb Fb); reflexivity|]. rewrite (eval_quoted b y Wb Fb). cbn [bindr check_len].
    assert (D : forall w z, word w -> quoted w z -> no_literal w \/ quoted w "" -> z = "").
    { intros w z Ww Q [H|H]; [pose proof (V w Ww H) as H1|pose proof (eval_quoted w "" Ww H) as H1]; rewrite (eval_quoted w z Ww Q) in H1; [discriminate|]. injection H1. auto. }
    inversion X as [? ? H|? ? X1]; subst; [rewrite (D a x Wa Fa H); reflexivity|]. destruct (is_empty x); [reflexivity|]. cbn [bindr].
    inversion X1 as [? ? H|? ? X2]; subst; [rewrite (D b y Wb Fb H); reflexivity|]. destruct (is_empty y); [reflexivity|]. cbn [bindr].
    rewrite (IH W2 E F2 X2). reflexivity.
Qed.
(** words that are read as a non-empty string or as something without length *)
Lemma pairs_no_length ws : Nat.Even (List.length ws) ->
  Forall (fun w => eval_quote w = Ok None \/ exists c t, eval_quote w = Ok (Some (String c t))) ws -> Exists (fun w => eval_quote w = Ok None) ws -> quote_pairs ws = Err TypeError.
Proof.
  pattern ws. apply two_by_two; clear ws.
  - intros _ _ X. inversion X.
  - intros a (m & E). cbn in E. lia.
  - intros a b r IH E F X. apply (proj1 (even_two a b r)) in E. inversion F as [|? ? Fa F1]; subst. inversion F1 as [|? ? Fb F2]; subst. cbn [quote_pairs].
    destruct Fa as [Fa|(c & t & Fa)]; destruct Fb as [Fb|(d & u & Fb)]; rewrite Fa, Fb; cbn [bindr check_len is_empty]; try reflexivity.
    inversion X as [? ? H|? ? X1]; subst; [congruence|]. inversion X1 as [? ? H|? ? X2]; subst; [congruence|]. rewrite (IH E F2 X2). reflexivity.
Qed.
Lemma even_ok {A} (ts : list A) : Nat.Even (List.length ts) -> ts <> [] -> (negb (Nat.eqb (List.length ts) 0) && Nat.even (List.length ts))%bool = true.
Proof. intros E N. apply Nat.even_spec in E. rewrite E. destruct ts; [congruence|reflexivity]. Qed.

(** A text of words, blanks between and around them in any number. *)
Section Text.
Context (ts : list string) (s : string) (W : Forall word ts) (S : spaced ts s).
(** as many quoted non-empty strings as make pairs are accepted *)
Theorem C156_accepted us : Forall2 quoted ts us -> good_quotes us -> quotes (VStr s) = Ok (VQuotes (pairs_of us)).
Proof.
  intros F (N & E & NE). assert (L : List.length ts = List.length us) by (clear -F; induction F; cbn; congruence). rewrite (quote_text ts s W S), even_ok.
  - rewrite (pairs_strings ts us W F NE). reflexivity.
  - rewrite L. exact E.
  - intros ->. inversion F; subst. congruence.
Qed.
(** no words, or an odd number of them *)
Theorem C156_number : ts = [] \/ ~ Nat.Even (List.length ts) -> quotes (VStr s) = Err ValueError.
Proof.
  intros H. rewrite (quote_text ts s W S). destruct H as [->|H]; [reflexivity|]. destruct (Nat.even (List.length ts)) eqn:E; [apply Nat.even_spec in E; contradiction|].
  rewrite andb_false_r. reflexivity.
Qed.
(** a word that is no literal or an empty string *)
Theorem C156_rejected : Forall (fun w => no_literal w \/ exists t, quoted w t) ts -> Exists (fun w => no_literal w \/ quoted w "") ts ->
  quotes (VStr s) = Err ValueError.
Proof.
  intros F X. rewrite (quote_text ts s W S). destruct (_ && _)%bool eqn:E; [|reflexivity]. apply andb_prop in E. destruct E as [_ E]. apply Nat.even_spec in E.
  rewrite (pairs_bad ts W E F X). reflexivity.
Qed.
(** numbers among the strings: the error is not a ValueError, so that the
    assignment to the property raises TypeError (and changes nothing) *)
Theorem C156_type_error : Nat.Even (List.length ts) -> Forall (fun w => no_length w \/ exists t, t <> "" /\ quoted w t) ts -> Exists no_length ts ->
  quotes (VStr s) = Err TypeError /\ forall ho c n, set_prop ho (Long L_quotes) (VStr s) c n = (c, n, Err TypeError).
Proof.
  intros E F X. assert (H : quotes (VStr s) = Err TypeError).
  { rewrite (quote_text ts s W S), even_ok; [|exact E|intros ->; inversion X].
    assert (V : forall w, no_length w -> eval_quote w = Ok None) by (intros w H; unfold eval_quote; rewrite (eval_no_length w H); reflexivity).
    rewrite pairs_no_length; [reflexivity|exact E| |apply (Exists_impl _ V X)].
    clear -F W V. induction F as [|w ts Fw F IH]; [constructor|]. inversion W as [|? ? Ww W1]; subst. constructor; [|apply IH, W1].
    destruct Fw as [Fw|(t & N & Q)]; [left; apply V, Fw|]. right. destruct t as [|c t]; [congruence|]. exists c, t. apply eval_quoted; assumption. }
  split; [exact H|]. intros ho c n. cbn [set_prop]. rewrite set_long_eq. cbn [choices_of]. unfold validate. cbn [QUOTES_CHOICES ch_validators first_valid run_validator]. rewrite H. reflexivity.
Qed.
(** nothing else is accepted *)
Theorem C156_only v : Forall (fun w => no_literal w \/ no_length w \/ exists t, quoted w t) ts -> quotes (VStr s) = Ok v ->
  exists us, Forall2 quoted ts us /\ good_quotes us /\ v = VQuotes (pairs_of us).
Proof.
  intros F H. rewrite (quote_text ts s W S) in H. destruct (_ && _)%bool eqn:E; [|discriminate]. apply andb_prop in E. destruct E as [E0 E]. apply Nat.even_spec in E.
  assert (N : ts <> []) by (intros ->; discriminate). destruct (quote_pairs ts) as [ps|] eqn:P; [|discriminate]. cbn [bindr] in H. injection H as <-.
  assert (G : forall ts, Forall word ts -> Nat.Even (List.length ts) -> Forall (fun w => no_literal w \/ no_length w \/ exists t, quoted w t) ts -> forall ps, quote_pairs ts = Ok ps ->
    exists us, Forall2 quoted ts us /\ Forall (fun u => u <> "") us).
  { clear. intros ts. pattern ts. apply two_by_two; clear ts.
    - intros _ _ _ ps _. exists []. split; constructor.
    - intros a _ (m & E). cbn in E. lia.
    - intros a b r IH W E F ps H. apply (proj1 (even_two a b r)) in E. inversion W as [|? ? Wa W1]; subst. inversion W1 as [|? ? Wb W2]; subst. inversion F as [|? ? Fa F1]; subst. inversion F1 as [|? ? Fb F2]; subst.
      cbn [quote_pairs] in H. assert (V : forall w o, word w -> (no_literal w \/ no_length w \/ exists t, quoted w t) -> eval_quote w = Ok o -> o = None \/ exists t, o = Some t /\ quoted w t).
      { intros w o Ww [K|[K|(t & K)]] R; [unfold eval_quote in R; rewrite (eval_no_literal w Ww K) in R; discriminate|unfold eval_quote in R; rewrite (eval_no_length w K) in R; injection R as <-; auto|].
        rewrite (eval_quoted w t Ww K) in R. injection R as <-. eauto. }
      destruct (eval_quote a) as [x|] eqn:Ea; [|discriminate]. cbn [bindr] in H. destruct (eval_quote b) as [y|] eqn:Eb; [|discriminate]. cbn [bindr] in H.
      destruct (V a x Wa Fa Ea) as [->|(t & -> & Qa)]; [discriminate|]. cbn [check_len] in H. destruct (is_empty t) eqn:Et; [discriminate|]. cbn [bindr] in H.
      destruct (V b y Wb Fb Eb) as [->|(u & -> & Qb)]; [discriminate|]. cbn [check_len] in H. destruct (is_empty u) eqn:Eu; [discriminate|]. cbn [bindr] in H.
      destruct (quote_pairs r) as [qs|] eqn:R; [|discriminate]. destruct (IH W2 E F2 qs eq_refl) as (us & U1 & U2). exists (t :: u :: us).
      split; [constructor; [exact Qa|]; constructor; [exact Qb|exact U1]|]. constructor; [intros ->; discriminate|]. constructor; [intros ->; discriminate|exact U2]. }
  destruct (G ts W E F ps P) as (us & U1 & U2). exists us. split; [exact U1|].
  assert (L : List.length ts = List.length us) by (clear -U1; induction U1; cbn; congruence).
  split; [|rewrite (pairs_strings ts us W U1 U2) in P; injection P as <-; reflexivity]. split; [intros ->; destruct ts; [congruence|discriminate]|]. split; [rewrite <- L; exact E|exact U2].
Qed.
End Text.
Print Assumptions C156_accepted.
Print Assumptions C156_number.
Print Assumptions C156_rejected.
Print Assumptions C156_type_error.
Print Assumptions C156_only.
(** Sequences of pairs with integers or None among the strings. *)
Lemma show_pos_first fuel : forall z acc, 0 < z < 10 ^ Z.of_nat fuel -> exists d r, show_pos fuel z acc = String d r /\ d <> "0"%char.
Proof.
  induction fuel as [|k IH]; intros z acc H; [change (10 ^ Z.of_nat 0) with 1 in H; lia|]. cbn [show_pos]. destruct (Z.ltb_spec z 10).
  - exists (digit_char (z mod 10)), acc. split; [reflexivity|]. rewrite Z.mod_small by lia.
    assert (z = 1 \/ z = 2 \/ z = 3 \/ z = 4 \/ z = 5 \/ z = 6 \/ z = 7 \/ z = 8 \/ z = 9) as C by lia. repeat destruct C as [->|C]; try discriminate. subst. discriminate.
  - apply IH. split; [apply Z.div_str_pos; lia|]. rewrite Nat2Z.inj_succ, Z.pow_succ_r in H by lia. apply Z.div_lt_upper_bound; lia.
Qed.
Lemma is_digit_digit c : is_digit c = true -> digit c.
Proof. unfold is_digit, in_range, digit. rewrite code_nat. intros H. apply andb_prop in H. destruct H as [A B]. apply Z.leb_le in A, B. lia. Qed.
Lemma numeral_no_length s z : sign s -> 0 <= z -> no_length (s ++ show_nonneg z).
Proof.
  intros S H. destruct (Z.eq_dec z 0) as [->|N].
  - change (show_nonneg 0) with (String "0" ""). apply nl_integer; [exact S|unfold digit; cbn; lia|constructor|right; constructor].
  - destruct (show_nonneg_numeral z H) as (k & NE & D & _).
    destruct (show_pos_first (Datatypes.S (Z.to_nat (Z.log2 z))) z "") as (d & r & E & Z0).
    { split; [lia|]. pose proof (Z.log2_spec z ltac:(lia)) as [_ L]. rewrite Nat2Z.inj_succ, Z2Nat.id by apply Z.log2_nonneg.
      eapply Z.lt_le_trans; [exact L|]. apply Z.pow_le_mono_l. pose proof (Z.log2_nonneg z). lia. }
    unfold show_nonneg in D |- *. rewrite E in D |- *. cbn [all_chars] in D. apply andb_prop in D. destruct D as [D1 D2].
    apply nl_integer; [exact S|exact (is_digit_digit d D1)| |left; exact Z0].
    clear -D2. induction r as [|c r IH]; [constructor|]. cbn [all_chars] in D2. apply andb_prop in D2. constructor; [apply is_digit_digit, D2|apply IH, D2].
Qed.
Lemma show_Z_no_length z : no_length (show_Z z).
Proof.
  unfold show_Z. destruct (Z.ltb_spec z 0); [apply (numeral_no_length "-"); [right; right; reflexivity|lia]|apply (numeral_no_length ""); [left; reflexivity|lia]].
Qed.
(** a member of the inner sequences: a non-empty string, an integer or None *)
Definition quote_member (v : pyval) : Prop := (exists c t, v = VStr (String c t)) \/ (exists z, v = VInt z) \/ v = VNone.
Theorem C156_sequence v vs subs : members v vs -> Forall2 members vs subs ->
  Forall quote_member (List.concat subs) -> Nat.Even (List.length (List.concat subs)) -> Exists (fun x => forall t, x <> VStr t) (List.concat subs) ->
  quotes v = Err TypeError.
Proof.
  intros M F Q E X. unfold quotes. destruct (sequence_members _ _ M) as [S _]. rewrite S.
  assert (K : forall l, Forall quote_member l -> exists ws, map_res repr_val l = Ok ws /\ Forall2 (fun x w => eval_quote w = match x with VStr t => Ok (Some t) | _ => Ok None end) l ws).
  { clear. induction 1 as [|x l Q _ (ws & E & IH)]; [exists []; split; [reflexivity|constructor]|].
    assert (exists w, repr_val x = Ok w /\ eval_quote w = match x with VStr t => Ok (Some t) | _ => Ok None end) as (w & W & R).
    { destruct Q as [(c & t & ->)|[(z & ->)| ->]]; eexists; (split; [reflexivity|]); unfold eval_quote.
      - rewrite eval_repr. reflexivity.
      - rewrite (eval_no_length _ (show_Z_no_length z)). reflexivity.
      - reflexivity. }
    exists (w :: ws). cbn [map_res]. rewrite W. cbn [bindr]. rewrite E. split; [reflexivity|constructor; assumption]. }
  assert (G : exists ws, flatten_repr vs = Ok ws /\ Forall2 (fun x w => eval_quote w = match x with VStr t => Ok (Some t) | _ => Ok None end) (List.concat subs) ws).
  { clear -F Q K. induction F as [|y l vs subs Y F IH]; [exists []; split; [reflexivity|constructor]|]. cbn [List.concat] in Q |- *. apply Forall_app in Q. destruct Q as [Q1 Q2].
    destruct (IH Q2) as (ws & E & R). destruct (K l Q1) as (us & U & V). cbn [flatten_repr]. destruct (sequence_members _ _ Y) as [_ ->]. cbn [bindr]. rewrite U. cbn [bindr]. rewrite E.
    exists (us ++ ws)%list. split; [reflexivity|]. apply Forall2_app; assumption. }
  destruct G as (ws & G & R). assert (L : List.length (List.concat subs) = List.length ws) by (clear -R; induction R; cbn; congruence).
  assert (P : quote_pairs ws = Err TypeError).
  { apply pairs_no_length; [rewrite <- L; exact E| |].
    - clear -Q R. induction R as [|x w l ws H R IH]; [constructor|]. inversion Q as [|? ? Q1 Q2]; subst. constructor; [|apply IH, Q2]. rewrite H. destruct Q1 as [(c & t & ->)|[(z & ->)| ->]]; eauto.
    - clear -Q X R. induction R as [|x w l ws H R IH]; [inversion X|]. inversion Q as [|? ? Q1 Q2]; subst. inversion X as [? ? X1|? ? X1]; subst; [left|right; apply IH; assumption].
      rewrite H. destruct x; try reflexivity. exfalso. eapply X1. reflexivity. }
  assert (B : (negb (Nat.eqb (List.length ws) 0) && Nat.even (List.length ws))%bool = true). { apply even_ok; [rewrite <- L; exact E|]. intros ->. inversion R as [H|]. rewrite <- H in X. inversion X. }
  destruct M as [->|[->| ->]]; rewrite G; cbn [bindr]; rewrite B, P; reflexivity.
Qed.
Print Assumptions C156_sequence.
Local Ltac marks := exists "'"%char; split; [left; reflexivity|split; [repeat constructor; discriminate|reflexivity]].
Example C156_example :
  (* three spellings of texts: pairs, a name, a number *)
  quotes (VStr " 'a'  '>>' ") = Ok (VQuotes [("a", ">>")])
  /\ Forall2 quoted ["'a'"; "'>>'"] ["a"; ">>"] /\ spaced ["'a'"; "'>>'"] " 'a'  '>>' " /\ good_quotes ["a"; ">>"]
  /\ quotes (VStr "'a' b") = Err ValueError /\ no_literal "b"
  /\ quotes (VStr "< >") = Err ValueError /\ no_literal "<" /\ quotes (VStr "'< >'") = Err ValueError /\ no_literal "'<"
  /\ quotes (VStr "'' 'x'") = Err ValueError /\ quotes (VStr "'a' 'b' 'c'") = Err ValueError
  /\ quotes (VStr "1 'b'") = Err TypeError /\ no_length "1" /\ no_length "-0.5" /\ no_length "None" /\ no_literal "007"
  /\ quotes (VTuple [VTuple [VStr "a"; VInt 1]]) = Err TypeError /\ quotes (VTuple [VTuple [VNone; VNone]]) = Err TypeError.
Proof.
  split; [reflexivity|]. split; [constructor; [marks|constructor; [marks|constructor]]|].
  split. { exists " ", "  '>>' ". split; [reflexivity|]. split; [reflexivity|]. split; [right; exists " "%char, " '>>' "; split; reflexivity|].
    exists "  ", " ". split; [reflexivity|]. split; [reflexivity|]. split; [right; exists " "%char, ""; split; reflexivity|]. reflexivity. }
  split. { split; [discriminate|]. split; [exists 1%nat; reflexivity|]. repeat constructor; discriminate. }
  split; [reflexivity|]. split. { apply nx_name; [exists "b"%char, ""; split; [reflexivity|]; split; [right; left; cbn; lia|constructor]|]. cbn. intuition discriminate. }
  split; [reflexivity|]. split. { apply nx_start. left. cbn. auto. }
  split; [reflexivity|]. split. { apply nx_open; [left; reflexivity|]. repeat constructor; discriminate. }
  split; [reflexivity|]. split; [reflexivity|]. split; [reflexivity|].
  split. { apply (nl_integer "" "1" ""); [left; reflexivity|unfold digit; cbn; lia|constructor|left; discriminate]. }
  split. { apply (nl_decimal "-" "0" "5"); [right; right; reflexivity|repeat constructor; cbn; lia|repeat constructor; cbn; lia|left; discriminate]. }
  split. { apply nl_constant. cbn. auto. }
  split. { apply (nx_zeros "" "07"); [left; reflexivity|repeat constructor; cbn; lia|]. intros H. inversion H as [|? ? _ H1]; subst. inversion H1; subst. discriminate. }
  split; reflexivity.
Qed.
