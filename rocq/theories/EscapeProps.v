(** * Escapes in texts given to quotes (C187) *)
From Coq Require Import ZArith QArith Qcanon Bool String Ascii List Lia.
From Verif Require Import PyNum Units Float64 PyStr Colors Values Parser Choices Decl StrFacts TextFacts DeclFacts ParserFacts ParserSpec ParserProps DeclSpec QuoteSpec QuoteProps EscapeSpec EscapeFacts.
Import ListNotations.
Open Scope string_scope.
Open Scope Z_scope.

Lemma eval_escaped w t : literal_of w t -> eval_quote w = Ok (Some t).
Proof. intros H. unfold eval_quote. rewrite (literal_read w t H). reflexivity. Qed.
Lemma eval_broken w : broken_escape w -> eval_quote w = Err ValueError.
Proof.
  intros (q & s & t & d & n & r & Q & E & D & H & ->). unfold eval_quote, literal_eval. destruct (contains _ _); [reflexivity|].
  assert ((Ascii.eqb q squote || Ascii.eqb q dquote)%bool = true) as -> by (destruct Q as [-> | ->]; reflexivity).
  rewrite (escaped_single q s t "\" _ Q E) by (intros _; cbn [triple]; rewrite (mark_not_slash q Q); reflexivity). rewrite (read_broken q s t d r n Q E D H). reflexivity.
Qed.
Lemma pairs_escaped ts us : Forall2 literal_of ts us -> Forall (fun u => u <> "") us -> quote_pairs ts = Ok (pairs_of us).
Proof.
  revert us. pattern ts. apply two_by_two; clear ts.
  - intros us F _. inversion F. reflexivity.
  - intros a us F _. inversion F as [|? ? ? ? ? F1]; subst. inversion F1. reflexivity.
  - intros a b r IH us F N. inversion F as [|? x ? us1 Qa F1]; subst. inversion F1 as [|? y ? us2 Qb F2]; subst.
    inversion N as [|? ? Na N1]; subst. inversion N1 as [|? ? Nb N2]; subst.
    cbn [quote_pairs pairs_of]. rewrite (eval_escaped a x Qa), (eval_escaped b y Qb). cbn [bindr check_len].
    destruct x; [congruence|]. destruct y; [congruence|]. cbn [is_empty bindr]. rewrite (IH us2 F2 N2). reflexivity.
Qed.
Lemma pairs_broken ts : Nat.Even (List.length ts) -> Forall (fun w => broken_escape w \/ exists t, literal_of w t) ts ->
  Exists (fun w => broken_escape w \/ literal_of w "") ts -> quote_pairs ts = Err ValueError.
Proof.
  pattern ts. apply two_by_two; clear ts.
  - intros _ _ X. inversion X.
  - intros a (m & E) _. cbn in E. lia.
  - intros a b r IH E F X. apply (proj1 (even_two a b r)) in E. inversion F as [|? ? Fa F1]; subst. inversion F1 as [|? ? Fb F2]; subst.
    cbn [quote_pairs]. destruct Fa as [Fa|(x & Fa)]; [rewrite (eval_broken a Fa); reflexivity|]. rewrite (eval_escaped a x Fa). cbn [bindr].
    destruct Fb as [Fb|(y & Fb)]; [rewrite (eval_broken b Fb); reflexivity|]. rewrite (eval_escaped b y Fb). cbn [bindr check_len].
    assert (D : forall w z, literal_of w z -> broken_escape w \/ literal_of w "" -> z = "").
    { intros w z L [H|H]; [pose proof (eval_broken w H) as H1|pose proof (eval_escaped w "" H) as H1]; rewrite (eval_escaped w z L) in H1; [discriminate|]. injection H1. auto. }
    inversion X as [? ? H|? ? X1]; subst; [rewrite (D a x Fa H); reflexivity|]. destruct (is_empty x); [reflexivity|]. cbn [bindr].
    inversion X1 as [? ? H|? ? X2]; subst; [rewrite (D b y Fb H); reflexivity|]. destruct (is_empty y); [reflexivity|]. cbn [bindr].
    rewrite (IH E F2 X2). reflexivity.
Qed.

(** A text of words, blanks between and around them in any number. *)
Section Text.
Context (ts : list string) (s : string) (W : Forall word ts) (S : spaced ts s).
(** literals with escapes are accepted and stand for what the escapes denote *)
Theorem C187_accepted us : Forall2 literal_of ts us -> good_quotes us -> quotes (VStr s) = Ok (VQuotes (pairs_of us)).
Proof.
  intros F (N & E & NE). assert (L : List.length ts = List.length us) by (clear -F; induction F; cbn; congruence). rewrite (quote_text ts s W S), even_ok.
  - rewrite (pairs_escaped ts us F NE). reflexivity.
  - rewrite L. exact E.
  - intros ->. inversion F; subst. congruence.
Qed.
(** escapes without enough digits, and empty strings, are rejected *)
Theorem C187_rejected : Forall (fun w => broken_escape w \/ exists t, literal_of w t) ts -> Exists (fun w => broken_escape w \/ literal_of w "") ts ->
  quotes (VStr s) = Err ValueError.
Proof.
  intros F X. rewrite (quote_text ts s W S). destruct (_ && _)%bool eqn:E; [|reflexivity]. apply andb_prop in E. destruct E as [_ E]. apply Nat.even_spec in E.
  rewrite (pairs_broken ts E F X). reflexivity.
Qed.
End Text.
Print Assumptions C187_accepted.
Print Assumptions C187_rejected.

(** A word denotes one text at most. *)
Theorem C187_one_text w t u : literal_of w t -> literal_of w u -> t = u.
Proof. intros A B. apply literal_read in A, B. rewrite A in B. injection B. auto. Qed.
Print Assumptions C187_one_text.

(** An escape as CSS writes it, of four digits beginning with three octal
    ones, is taken for the octal escape of the first three: the text is the
    character with that number and then the fourth digit, never one
    character. *)
Theorem C187_css_escape q a b c d : (q = "'"%char \/ q = """"%char) -> octal a -> octal b -> octal c -> (octal_digit a < 4)%nat -> (exists v, hexadecimal d v) ->
  literal_of (String q (String "\" (String a (String b (String c (String d (String q "")))))))
    (String (chr (64 * octal_digit a + 8 * octal_digit b + octal_digit c)) (String d "")).
Proof.
  intros Q A B C L (v & D). exists q, (String "\" (String a (String b (String c (String d ""))))). split; [exact Q|]. split; [|reflexivity].
  apply esc_octal3; try assumption. apply hex_val in D.
  assert (X : d <> "'"%char /\ d <> """"%char /\ d <> "\"%char /\ ~ In (nat_of_ascii d) [0; 10; 13]%nat).
  { repeat split; try (intros ->; discriminate D). intros [N|[N|[N|[]]]]; apply (f_equal ascii_of_nat) in N; rewrite ascii_nat_embedding in N; subst d; discriminate D. }
  destruct X as (X1 & X2 & X3 & X4). apply esc_itself; [destruct Q as [-> | ->]; assumption|assumption|assumption|constructor].
Qed.
Print Assumptions C187_css_escape.

(** The curly quotation marks of CSS, U+201C and U+201D, as escapes: two
    characters each. *)
Example C187_curly : quotes (VStr """\201C"" ""\201D""") = Ok (VQuotes [(String (chr 129) "C", String (chr 129) "D")]).
Proof.
  apply (C187_accepted ["""\201C"""; """\201D"""] """\201C"" ""\201D""") with (us := [String (chr 129) "C"; String (chr 129) "D"]).
  - repeat constructor; vm_compute; congruence.
  - exists "", " ""\201D""". split; [reflexivity|]. split; [reflexivity|]. split; [right; exists " "%char, """\201D"""; split; reflexivity|].
    exists " ", "". split; [reflexivity|]. split; [reflexivity|]. split; [left; reflexivity|]. reflexivity.
  - constructor; [|constructor; [|constructor]]; apply (C187_css_escape """" "2" "0" "1"); try (right; reflexivity); try (unfold octal; cbn; tauto); try (cbn; lia).
    + exists 12%nat. split; [lia|right; reflexivity].
    + exists 13%nat. split; [lia|right; reflexivity].
  - repeat split; [discriminate|exists 1%nat; reflexivity|repeat constructor; discriminate].
Qed.
(** All kinds of escapes in one word; the guillemet by its number in three ways. *)
Example C187_kinds : literal_of "'\253\xAb\u00aB\'\q\7x'" (String (chr 171) (String (chr 171) (String (chr 171) ("'\q" ++ String (chr 7) "x")))).
Proof.
  exists "'"%char, "\253\xAb\u00aB\'\q\7x". split; [left; reflexivity|]. split; [|reflexivity].
  apply (esc_octal3 _ "2" "5" "3"); try (unfold octal; cbn; tauto); try (cbn; lia).
  apply (esc_hex _ "A" "b" 10 11); [split; [lia|right; reflexivity]|split; [lia|left; reflexivity]|].
  apply (esc_unicode _ "a" "B" 10 11); [split; [lia|left; reflexivity]|split; [lia|right; reflexivity]|].
  apply esc_short; [unfold short_escape; cbn; tauto|].
  apply esc_kept. { intros [M|M]; cbn in M; repeat destruct M as [M|M]; try discriminate M; exact M. }
  apply (esc_octal1 _ "7"); [unfold octal; cbn; tauto|unfold no_octal_next, octal; cbn; intros M; repeat destruct M as [M|M]; try discriminate M; exact M|].
  apply esc_itself; try discriminate; [|constructor]. cbn. intros M. repeat destruct M as [M|M]; try discriminate M; exact M.
Qed.
(** An escape of one digit. *)
Example C187_broken : broken_escape "'a\x4'".
Proof.
  exists "'"%char, "a", "a", "x"%char, 2%nat, "4'". split; [left; reflexivity|]. split.
  - apply esc_itself; try discriminate; [|constructor]. cbn. intros M. repeat destruct M as [M|M]; try discriminate M; exact M.
  - split; [left; split; reflexivity|]. split; [|reflexivity]. intros (h & r & E & L & F). destruct h as [|x [|y [|z h]]]; try discriminate L.
    injection E as <- <- _. inversion F as [|? ? _ F1]; subst. inversion F1 as [|? ? (v & V) _]; subst. apply hex_val in V. discriminate V.
Qed.
