(** * Strings side by side in texts given to quotes (C189) *)
From Coq Require Import ZArith QArith Qcanon Bool String Ascii List Lia.
From Verif Require Import PyNum Units Float64 PyStr Colors Values Parser Choices Decl StrFacts TextFacts DeclFacts ParserFacts ParserSpec ParserProps DeclSpec
  QuoteSpec QuoteProps EscapeSpec EscapeFacts EscapeProps JoinSpec.
Import ListNotations.
Open Scope string_scope.
Open Scope Z_scope.

(** what is read after a closing quotation mark *)
Definition ending (rest : string) : literal :=
  match rest with
  | EmptyString => LitStr EmptyString
  | String x r =>
      if Ascii.eqb x squote || Ascii.eqb x dquote then if triple x r then LitUnknown else read_literal x r
      else if Ascii.eqb x "#" then LitStr EmptyString
      else if existsb (Ascii.eqb x) (list_ascii_of_string ",brfutBRFUT") then LitUnknown
      else LitBad
  end.
Lemma read_close q rest : read_literal q (String q rest) = ending rest.
Proof. cbn [read_literal]. rewrite Ascii.eqb_refl. reflexivity. Qed.
Lemma after_app t u l : after (t ++ u) l = after t (after u l).
Proof. destruct l; cbn [after]; try reflexivity. rewrite app_assoc_s. reflexivity. Qed.
Lemma mark_octal q : mark q -> is_octal q = false.
Proof. intros [-> | ->]; reflexivity. Qed.
Lemma mark_true q : mark q -> (Ascii.eqb q squote || Ascii.eqb q dquote)%bool = true.
Proof. intros [-> | ->]; reflexivity. Qed.
(** no quotation mark comes first *)
Definition no_mark (rest : string) : Prop := match rest with EmptyString => True | String x _ => ~ mark x end.
Lemma side_first w t : side_by_side w t -> exists q r, mark q /\ w = String q r.
Proof. intros [v u (q & s & Q & _ & ->)|v u v' u' (q & s & Q & _ & ->) _ _]; cbn [append]; eauto. Qed.
Lemma side_triple w t : side_by_side w t -> forall q r rest, w = String q r -> no_mark rest -> triple q (r ++ rest) = false.
Proof.
  intros [v u (q0 & s & Q & E & ->)|v u v' u' (q0 & s & Q & E & ->) S N] q r rest W M.
  - injection W as -> <-. rewrite app_assoc_s. cbn [append]. apply (escaped_single q s u q rest Q E). intros ->. cbn [triple].
    rewrite Ascii.eqb_refl. destruct rest as [|x rest]; [reflexivity|]. destruct (Ascii.eqb_spec x q) as [->|]; [exfalso; exact (M Q)|reflexivity].
  - cbn [append] in W. injection W as -> <-. rewrite !app_assoc_s. cbn [append].
    apply (escaped_single q s u q _ Q E). intros ->. cbn [triple]. rewrite Ascii.eqb_refl.
    destruct (side_first v' u' S) as (q' & r' & Q' & ->). cbn [append]. destruct (Ascii.eqb_spec q' q) as [->|]; [|reflexivity].
    exfalso. apply N. exists q, r'. split; reflexivity.
Qed.
Lemma side_read w t : side_by_side w t -> forall q r rest, w = String q r -> no_mark rest -> read_literal q (r ++ rest) = after t (ending rest).
Proof.
  induction 1 as [w t (q0 & s & Q & E & ->)|w t v u (q0 & s & Q & E & ->) S IH N]; intros q r rest W M.
  - injection W as -> <-. rewrite app_assoc_s. cbn [append]. rewrite (read_prefix q q rest s t Q (mark_octal q Q) E), read_close. reflexivity.
  - cbn [append] in W. injection W as -> <-. rewrite !app_assoc_s. cbn [append].
    rewrite (read_prefix q q _ s t Q (mark_octal q Q) E), read_close. destruct (side_first v u S) as (q' & r' & Q' & ->).
    cbn [append ending]. rewrite (mark_true q' Q'), (side_triple _ u S q' r' rest eq_refl M), (IH q' r' rest eq_refl M), after_app. reflexivity.
Qed.
Lemma side_zero w t rest : side_by_side w t -> contains zero (w ++ rest) = contains zero rest.
Proof.
  intros S. revert rest. induction S as [w t (q & s & Q & E & ->)|w t v u (q & s & Q & E & ->) S IH N]; intros rest.
  - cbn [append]. rewrite (mark_no_zero q _ Q), app_assoc_s, (escaped_contains q s t _ Q E). apply (mark_no_zero q _ Q).
  - cbn [append]. rewrite (mark_no_zero q _ Q), !app_assoc_s, (escaped_contains q s t _ Q E). cbn [append]. rewrite (mark_no_zero q _ Q). apply IH.
Qed.
Lemma side_eval w t rest : side_by_side w t -> no_mark rest -> contains zero rest = false -> literal_eval (w ++ rest) = after t (ending rest).
Proof.
  intros S M Z0. unfold literal_eval. rewrite (side_zero w t rest S), Z0. destruct (side_first w t S) as (q & r & Q & ->). cbn [append].
  rewrite (mark_true q Q), (side_triple _ t S q r rest eq_refl M). apply (side_read _ t S q r rest eq_refl M).
Qed.
Lemma eval_joined w t : joined w t -> eval_quote w = Ok (Some t).
Proof.
  unfold eval_quote. intros [S|(v & r & S & Z0 & ->)].
  - rewrite <- (app_nil_r_s w), (side_eval w t "" S I eq_refl). cbn [ending after]. rewrite app_nil_r_s. reflexivity.
  - rewrite (side_eval v t _ S).
    + cbn [ending after]. change (Ascii.eqb "#" squote || Ascii.eqb "#" dquote)%bool with false. change (Ascii.eqb "#" "#") with true. cbn [after]. rewrite app_nil_r_s. reflexivity.
    + intros [E|E]; discriminate E.
    + change (contains zero (String "#" r)) with (contains zero r). destruct (contains zero r) eqn:C; [|reflexivity]. apply contains_in in C. contradiction.
Qed.
Lemma eval_followed w : followed w -> eval_quote w = Err ValueError.
Proof.
  intros (v & t & x & r & S & X & ->). unfold eval_quote. destruct (contains zero (String x r)) eqn:C.
  - unfold literal_eval. rewrite (side_zero v t _ S), C. reflexivity.
  - rewrite (side_eval v t _ S); [|intros [-> | ->]; apply X; cbn; tauto|exact C]. cbn [ending].
    assert (H : forall c, In c (list_ascii_of_string "'""#,brfutBRFUT") -> Ascii.eqb x c = false).
    { intros c I. destruct (Ascii.eqb_spec x c) as [->|]; [contradiction|reflexivity]. }
    change squote with "'"%char. change dquote with """"%char. rewrite (H "'"%char), (H """"%char), (H "#"%char) by (cbn; tauto). cbn [orb].
    destruct (existsb _ _) eqn:B; [|reflexivity]. apply existsb_exists in B. destruct B as (c & I & B). rewrite H in B; [discriminate|]. cbn in I |- *. tauto.
Qed.
Lemma pairs_joined ts us : Forall2 joined ts us -> Forall (fun u => u <> "") us -> quote_pairs ts = Ok (pairs_of us).
Proof.
  revert us. pattern ts. apply two_by_two; clear ts.
  - intros us F _. inversion F. reflexivity.
  - intros a us F _. inversion F as [|? ? ? ? ? F1]; subst. inversion F1. reflexivity.
  - intros a b r IH us F N. inversion F as [|? x ? us1 Qa F1]; subst. inversion F1 as [|? y ? us2 Qb F2]; subst.
    inversion N as [|? ? Na N1]; subst. inversion N1 as [|? ? Nb N2]; subst.
    cbn [quote_pairs pairs_of]. rewrite (eval_joined a x Qa), (eval_joined b y Qb). cbn [bindr check_len].
    destruct x; [congruence|]. destruct y; [congruence|]. cbn [is_empty bindr]. rewrite (IH us2 F2 N2). reflexivity.
Qed.
Lemma pairs_followed ts : Nat.Even (List.length ts) -> Forall (fun w => followed w \/ exists t, joined w t) ts ->
  Exists (fun w => followed w \/ joined w "") ts -> quote_pairs ts = Err ValueError.
Proof.
  pattern ts. apply two_by_two; clear ts.
  - intros _ _ X. inversion X.
  - intros a (m & E) _. cbn in E. lia.
  - intros a b r IH E F X. apply (proj1 (even_two a b r)) in E. inversion F as [|? ? Fa F1]; subst. inversion F1 as [|? ? Fb F2]; subst.
    cbn [quote_pairs]. destruct Fa as [Fa|(x & Fa)]; [rewrite (eval_followed a Fa); reflexivity|]. rewrite (eval_joined a x Fa). cbn [bindr].
    destruct Fb as [Fb|(y & Fb)]; [rewrite (eval_followed b Fb); reflexivity|]. rewrite (eval_joined b y Fb). cbn [bindr check_len].
    assert (D : forall w z, joined w z -> followed w \/ joined w "" -> z = "").
    { intros w z L [H|H]; [pose proof (eval_followed w H) as H1|pose proof (eval_joined w "" H) as H1]; rewrite (eval_joined w z L) in H1; [discriminate|]. injection H1. auto. }
    inversion X as [? ? H|? ? X1]; subst; [rewrite (D a x Fa H); reflexivity|]. destruct (is_empty x); [reflexivity|]. cbn [bindr].
    inversion X1 as [? ? H|? ? X2]; subst; [rewrite (D b y Fb H); reflexivity|]. destruct (is_empty y); [reflexivity|]. cbn [bindr].
    rewrite (IH E F2 X2). reflexivity.
Qed.

(** A text of words, blanks between and around them in any number. *)
Section Text.
Context (ts : list string) (s : string) (W : Forall word ts) (S : spaced ts s).
(** strings side by side count as one, whose text is theirs one after the
    other; what comes after # is ignored *)
Theorem C189_joined us : Forall2 joined ts us -> good_quotes us -> quotes (VStr s) = Ok (VQuotes (pairs_of us)).
Proof.
  intros F (N & E & NE). assert (L : List.length ts = List.length us) by (clear -F; induction F; cbn; congruence). rewrite (quote_text ts s W S), even_ok.
  - rewrite (pairs_joined ts us F NE). reflexivity.
  - rewrite L. exact E.
  - intros ->. inversion F; subst. congruence.
Qed.
(** strings followed by anything else are rejected, and so are empty texts *)
Theorem C189_rejected : Forall (fun w => followed w \/ exists t, joined w t) ts -> Exists (fun w => followed w \/ joined w "") ts ->
  quotes (VStr s) = Err ValueError.
Proof.
  intros F X. rewrite (quote_text ts s W S). destruct (_ && _)%bool eqn:E; [|reflexivity]. apply andb_prop in E. destruct E as [_ E]. apply Nat.even_spec in E.
  rewrite (pairs_followed ts E F X). reflexivity.
Qed.
End Text.
Print Assumptions C189_joined.
Print Assumptions C189_rejected.

(** every word stands for one text only *)
Theorem C189_one_text w t u : joined w t -> joined w u -> t = u.
Proof. intros A B. apply eval_joined in A, B. rewrite A in B. injection B. auto. Qed.
Print Assumptions C189_one_text.

(** Two pairs of strings.  With blanks between the strings they are two pairs; without
    the blanks inside the pairs, as CSS allows, they are one pair of the
    joined texts, and one such pair alone is rejected. *)
Theorem C189_blanks a b c d ta tb tc td : literal_of a ta -> literal_of b tb -> literal_of c tc -> literal_of d td ->
  word a -> word b -> word c -> word d -> ta <> "" -> tb <> "" -> tc <> "" -> td <> "" ->
  quotes (VStr (a ++ " " ++ b ++ " " ++ c ++ " " ++ d)) = Ok (VQuotes [(ta, tb); (tc, td)])
  /\ quotes (VStr (a ++ b ++ " " ++ c ++ d)) = Ok (VQuotes [(ta ++ tb, tc ++ td)])
  /\ quotes (VStr (a ++ b)) = Err ValueError.
Proof.
  intros A B C D Wa Wb Wc Wd Na Nb Nc Nd.
  assert (NE : forall w t v u, literal_of w t -> literal_of v u -> t <> "" -> side_by_side (w ++ v) (t ++ u)).
  { intros w t v u L M N. apply side_more; [exact L|apply side_last, M|]. intros (q & r & -> & _).
    assert (E : literal_of (String q (String q "")) "").
    { destruct L as (q0 & s0 & Q & _ & E0). injection E0 as -> _. exists q0, "". split; [exact Q|]. split; [constructor|reflexivity]. }
    apply literal_read in L, E. rewrite L in E. injection E. exact N. }
  assert (WW : forall x y, word x -> word y -> word (x ++ y)).
  { intros x y [X1 X2] [Y1 Y2]. split; [destruct x; [congruence|discriminate]|]. unfold no_space. rewrite all_chars_app. apply andb_true_intro. split; assumption. }
  assert (AP : forall t u, t <> "" -> t ++ u <> "") by (intros [|x t] u N; [congruence|discriminate]).
  assert (SN : forall r x, spaced r x -> spaced r (String " " x)).
  { intros [|t r] x Sx; cbn [spaced] in *; [exact Sx|]. destruct Sx as (p & s' & P & -> & R). exists (String " " p), s'. split; [exact P|]. split; [reflexivity|exact R]. }
  assert (S1 : forall x, spaced [x] x).
  { intros x. exists "", "". split; [reflexivity|]. split; [cbn; rewrite app_nil_r_s; reflexivity|]. split; [left; reflexivity|reflexivity]. }
  assert (SC : forall x r z, spaced r z -> spaced (x :: r) (x ++ " " ++ z)).
  { intros x r z Z. exists "", (String " " z). split; [reflexivity|]. split; [reflexivity|]. split; [right; exists " "%char, z; split; reflexivity|]. apply SN, Z. }
  split; [|split].
  - apply (C187_accepted [a; b; c; d] _) with (us := [ta; tb; tc; td]).
    + repeat (constructor; [assumption|]). constructor.
    + apply SC, SC, SC, S1.
    + repeat (constructor; [assumption|]). constructor.
    + repeat split; [discriminate|exists 2%nat; reflexivity|repeat (constructor; [assumption|]); constructor].
  - rewrite <- app_assoc_s. apply (C189_joined [a ++ b; c ++ d] _) with (us := [ta ++ tb; tc ++ td]).
    + constructor; [apply WW; assumption|]. constructor; [apply WW; assumption|constructor].
    + apply SC, S1.
    + constructor; [left; apply NE; assumption|]. constructor; [left; apply NE; assumption|constructor].
    + repeat split; [discriminate|exists 1%nat; reflexivity|]. constructor; [apply AP, Na|]. constructor; [apply AP, Nc|constructor].
  - rewrite (quote_text [a ++ b] (a ++ b)); [reflexivity| |].
    + constructor; [apply WW; assumption|constructor].
    + apply S1.
Qed.
Print Assumptions C189_blanks.

(** Guillemets without blanks inside the pairs; then a comment, and a digit after a string. *)
Lemma literal_plain q x : (q = "'"%char \/ q = """"%char) -> Forall (fun c => c <> q /\ c <> "\"%char /\ ~ In (nat_of_ascii c) [0; 10; 13]%nat) (list_ascii_of_string x) ->
  literal_of (String q (x ++ String q "")) x.
Proof.
  intros Q F. exists q, x. split; [exact Q|]. split; [|reflexivity]. induction x as [|c x IH]; [constructor|]. inversion F as [|? ? (A & B & N) F1]; subst.
  apply esc_itself; auto.
Qed.
Ltac plain_literal q x := apply (literal_plain q x); [auto|repeat constructor; try discriminate; cbn; intros M; repeat destruct M as [M|M]; try discriminate M; exact M].
Example C189_example :
  quotes (VStr """<"" "">"" ""{"" ""}""") = Ok (VQuotes [("<", ">"); ("{", "}")])
  /\ quotes (VStr """<"""">"" ""{""""}""") = Ok (VQuotes [("<>", "{}")])
  /\ quotes (VStr """<"""">""") = Err ValueError.
Proof.
  apply (C189_blanks """<""" """>""" """{""" """}"""); try discriminate; try (split; [discriminate|reflexivity]);
    [plain_literal """"%char "<"|plain_literal """"%char ">"|plain_literal """"%char "{"|plain_literal """"%char "}"].
Qed.
Example C189_comment : joined "'a'""b""#!" "ab" /\ followed "'a'1".
Proof.
  split.
  - right. exists "'a'""b""", "!". split; [|split; [cbn; intros [M|M]; [discriminate M|exact M]|reflexivity]].
    apply (side_more "'a'" "a" """b""" "b"); [plain_literal "'"%char "a"|apply side_last; plain_literal """"%char "b"|]. intros (q & r & E & _). discriminate E.
  - exists "'a'", "a", "1"%char, "". split; [apply side_last; plain_literal "'"%char "a"|]. split; [|reflexivity].
    cbn. intros M. repeat destruct M as [M|M]; try discriminate M. exact M.
Qed.
