(** * Which exceptions an assignment can raise *)
From Coq Require Import ZArith QArith Qcanon Bool String Ascii List Permutation Lia.
From Verif Require Import PyNum Units Float64 PyStr Colors Values Parser Choices Shorthand Decl DeclSpec StrFacts DeclFacts DeclNorm.
Import ListNotations.
Open Scope string_scope.

Lemma units_err v e : units v = Err e -> e = ValueError.
Proof.
  unfold units. destruct (units_in base_registry v) as [x|y] eqn:E; cbn; [discriminate|]. intros H. injection H as <-.
  unfold units_in in E. destruct v; try congruence.
  - destruct (scan_units _ _); [discriminate|]. unfold try_value in E. destruct (py_float s) as [x|y'] eqn:P; cbn [bindr] in E; [discriminate|].
    apply py_float_err in P. subst y'. cbn in E. congruence.
  - destruct (is_unit_kind _); congruence.
Qed.
Lemma as_validation_value {A} (m : res A) e : as_validation m = Err e -> (forall x, m = Err x -> x = ValueError) -> e = ValidationError.
Proof. destruct m as [a|x]; cbn; [discriminate|]. intros H E. rewrite (E x eq_refl) in H. cbn in H. congruence. Qed.
Lemma as_validation_other {A} (m : res A) e : as_validation m = Err e -> e = ValidationError \/ (m = Err e /\ is_value_error e = false).
Proof. destruct m as [a|x]; cbn; [discriminate|]. destruct (is_value_error x) eqn:E; intros H; [left; congruence|right]. injection H as <-. auto. Qed.
Lemma int_of_err v e : int_of v = Err e -> e = ValueError \/ e = TypeError \/ (exists b, v = VFloat (Inf b)).
Proof.
  destruct v; cbn; try (intros H; injection H as <-; auto; fail); try discriminate.
  - destruct x; cbn; [discriminate| |]; intros H; injection H as <-; eauto.
  - intros H. apply py_int_base_err in H. auto.
Qed.
Lemma pound_err s e : pound_sign_color s = Err e -> e = ValueError.
Proof.
  unfold pound_sign_color, int16, alpha16. 
  repeat (match goal with |- context [match ?x with O => _ | S _ => _ end] => destruct x end; try (intros; congruence));
  repeat (match goal with |- context [py_int16 ?x] => let E := fresh in destruct (py_int16 x) eqn:E; cbn [bindr];
    [|intros; apply py_int_base_err in E; congruence] end); discriminate.
Qed.
Lemma try_value_ve {A} (m : res A) e : try_value m (Err ValueError) = Err e -> (forall x, m = Err x -> x = ValueError) -> e = ValueError.
Proof. destruct m as [a|x]; cbn; [discriminate|]. intros H E. rewrite (E x eq_refl) in H. cbn in H. congruence. Qed.
Lemma rgba_err l e : rgba_args l = Err e -> e = ValueError.
Proof.
  unfold rgba_args, int10, float10. destruct l as [|a [|b [|c [|d [|? ?]]]]]; try congruence.
  repeat (match goal with |- context [py_int ?x] => let E := fresh in destruct (py_int x) eqn:E; cbn [bindr];
    [|intros; apply py_int_base_err in E; congruence] end).
  destruct (py_float d) eqn:E; cbn [bindr]; [discriminate|]. intros; apply py_float_err in E; congruence.
Qed.
Lemma rgb_err l e : rgb_args l = Err e -> e = ValueError.
Proof.
  unfold rgb_args, int10. destruct l as [|a [|b [|c [|? ?]]]]; try congruence.
  repeat (match goal with |- context [py_int ?x] => let E := fresh in destruct (py_int x) eqn:E; cbn [bindr];
    [|intros; apply py_int_base_err in E; congruence] end). discriminate.
Qed.
Lemma color_text_err s e : color_text s = Err e -> e = ValueError \/ s = "" \/ startswith "hsl" s = true.
Proof.
  unfold color_text. destruct s as [|c s]; [auto|]. cbv zeta. destruct (Ascii.eqb c "#").
  { destruct (pound_sign_color _) eqn:P; cbn; [discriminate|]. intros H. injection H as <-. left. eapply pound_err, P. }
  destruct (startswith "rgba" _).
  { destruct (try_value _ _) eqn:T; cbn; [discriminate|]. intros H. injection H as <-. left. eapply try_value_ve; [exact T|]. apply rgba_err. }
  destruct (startswith "rgb" _).
  { destruct (try_value _ _) eqn:T; cbn; [discriminate|]. intros H. injection H as <-. left. eapply try_value_ve; [exact T|]. apply rgb_err. }
  destruct (startswith "hsla" (String c s)) eqn:H1.
  { intros _. right. right. destruct s as [|c1 [|c2 s]]; cbn in *; rewrite ?andb_false_r in H1; try discriminate.
    apply andb_prop in H1. destruct H1 as [-> H1]. apply andb_prop in H1. destruct H1 as [-> H1]. apply andb_prop in H1. destruct H1 as [-> _]. reflexivity. }
  destruct (startswith "hsl" (String c s)) eqn:H2; [auto|].
  destruct (assoc _ _); [discriminate|]. intros H. injection H as <-. auto.
Qed.
Lemma border_spacing_err n v e : border_spacing n v = Err e -> e = ValueError \/
  ((forall s, v <> VStr s) /\ (forall z, v <> VInt z) /\ (forall x, v <> VFloat x) /\ sequence v = None).
Proof.
  unfold border_spacing. 
  assert (K : forall l, match l with
      | [h] => h <-r units h ;; Ok (VSpacing (OId n) h None, S n)
      | [h; v] => h <-r units h ;; v <-r units v ;; Ok (VSpacing (OId n) h (Some v), S n)
      | _ => Err ValueError end = Err e -> e = ValueError).
  { intros l. destruct l as [|a [|b [|? ?]]]; try congruence.
    - destruct (units a) eqn:E; cbn [bindr]; [discriminate|]. apply units_err in E. congruence.
    - destruct (units a) eqn:E; cbn [bindr]; [|apply units_err in E; congruence].
      destruct (units b) eqn:E'; cbn [bindr]; [discriminate|]. apply units_err in E'. congruence. }
  destruct v; cbn [sequence bindr]; intros H; try (left; eapply K, H); right; repeat split; discriminate.
Qed.
Lemma rect_err v e : rect v = Err e -> e = ValueError \/ (forall s, v <> VStr s).
Proof.
  unfold rect. destruct v; try (right; discriminate). intros H. left. revert H. cbv zeta.
  destruct (startswith _ _ && _ && _ && _)%bool; [|congruence].
  destruct (if Nat.eqb _ 3 then _ else _) as [[|a [|b [|c [|d [|? ?]]]]]|]; try congruence.
  repeat (match goal with |- context [units ?x] => let E := fresh in destruct (units x) eqn:E; cbn [bindr]; [|apply units_err in E; congruence] end). discriminate.
Qed.
Lemma uri_text_err s e : uri_text s = Err e -> e = ValueError.
Proof. unfold uri_text. cbv zeta. destruct (_ && _)%bool; [|congruence]. destruct (_ && _)%bool; [discriminate|]. destruct (_ && _)%bool; discriminate. Qed.
Lemma uri_value_err n v e : uri n v = Err e -> e = ValueError.
Proof. unfold uri. destruct v; try congruence. destruct (uri_text s) eqn:E; cbn; [discriminate|]. intros H. injection H as <-. eapply uri_text_err, E. Qed.
Lemma cursor_items_value_err l : forall n seen e, cursor_items n seen l = Err e -> e = ValueError.
Proof.
  induction l as [|v l IH]; intros n seen e; cbn [cursor_items]; [discriminate|].
  destruct (is_cursor_option v), seen; try congruence.
  - destruct (cursor_items n true l) eqn:E; cbn [bindr]; [discriminate|]. intros H. injection H as <-. eapply IH, E.
  - destruct (try_value _ _) eqn:T; cbn [bindr].
    + destruct (cursor_items _ false l) eqn:E; cbn [bindr]; [discriminate|]. intros H. injection H as <-. eapply IH, E.
    + intros H. injection H as <-. eapply try_value_ve; [exact T|]. apply uri_value_err.
Qed.
Lemma cursor_value_err n v e : cursor n v = Err e -> e = ValueError \/ ((forall s, v <> VStr s) /\ sequence v = None).
Proof.
  unfold cursor. assert (K : forall l, (x <-r cursor_items n false l;; Ok (VCursor (fst x), snd x)) = Err e -> e = ValueError).
  { intros l. destruct (cursor_items n false l) eqn:E; cbn [bindr]; [discriminate|]. intros H. injection H as <-. eapply cursor_items_value_err, E. }
  destruct v; cbn [iterate bindr sequence]; intros H; try (left; eapply K, H); right; split; try reflexivity; discriminate.
Qed.
Lemma quotes_value_err v e : quotes v = Err e -> e = ValueError \/ (exists s, v = VStr s) \/ sequence v <> None.
Proof.
  unfold quotes. destruct v; cbn [sequence bindr]; eauto; try (intros H; injection H as <-; auto; fail);
    intros _; right; right; discriminate.
Qed.

Lemma validate_escapes ho p n v e : validate (ho_set ho) (choices_of p) n v = Err e -> is_value_error e = true \/ escapes p v.
Proof.
  unfold validate. destruct (first_valid (ch_validators (choices_of p)) n v) as [[x|]|y] eqn:F; cbn [bindr]; [discriminate| |].
  - intros H. left. destruct (find_const _ _) in H; [discriminate|]. destruct (find_const _ _) in H; [discriminate|]. injection H as <-. reflexivity.
  - intros H. injection H as ->. right.
    assert (G : exists f, In f (ch_validators (choices_of p)) /\ run_validator f n v = Err e /\ e <> ValidationError).
    { clear -F. induction (ch_validators (choices_of p)) as [|f fs IH]; cbn in F; [discriminate|].
      destruct (run_validator f n v) as [x|x] eqn:R; [discriminate|]. destruct x;
        try (injection F as <-; exists f; cbn; split; [auto|split; [exact R|discriminate]]).
      destruct (IH F) as (g & G1 & G2). exists g. cbn. auto. }
    destruct G as (f & If & R & NE). clear F.
    destruct f; cbn [run_validator] in R.
    + destruct (as_validation (units v)) eqn:A; cbn in R; [discriminate|]. injection R as <-. destruct NE. eapply as_validation_value; [exact A|]. apply units_err.
    + destruct (as_validation (units v)) as [u|] eqn:A; cbn in R.
      * destruct (u_kind u); try (injection R as <-; congruence). destruct (u_ltb _ _); [injection R as <-; congruence|discriminate].
      * injection R as <-. destruct NE. eapply as_validation_value; [exact A|]. apply units_err.
    + destruct (int_of v) as [z|y] eqn:A; cbn in R; [discriminate|]. destruct (int_of_err _ _ A) as [->|[->|[b ->]]].
      * cbn in R. injection R as <-. congruence.
      * cbn in R. injection R as <-. congruence.
      * apply infinite_integer. destruct p; cbn in If; intuition (try discriminate); cbn; auto.
    + apply as_validation_other in R. destruct R as [->|[R NV]]; [congruence|]. unfold color in R. destruct v; try (injection R as <-; discriminate); try discriminate.
      destruct (color_text s) eqn:C; cbn in R; [discriminate|]. injection R as ->.
      assert (P : In p [L_color; L_background_color; L_outline_color] \/ (exists s, p = L_border_color s)).
      { destruct p; cbn in If; intuition (try discriminate); cbn; eauto. }
      destruct (color_text_err _ _ C) as [->|[->|S]]; [discriminate|apply empty_color, P|apply hsl_color; assumption].
    + assert (p = L_border_spacing) as -> by (destruct p; cbn in If; intuition discriminate).
      apply as_validation_other in R. destruct R as [->|[R NV]]; [congruence|]. destruct (border_spacing_err _ _ _ R) as [->|(A & B & C & D)]; [discriminate|].
      apply spacing_other; assumption.
    + assert (p = L_clip) as -> by (destruct p; cbn in If; intuition discriminate).
      destruct (as_validation (rect v)) eqn:A; cbn in R; [discriminate|]. injection R as <-.
      apply as_validation_other in A. destruct A as [->|[R NV]]; [congruence|]. destruct (rect_err _ _ R) as [->|A]; [discriminate|]. apply clip_not_text, A.
    + assert (p = L_quotes) as -> by (destruct p; cbn in If; intuition discriminate).
      destruct (as_validation (quotes v)) eqn:A; cbn in R; [discriminate|]. injection R as <-.
      apply as_validation_other in A. destruct A as [->|[R NV]]; [congruence|]. destruct (quotes_value_err _ _ R) as [->|A]; [discriminate|]. apply quotes_any, A.
    + assert (p = L_cursor) as -> by (destruct p; cbn in If; intuition discriminate).
      apply as_validation_other in R. destruct R as [->|[R NV]]; [congruence|]. destruct (cursor_value_err _ _ _ R) as [->|[A B]]; [discriminate|].
      apply cursor_other; assumption.
Qed.
