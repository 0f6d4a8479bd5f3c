(** * C161: exactly when an assignment raises something other than ValueError *)
From Coq Require Import ZArith QArith Qcanon Bool String Ascii List Lia.
From Verif Require Import PyNum Units Float64 PyStr StrFacts Colors Values Parser ParserFacts Choices Shorthand Decl DeclSpec DeclFacts DeclNorm DeclErrors DeclProps
  ColorText ColorSpec ColorProps ReadSpec ReadProps FuncSpec FuncProps RaiseSpec.
Import ListNotations.
Open Scope string_scope.

(** *** Every text after the name is short or has two delimiters *)
Lemma last_char s : s <> "" -> exists u y, s = u ++ String y "".
Proof.
  induction s as [|c s IH]; [contradiction|]. intros _. destruct s as [|d s]; [exists "", c; reflexivity|]. destruct IH as (u & y & E); [discriminate|]. exists (String c u), y. rewrite E. reflexivity.
Qed.
Lemma split_commas s : commas_ok (split_on "," s) /\ split_on "," s <> [].
Proof.
  induction s as [|c s [IH N]]; [split; [repeat constructor|discriminate]|]. cbn [split_on]. destruct (Ascii.eqb_spec c ",") as [->|X].
  - split; [constructor; [reflexivity|exact IH]|discriminate].
  - destruct (split_on "," s) as [|w l]; [contradiction|]. split; [|discriminate]. inversion IH; subst. constructor; [|assumption].
    unfold no_comma in *. cbn [all_chars]. match goal with H : all_chars _ w = true |- _ => rewrite H end. rewrite andb_true_r. apply negb_true_iff. apply Ascii.eqb_neq. congruence.
Qed.
Lemma after_name name s : In name ["rgb"; "rgba"; "hsl"; "hsla"] ->
  (String.length s <= 1)%nat \/ exists x ts y, s = String x (String.concat "," ts ++ String y "") /\ commas_ok ts /\ ts <> [].
Proof.
  intros _. destruct s as [|x [|c s]]; [left; cbn; lia|left; cbn; lia|]. right. destruct (last_char (String c s)) as (u & y & E); [discriminate|].
  exists x, (split_on "," u), y. rewrite E. destruct (split_commas u) as [A B]. split; [|split; assumption].
  change (String.concat "," (split_on "," u)) with (join "," (split_on "," u)). rewrite (split_on_id "," u _ eq_refl). reflexivity.
Qed.
Lemma hsl_shape s : startswith "hsl" s = true ->
  (exists name t, In name ["rgb"; "rgba"; "hsl"; "hsla"] /\ (String.length t <= 1)%nat /\ s = name ++ t)
  \/ exists name x ts y, opened name x /\ commas_ok ts /\ ts <> [] /\ s = applied name x ts y.
Proof.
  intros H. destruct s as [|c1 [|c2 [|c3 s]]]; cbn [startswith] in H; rewrite ?andb_false_r in H; try discriminate.
  apply andb_prop in H. destruct H as [H1 H]. apply andb_prop in H. destruct H as [H2 H]. apply andb_prop in H. destruct H as [H3 _].
  apply Ascii.eqb_eq in H1, H2, H3. subst.
  destruct s as [|x s]; [left; exists "hsl", ""; cbn; repeat split; auto|]. destruct (Ascii.eqb_spec x "a") as [->|X].
  - destruct (after_name "hsla" s) as [L|(x & ts & y & -> & C & N)]; [cbn; auto| |].
    + left. exists "hsla", s. split; [cbn; auto|]. split; [exact L|reflexivity].
    + right. exists "hsla", x, ts, y. split; [left; cbn; auto|]. auto.
  - destruct (after_name "hsl" (String x s)) as [L|(x' & ts & y & E & C & N)]; [cbn; auto| |].
    + left. exists "hsl", (String x s). split; [cbn; auto|]. split; [exact L|reflexivity].
    + right. injection E as -> E. exists "hsl", x', ts, y. split; [right; split; [cbn; auto|exact X]|]. split; [exact C|]. split; [exact N|]. unfold applied. rewrite E. reflexivity.
Qed.
Lemma color_raises n v e : color n v = Err e -> e = ValueError
  \/ (v = VStr "" /\ e = IndexError) \/ (exists name x ts y, opened name x /\ commas_ok ts /\ overflows name ts /\ v = VStr (applied name x ts y) /\ e = OverflowError).
Proof.
  intros H. destruct v as [| | |s| | | | | | | | | | |]; try (left; injection H as <-; reflexivity); try discriminate.
  assert (H' := H). unfold color in H'. destruct (color_text s) as [r|e'] eqn:E; cbn [bindr] in H'; [discriminate|]. injection H' as ->.
  destruct (color_text_err _ _ E) as [->|[->|S]]; [left; reflexivity|right; left; split; [reflexivity|]; cbn in E; injection E as <-; reflexivity|].
  destruct (hsl_shape s S) as [(name & t & I & L & ->)|(name & x & ts & y & O & C & N & ->)].
  - left. rewrite (C160_short n name t I L) in H. injection H as <-. reflexivity.
  - rewrite (applied_color n _ _ _ y O C N) in H. destruct (args_of name ts) as [c|e'] eqn:A; [discriminate|].
    destruct (args_err _ _ _ (opened_name _ _ O) A) as [-> | [-> V]]; cbn [is_value_error] in H; injection H as <-; [left; reflexivity|].
    right. right. exists name, x, ts, y. auto.
Qed.

Lemma colored_choices p : colored p -> ch_validators (choices_of p) = [is_color].
Proof. intros [[<- |[<- |[<- |[]]]]|[s ->]]; [reflexivity..|]. destruct s; reflexivity. Qed.
Lemma whole_choices p : whole_numbered p -> ch_validators (choices_of p) = [is_integer].
Proof. intros [<- |[<- |[<- |[]]]]; reflexivity. Qed.
Lemma not_iterable v : ~ iterable v -> (forall s, v <> VStr s) /\ sequence v = None.
Proof. intros N. destruct v; try (split; [discriminate|reflexivity]); contradiction N; constructor. Qed.
Lemma not_iterable_inv v : (forall s, v <> VStr s) -> sequence v = None -> ~ iterable v.
Proof. intros S Q I. destruct I; try discriminate. exact (S s eq_refl). Qed.

(** What the validation raises. *)
Lemma validate_first ho p n v e : first_valid (ch_validators (choices_of p)) n v = Err e -> validate (ho_set ho) (choices_of p) n v = Err e.
Proof. intros H. unfold validate. rewrite H. reflexivity. Qed.
Lemma raises_validate ho p n v e : raises p v e -> validate (ho_set ho) (choices_of p) n v = Err e /\ is_value_error e = false.
Proof.
  intros [q P|q name x ts y P O C V|q neg P|w S|w I Z X|w I].
  - split; [|reflexivity]. apply validate_first. rewrite (colored_choices _ P). reflexivity.
  - assert (N : ts <> []) by (destruct V; discriminate). split; [|reflexivity]. apply validate_first. rewrite (colored_choices _ P). cbn [first_valid run_validator].
    rewrite (proj2 (proj1 (C160_rejected n name x ts y O C N)) V). reflexivity.
  - split; [|reflexivity]. apply validate_first. rewrite (whole_choices _ P). reflexivity.
  - split; [|reflexivity]. apply validate_first. change (ch_validators (choices_of L_clip)) with [is_rect]. cbn [first_valid run_validator].
    destruct w; try reflexivity. destruct (S s eq_refl).
  - split; [|reflexivity]. apply validate_first. change (ch_validators (choices_of L_border_spacing)) with [is_border_spacing]. cbn [first_valid run_validator].
    apply not_iterable in I. destruct I as [S Q]. destruct w; try discriminate; try reflexivity; [destruct (Z z eq_refl)|destruct (X x eq_refl)|destruct (S s eq_refl)].
  - split; [|reflexivity]. apply validate_first. change (ch_validators (choices_of L_cursor)) with [is_cursor]. cbn [first_valid run_validator].
    apply not_iterable in I. destruct I as [S Q]. destruct w; try discriminate; try reflexivity. destruct (S s eq_refl).
Qed.
Lemma escapes_colored p s : escapes p (VStr s) -> p <> L_quotes -> colored p.
Proof. intros E N. inversion E; subst; try assumption; try congruence; try (match goal with H : forall t, VStr ?u <> VStr t |- _ => destruct (H u eq_refl) end). Qed.
Lemma validate_raises ho p n v e : p <> L_quotes -> validate (ho_set ho) (choices_of p) n v = Err e -> is_value_error e = false -> raises p v e.
Proof.
  intros NQ H NV. pose proof (validate_escapes _ _ _ _ _ H) as [E|E]; [congruence|].
  assert (F : first_valid (ch_validators (choices_of p)) n v = Err e).
  { unfold validate in H. destruct (first_valid _ n v) as [[x|]|y]; cbn [bindr] in H; [discriminate| |congruence].
    destruct (find_const _ _) in H; [discriminate|]. destruct (find_const _ _) in H; [discriminate|]. injection H as <-. discriminate. }
  clear H. inversion E as [q P EQ EV|q s P S EQ EV|q b P EQ EV|w S EQ EV|w S Z X Q EQ EV|w S Q EQ EV|w S EQ EV]; subst.
  - rewrite (colored_choices _ P) in F. vm_compute in F. injection F as <-. constructor. exact P.
  - rewrite (colored_choices _ P) in F. cbn [first_valid run_validator] in F. destruct (color n (VStr s)) as [x|y] eqn:C; [discriminate|].
    destruct (color_raises _ _ _ C) as [->|[[EV ->]|(name & x & ts & y' & O & K & V & EV & ->)]]; cbn [as_validation is_value_error] in F; try discriminate F; injection F as <-.
    + injection EV as ->. constructor. exact P.
    + rewrite EV. apply raises_overflow; assumption.
  - rewrite (whole_choices _ P) in F. vm_compute in F. injection F as <-. constructor. exact P.
  - change (ch_validators (choices_of L_clip)) with [is_rect] in F. cbn [first_valid run_validator] in F.
    assert (e = AttributeError) as -> by (destruct v; try (destruct (S s eq_refl)); cbn in F; injection F as <-; reflexivity). constructor. exact S.
  - change (ch_validators (choices_of L_border_spacing)) with [is_border_spacing] in F. cbn [first_valid run_validator] in F.
    assert (e = AttributeError) as ->.
    { destruct v; try discriminate Q; try (cbn in F; injection F as <-; reflexivity); [destruct (Z z eq_refl)|destruct (X x eq_refl)|destruct (S s eq_refl)]. }
    constructor; [apply not_iterable_inv|..]; assumption.
  - change (ch_validators (choices_of L_cursor)) with [is_cursor] in F. cbn [first_valid run_validator] in F.
    assert (e = TypeError) as -> by (destruct v; try discriminate Q; try (cbn in F; injection F as <-; reflexivity); destruct (S s eq_refl)).
    constructor. apply not_iterable_inv; assumption.
  - contradiction.
Qed.

(** C161. *)
Theorem C161_which_exception : forall ho c n p v e, has_layout c -> p <> L_quotes -> e <> ValueError ->
  (set_prop ho (Long p) v c n = (c, n, Err e) <-> raises p v e)
  /\ (snd (set_prop ho (Long p) v c n) = Err e <-> raises p v e).
Proof.
  intros ho c n p v e L NQ NE. cbn [set_prop]. rewrite set_long_eq. destruct (validate (ho_set ho) (choices_of p) n v) as [[w m]|x] eqn:W.
  - assert (NR : ~ raises p v e) by (intros R; apply (raises_validate ho p n) in R; destruct R; congruence).
    destruct (same_value _ _); [|rewrite mark_dirty_ok by exact L]; split; split; try discriminate; contradiction.
  - destruct (is_value_error x) eqn:X; cbn [snd].
    + assert (NR : ~ raises p v e) by (intros R; apply (raises_validate ho p n) in R; destruct R; congruence).
      split; split; try contradiction; intros H; injection H as <-; contradiction NE; reflexivity.
    + pose proof (validate_raises _ _ _ _ _ NQ W X) as R.
      assert (K : raises p v e -> e = x) by (intros R'; apply (raises_validate ho p n) in R'; destruct R'; congruence).
      split; split; intros H; try (injection H as <-; exact R); rewrite (K H); reflexivity.
Qed.
Print Assumptions C161_which_exception.
Example C161_overflow_example : colored (L_border_color STop) /\ opened "hsl" "(" /\ commas_ok ["0"; String.concat "" (repeat "9" 309) ++ "%"; "x"]
  /\ overflows "hsl" ["0"; String.concat "" (repeat "9" 309) ++ "%"; "x"]
  /\ snd (set_prop plain_order (Long (L_border_color STop)) (VStr (applied "hsl" "(" ["0"; String.concat "" (repeat "9" 309) ++ "%"; "x"] ")")) sample sample_n) = Err OverflowError.
Proof.
  assert (O : overflows "hsl" ["0"; String.concat "" (repeat "9" 309) ++ "%"; "x"]).
  { apply (overflows_s "hsl" "0" (String.concat "" (repeat "9" 309) ++ "%") "x" [] 0 (10 ^ 309 - 1)); [left; split; reflexivity|apply C147_int; vm_compute; reflexivity|apply percent_ok; vm_compute; reflexivity|].
    apply (proj1 (fdiv_err (10 ^ 309 - 1) OverflowError)). vm_compute. reflexivity. }
  assert (C : commas_ok ["0"; String.concat "" (repeat "9" 309) ++ "%"; "x"]) by (repeat constructor).
  assert (P : opened "hsl" "(") by (right; split; [cbn; auto|discriminate]).
  split; [right; eexists; reflexivity|]. split; [exact P|]. split; [exact C|]. split; [exact O|].
  apply (proj2 (C161_which_exception plain_order sample sample_n (L_border_color STop) (VStr (applied "hsl" "(" ["0"; String.concat "" (repeat "9" 309) ++ "%"; "x"] ")")) OverflowError ltac:(discriminate) ltac:(discriminate) ltac:(discriminate))).
  apply raises_overflow; [right; eexists; reflexivity|exact P|exact C|exact O].
Qed.
Example C161_example : raises L_background_color (VStr "") IndexError /\ raises L_orphans (VFloat (Inf true)) OverflowError
  /\ raises L_clip (VInt 5) AttributeError /\ raises L_border_spacing VNone AttributeError /\ raises L_cursor (VInt 5) TypeError
  /\ (forall e, ~ raises L_width (VStr "wide") e) /\ (forall e, ~ raises L_border_spacing (VInt 5) e)
  /\ set_prop plain_order (Long L_cursor) (VInt 5) sample sample_n = (sample, sample_n, Err TypeError).
Proof.
  split; [constructor; left; cbn; auto|]. split; [constructor; cbn; auto|]. split; [constructor; discriminate|].
  split; [constructor; try discriminate; intros H; inversion H|]. split; [constructor; intros H; inversion H|].
  split; [intros e H; inversion H; match goal with C : colored _ |- _ => destruct C as [C|[s C]]; cbn in C; intuition discriminate end|].
  split; [intros e H; inversion H; match goal with Z : forall z, VInt 5 <> VInt z |- _ => exact (Z 5%Z eq_refl) end|]. vm_compute. reflexivity.
Qed.
