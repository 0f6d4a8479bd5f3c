(** * Validated values are accepted again; shorthand parts *)
From Coq Require Import ZArith QArith Qcanon Bool String Ascii List Permutation Lia.
From Verif Require Import PyNum Units Float64 PyStr Colors Values Parser Choices Shorthand Decl DeclSpec DeclFacts.
Import ListNotations.
Open Scope string_scope.

(** ** Failures do not depend on the object counter *)
Lemma try_value_err {A} (m d : res A) e : try_value m d = Err e -> (m = Err e /\ is_value_error e = false) \/ (exists x, m = Err x /\ is_value_error x = true /\ d = Err e).
Proof. unfold try_value. destruct m as [a|x]; [discriminate|]. destruct (is_value_error x) eqn:E; intros H; [right; eauto|left; split; congruence]. Qed.
Lemma uri_err next next' v e : uri next v = Err e -> uri next' v = Err e.
Proof. unfold uri. destruct v; try auto. destruct (uri_text s); cbn; [discriminate|auto]. Qed.
Lemma cursor_items_err l : forall n m seen e, cursor_items n seen l = Err e -> cursor_items m seen l = Err e.
Proof.
  induction l as [|v l IH]; intros n m seen e; cbn [cursor_items]; [discriminate|].
  destruct (is_cursor_option v), seen; try (auto; fail).
  - destruct (cursor_items n true l) as [x|y] eqn:E; cbn [bindr]; [discriminate|]. intros H. injection H as ->. rewrite (IH _ m _ _ E). reflexivity.
  - destruct (uri n v) as [[u k]|y] eqn:U.
    + cbn [try_value bindr fst snd]. destruct (cursor_items k false l) as [x|z] eqn:E; cbn [bindr]; [discriminate|]. intros H. injection H as ->.
      destruct (uri m v) as [[u' k']|y'] eqn:U'.
      * cbn [try_value bindr fst snd]. rewrite (IH _ k' _ _ E). reflexivity.
      * rewrite (uri_err m n v y' U') in U. discriminate.
    + rewrite (uri_err n m v y U). cbn [try_value]. destruct (is_value_error y); cbn [bindr]; auto.
Qed.
Lemma cursor_err n m v e : cursor n v = Err e -> cursor m v = Err e.
Proof.
  unfold cursor. destruct (match v with VStr s => _ | _ => _ end) as [l|x]; cbn [bindr]; [|auto].
  destruct (cursor_items n false l) eqn:E; cbn [bindr]; [discriminate|]. intros H. injection H as ->. rewrite (cursor_items_err _ _ m _ _ E). reflexivity.
Qed.
Lemma color_err n m v e : color n v = Err e -> color m v = Err e.
Proof. unfold color. destruct v; try auto; try discriminate. destruct (color_text s); cbn; [discriminate|auto]. Qed.
Lemma spacing_err n m v e : border_spacing n v = Err e -> border_spacing m v = Err e.
Proof.
  unfold border_spacing. destruct (match sequence v with Some l => _ | None => _ end) as [l|x]; cbn [bindr]; [|auto].
  destruct l as [|a [|b [|? ?]]]; auto; repeat (match goal with |- context [units ?x] => destruct (units x) end; cbn [bindr]; auto); discriminate.
Qed.
Lemma as_validation_err {A} (m m' : res A) e : as_validation m = Err e -> (forall x, m = Err x -> m' = Err x) -> as_validation m' = Err e.
Proof. destruct m as [a|x]; cbn; [discriminate|]. intros H E. rewrite (E x eq_refl). exact H. Qed.
Lemma run_validator_err f n m v e : run_validator f n v = Err e -> run_validator f m v = Err e.
Proof.
  destruct f; cbn [run_validator].
  - destruct (as_validation (units v)); cbn; [discriminate|auto].
  - destruct (as_validation (units v)) as [u|]; cbn [bindr]; [|auto]. destruct (u_kind u); auto. destruct (u_ltb _ _); [auto|discriminate].
  - destruct (as_validation_t (int_of v)); cbn; [discriminate|auto].
  - intros H. eapply as_validation_err; [exact H|]. intros x. apply color_err.
  - intros H. eapply as_validation_err; [exact H|]. intros x. apply spacing_err.
  - destruct (as_validation (rect v)); cbn; [discriminate|auto].
  - destruct (as_validation (quotes v)); cbn; [discriminate|auto].
  - intros H. eapply as_validation_err; [exact H|]. intros x. apply cursor_err.
Qed.
Lemma first_valid_none fs n m v : first_valid fs n v = Ok None -> first_valid fs m v = Ok None.
Proof.
  induction fs as [|f fs IH]; cbn; [auto|]. destruct (run_validator f n v) as [x|e] eqn:E; [discriminate|].
  rewrite (run_validator_err _ _ m _ _ E). destruct e; try discriminate. exact IH.
Qed.
Lemma first_valid_err fs n m v e : first_valid fs n v = Err e -> first_valid fs m v = Err e.
Proof.
  induction fs as [|f fs IH]; cbn; [discriminate|]. destruct (run_validator f n v) as [x|y] eqn:E; [discriminate|].
  rewrite (run_validator_err _ _ m _ _ E). destruct y; auto.
Qed.
Lemma validate_err o ch n m v e : validate o ch n v = Err e -> validate o ch m v = Err e.
Proof.
  unfold validate. destruct (first_valid _ n v) as [[x|]|y] eqn:E; cbn [bindr]; [discriminate| |].
  - rewrite (first_valid_none _ _ m _ E). cbn [bindr]. destruct (find_const _ _); [discriminate|]. destruct (find_const _ _); [discriminate|auto].
  - rewrite (first_valid_err _ _ m _ _ E). auto.
Qed.

(** ** What the validators return *)
Lemma units_ok v u : units v = Ok u -> is_unit_kind (u_kind u) = true -> units (VUnit u) = Ok u.
Proof. intros _ K. unfold units, units_in. rewrite K. reflexivity. Qed.
Lemma named_is_color key x : assoc key NAMED_COLOR = Some x -> exists o c, named_color key = VColor o c.
Proof. unfold named_color. intros ->. destruct x as [[r g] b]. eauto. Qed.
Lemma color_text_named s key : color_text s = Ok (inr key) -> exists x, assoc key NAMED_COLOR = Some x.
Proof.
  unfold color_text. destruct s as [|a s]; [discriminate|].
  destruct (Ascii.eqb a "#"); [destruct (pound_sign_color _); discriminate|].
  repeat match goal with |- context [if startswith ?x ?y then _ else _] => destruct (startswith x y) end;
    try (match goal with |- context [try_value ?m ?d] => destruct (try_value m d) end; discriminate).
  destruct (assoc (lower (String a s)) NAMED_COLOR) eqn:E; [|discriminate]. intros H. injection H as <-. eauto.
Qed.
Lemma color_ok n v w n' : color n v = Ok (w, n') -> exists o c, w = VColor o c /\ (n' = n \/ (o = OId n /\ n' = S n)).
Proof.
  unfold color. destruct v; try discriminate.
  - destruct (color_text s) as [[c|key]|] eqn:E; cbn; intros H; [| |discriminate].
    + injection H as <- <-. exists (OId n), c. auto.
    + injection H as <- <-. apply color_text_named in E. destruct E as [x E]. destruct (named_is_color _ _ E) as (o & c & ->). eauto.
  - intros H. injection H as <- <-. eauto.
Qed.
Lemma as_validation_ok {A} (m : res A) a : as_validation m = Ok a -> m = Ok a.
Proof. destruct m as [x|e]; cbn; [auto|]. destruct (is_value_error e); discriminate. Qed.
Lemma as_validation_t_ok {A} (m : res A) a : as_validation_t m = Ok a -> m = Ok a.
Proof. destruct m as [x|e]; cbn; [auto|]. destruct e; cbn; discriminate. Qed.
Lemma units_value v u : run_validator is_length 0 v = Ok (VUnit u, 0%nat) -> units v = Ok u.
Proof. cbn. destruct (as_validation (units v)) eqn:E; cbn; [|discriminate]. intros H. injection H as ->. apply as_validation_ok, E. Qed.

(** cursors *)
Definition is_text (v : pyval) : bool := match v with VStr _ => true | _ => false end.
Lemma cursor_option_text v : is_cursor_option v = true -> is_text v = true.
Proof.
  unfold is_cursor_option. intros H. apply existsb_exists in H. destruct H as (s & _ & E). destruct v; try discriminate. reflexivity.
Qed.
Lemma uri_ok n v w n' : uri n v = Ok (w, n') -> exists u, w = VUri (OId n) u /\ n' = S n.
Proof. unfold uri. destruct v; try discriminate. destruct (uri_text s); cbn; [|discriminate]. intros H. injection H as <- <-. eauto. Qed.
Lemma cursor_items_ok l : forall n seen x, cursor_items n seen l = Ok x ->
  forallb is_text (fst x) = true -> (forall m, cursor_items m seen (fst x) = Ok (fst x, m)).
Proof.
  induction l as [|v l IH]; intros n seen x; cbn [cursor_items].
  - intros H. injection H as <-. reflexivity.
  - destruct (is_cursor_option v) eqn:C.
    + destruct seen; [discriminate|]. destruct (cursor_items n true l) as [y|] eqn:E; cbn [bindr]; [|discriminate].
      intros H. injection H as <-. cbn [fst forallb]. intros T m. apply andb_prop in T. destruct T as [_ T].
      cbn [cursor_items]. rewrite C. rewrite (IH _ _ _ E T). reflexivity.
    + destruct seen; [discriminate|]. destruct (uri n v) as [[u k]|] eqn:U; cbn [try_value].
      * cbn [bindr fst snd]. destruct (cursor_items k false l) as [y|] eqn:E; cbn [bindr]; [|discriminate].
        intros H. injection H as <-. cbn [fst forallb]. apply uri_ok in U. destruct U as (t & -> & _). discriminate.
      * destruct (is_value_error e); cbn [bindr]; discriminate.
Qed.
Lemma cursor_ok n v w n' : cursor n v = Ok (w, n') -> exists l, w = VCursor l /\
  (forallb is_text l = true -> forall m, cursor m (VCursor l) = Ok (VCursor l, m)).
Proof.
  unfold cursor. destruct (match v with VStr s => _ | _ => _ end) as [l|x]; cbn [bindr]; [|discriminate].
  destruct (cursor_items n false l) as [y|] eqn:E; cbn [bindr]; [|discriminate]. intros H. injection H as <- <-.
  exists (fst y). split; [reflexivity|]. intros T m. cbn [iterate bindr]. rewrite (cursor_items_ok _ _ _ _ E T). reflexivity.
Qed.
Lemma spacing_ok n v w n' : border_spacing n v = Ok (w, n') -> exists h x, w = VSpacing (OId n) h x /\ n' = S n.
Proof.
  unfold border_spacing. destruct (match sequence v with Some l => _ | None => _ end) as [l|x]; cbn [bindr]; [|discriminate].
  destruct l as [|a [|b [|? ?]]]; try discriminate.
  - destruct (units a); cbn [bindr]; [|discriminate]. intros H. injection H as <- <-. eauto.
  - destruct (units a); cbn [bindr]; [|discriminate]. destruct (units b); cbn [bindr]; [|discriminate]. intros H. injection H as <- <-. eauto.
Qed.
Lemma rect_ok v w : rect v = Ok w -> exists a b c d, w = VRect a b c d.
Proof.
  unfold rect. destruct v; try discriminate. cbv zeta.
  destruct (startswith _ _ && _ && _ && _); [|discriminate].
  destruct (if Nat.eqb _ 3 then _ else _) as [[|a [|b [|c [|d [|e r]]]]]|]; try discriminate.
  repeat (match goal with |- context [units ?x] => destruct (units x) end; cbn [bindr]; [|discriminate]). intros H. injection H as <-. eauto.
Qed.
Lemma quotes_ok v w : quotes v = Ok w -> exists l, w = VQuotes l.
Proof.
  unfold quotes. destruct (match v with VStr s => _ | _ => _ end) as [l|x]; cbn [bindr]; [|discriminate].
  destruct (negb _ && _); [|discriminate]. destruct (quote_pairs l); cbn [bindr]; [|discriminate]. intros H. injection H as <-. eauto.
Qed.

(** ** Values that can be assigned again *)
Definition reassignable (v : pyval) : Prop :=
  match v with
  | VUnit u => is_unit_kind (u_kind u) = true
  | VSpacing _ _ _ | VRect _ _ _ _ | VQuotes _ => False
  | VCursor l => forallb is_text l = true
  | _ => True
  end.

Lemma run_validator_again f n v w n' : run_validator f n v = Ok (w, n') -> reassignable w -> f <> is_percentage ->
  forall m, run_validator f m w = Ok (w, m).
Proof.
  destruct f; cbn [run_validator]; intros H R F m; [|congruence| | | | | |].
  - destruct (as_validation (units v)) as [u|]; cbn in H; [|discriminate]. injection H as <- <-. cbn in R. unfold units, units_in. rewrite R. reflexivity.
  - destruct (as_validation_t (int_of v)) as [z|]; cbn in H; [|discriminate]. injection H as <- <-. reflexivity.
  - apply as_validation_ok, color_ok in H. destruct H as (o & c & -> & _). reflexivity.
  - apply as_validation_ok, spacing_ok in H. destruct H as (h & x & -> & _). destruct R.
  - destruct (as_validation (rect v)) as [r|] eqn:E; cbn in H; [|discriminate]. injection H as <- <-.
    apply as_validation_ok, rect_ok in E. destruct E as (a & b & c & d & ->). destruct R.
  - destruct (as_validation (quotes v)) as [r|] eqn:E; cbn in H; [|discriminate]. injection H as <- <-.
    apply as_validation_ok, quotes_ok in E. destruct E as (l & ->). destruct R.
  - apply as_validation_ok, cursor_ok in H. destruct H as (l & -> & A). cbn in R. rewrite (A R). reflexivity.
Qed.

(** percentages come after lengths in every table *)
Lemma percentage_last p : forall f, In f (ch_validators (choices_of p)) ->
  (exists r, ch_validators (choices_of p) = f :: r /\ f <> is_percentage) \/ (f = is_percentage /\ ch_validators (choices_of p) = lengths).
Proof. destruct p; cbn; intros f H; repeat destruct H as [<-|H]; try destruct H; eauto; left; eexists; (split; [reflexivity|discriminate]). Qed.
Lemma none_choice p n : In VNone (ch_constants (choices_of p)) \/ In VNone (ch_defaulting (choices_of p)) ->
  first_valid (ch_validators (choices_of p)) n VNone = Ok None.
Proof. destruct p; cbn; intuition (try discriminate). Qed.

Lemma validate_again ho p n v w n' : valid_order ho -> validate (ho_set ho) (choices_of p) n v = Ok (w, n') -> reassignable w ->
  forall m, validate (ho_set ho) (choices_of p) m w = Ok (w, m).
Proof.
  intros V H R m. pose proof (choices_of_ok p) as CO. apply validate_inv in H; [|exact CO|apply V].
  destruct H as [(f & F & H)|(_ & N & W & I)].
  - destruct (percentage_last p f F) as [(r & E & NP)|[-> E]].
    + unfold validate. rewrite E. cbn [first_valid]. rewrite (run_validator_again _ _ _ _ _ H R NP). reflexivity.
    + unfold validate. rewrite E. cbn [run_validator] in H. destruct (as_validation (units v)) as [u|]; cbn [bindr] in H; [|discriminate].
      assert (w = VUnit u) as -> by (destruct (u_kind u); try discriminate; destruct (u_ltb _ _); [discriminate|congruence]).
      cbn in R. cbn [lengths first_valid run_validator]. unfold units, units_in. rewrite R. reflexivity.
  - assert (NN : first_valid (ch_validators (choices_of p)) m w = Ok None).
    { destruct (py_eqb v (VStr "none")) eqn:E; subst w; [apply none_choice, I|apply (first_valid_none _ _ m _ N)]. }
    assert (NW : (if py_eqb w (VStr "none") then VNone else w) = w).
    { destruct (py_eqb v (VStr "none")) eqn:E; subst w; [reflexivity|rewrite E; reflexivity]. }
    unfold validate. rewrite NN. cbn [bindr]. cbv zeta. rewrite NW. destruct CO as [C D].
    assert (C' : Forall const_ok (ho_set ho (ch_constants (choices_of p)))) by (eapply Permutation_Forall; [apply V|exact C]).
    destruct (find_const w (ho_set ho _)) as [x|] eqn:X; [apply find_const_some in X; [|exact C']; destruct X as [-> _]; reflexivity|].
    destruct I as [I|I].
    + rewrite (find_const_in w _ C') in X; [discriminate|]. eapply Permutation_in; [apply V|exact I].
    + rewrite (find_const_in w _ D I). reflexivity.
Qed.

(** ** Assigning *)
(** p holds a value equal to the validated form of v *)
Definition took (ho : hash_order) (c : css) (p : longhand) (v : pyval) : Prop :=
  exists m w m', validate (ho_set ho) (choices_of p) m v = Ok (w, m') /\
    match c_store c p with
    | Some r => r = w \/ py_eqb w r = true
    | None => ~ follower p /\ py_eqb w (css_initial p) = true
    end.
Lemma took_store ho a b p v : c_store a p = c_store b p -> took ho a p v -> took ho b p v.
Proof. unfold took. intros ->. auto. Qed.
Lemma took_get ho c n p v : valid_order ho -> reachable ho c n -> took ho c p v ->
  exists m w m' r, validate (ho_set ho) (choices_of p) m v = Ok (w, m') /\ get_prop ho c (Long p) = Ok (RValue r) /\ (r = w \/ equals w r).
Proof.
  intros V R (m & w & m' & W & S). destruct (get_long_ok ho c n p V R) as (r & G & X). exists m, w, m', r.
  split; [exact W|]. cbn [get_prop]. rewrite G. split; [reflexivity|]. destruct (c_store c p) as [y|] eqn:Y.
  - rewrite (X y eq_refl). destruct S as [S|S]; [auto|right; apply py_eqb_spec, S].
  - destruct S as [F S]. rewrite (get_long_plain _ _ _ V F), Y in G. injection G as <-. right. apply py_eqb_spec, S.
Qed.
Lemma set_long_took ho p v c n c' n' : valid_order ho -> set_long ho p v c n = (c', n', Ok tt) -> took ho c' p v.
Proof.
  intros V H. apply set_long_ok in H. destruct H as (w & W & H). exists n, w, n'. split; [exact W|]. destruct H as [[E ->]|[_ ->]].
  - unfold same_value, stored_or_initial in E. destruct (c_store c p) as [x|]; [auto|].
    rewrite (initial_spec _ _ V) in E. destruct (follower_cases p) as [[[s ->]| ->]|[Wi F]]; [discriminate|discriminate|].
    rewrite Wi in E. auto.
  - rewrite mark_dirty_store, store_same. auto.
Qed.
Lemma set_long_accepts ho p v c n w n' : has_layout c -> validate (ho_set ho) (choices_of p) n v = Ok (w, n') ->
  exists c', set_long ho p v c n = (c', n', Ok tt) /\ has_layout c'.
Proof.
  intros L W. destruct (set_long ho p v c n) as [[c' n''] r] eqn:E. pose proof (set_long_layout _ _ _ _ _ _ _ _ L E) as L'.
  rewrite set_long_eq, W in E. destruct (same_value _ _); [injection E as <- <- <-; eauto|].
  rewrite mark_dirty_ok in E by exact L. injection E as <- <- <-. eauto.
Qed.
Lemma validate_any o ch n m v w n' : validate o ch n v = Ok (w, n') -> exists w' m', validate o ch m v = Ok (w', m').
Proof.
  intros W. destruct (validate o ch m v) as [[w' m']|e] eqn:E; [eauto|]. rewrite (validate_err _ _ _ n _ _ E) in W. discriminate.
Qed.

Definition sides_value (t r b l : pyval) (s : side) : pyval := match s with STop => t | SRight => r | SBottom => b | SLeft => l end.
Lemma dir_side_inj d s s' : dir_side d s = dir_side d s' -> s = s'.
Proof. destruct d; cbn; congruence. Qed.
Lemma set_sides_ok ho d t r b l c n c' n' : valid_order ho -> set_sides ho d t r b l c n = (c', n', Ok tt) ->
  (forall s, took ho c' (dir_side d s) (sides_value t r b l s)) /\ (forall q, (forall s, q <> dir_side d s) -> c_store c' q = c_store c q).
Proof.
  intros V. unfold set_sides, bind.
  destruct (set_long ho (dir_side d STop) t c n) as [[c1 n1] [[]|]] eqn:E1; [|discriminate].
  destruct (set_long ho (dir_side d SRight) r c1 n1) as [[c2 n2] [[]|]] eqn:E2; [|discriminate].
  destruct (set_long ho (dir_side d SBottom) b c2 n2) as [[c3 n3] [[]|]] eqn:E3; [|discriminate].
  intros E4. pose proof (set_long_took _ _ _ _ _ _ _ V E1). pose proof (set_long_took _ _ _ _ _ _ _ V E2).
  pose proof (set_long_took _ _ _ _ _ _ _ V E3). pose proof (set_long_took _ _ _ _ _ _ _ V E4).
  assert (O : forall s s', s <> s' -> dir_side d s <> dir_side d s') by (intros s s' N Q; apply N, (dir_side_inj d), Q).
  split.
  - intros [| | |]; cbn [sides_value]; [|eapply took_store; [|eassumption]|eapply took_store; [|eassumption]|assumption];
      [eapply took_store; [|exact H]; symmetry|symmetry|symmetry].
    + rewrite (set_long_other _ _ _ _ _ _ _ _ _ E4), (set_long_other _ _ _ _ _ _ _ _ _ E3), (set_long_other _ _ _ _ _ _ _ _ _ E2); auto; apply O; discriminate.
    + rewrite (set_long_other _ _ _ _ _ _ _ _ _ E4), (set_long_other _ _ _ _ _ _ _ _ _ E3); auto; apply O; discriminate.
    + rewrite (set_long_other _ _ _ _ _ _ _ _ _ E4); auto; apply O; discriminate.
  - intros q N. rewrite (set_long_other _ _ _ _ _ _ _ _ _ E4), (set_long_other _ _ _ _ _ _ _ _ _ E3), (set_long_other _ _ _ _ _ _ _ _ _ E2), (set_long_other _ _ _ _ _ _ _ _ _ E1); auto.
Qed.
Lemma set_sides_accepts ho d t r b l c n : has_layout c ->
  (forall s, exists w m', validate (ho_set ho) (choices_of (dir_side d s)) 0 (sides_value t r b l s) = Ok (w, m')) ->
  exists c' n', set_sides ho d t r b l c n = (c', n', Ok tt) /\ has_layout c'.
Proof.
  intros L A. unfold set_sides, bind.
  assert (K : forall s c n, has_layout c -> exists c' n', set_long ho (dir_side d s) (sides_value t r b l s) c n = (c', n', Ok tt) /\ has_layout c').
  { intros s a k La. destruct (A s) as (w & m' & W). apply (validate_any _ _ _ k) in W. destruct W as (w' & k' & W).
    destruct (set_long_accepts _ _ _ a _ _ _ La W) as (a' & E & La'). eauto. }
  destruct (K STop c n L) as (c1 & n1 & E1 & L1). cbn [sides_value] in E1. rewrite E1.
  destruct (K SRight c1 n1 L1) as (c2 & n2 & E2 & L2). cbn [sides_value] in E2. rewrite E2.
  destruct (K SBottom c2 n2 L2) as (c3 & n3 & E3 & L3). cbn [sides_value] in E3. rewrite E3. apply (K SLeft c3 n3 L3).
Qed.
Lemma set_dir_sides ho d v : match sides_of v with
  | None => set_dir ho d v = raise ValueError
  | Some f => exists t r b l, set_dir ho d v = set_sides ho d t r b l /\ forall s, f s = sides_value t r b l s
  end.
Proof.
  destruct v; cbn [sides_of clockwise set_dir]; try (do 4 eexists; split; [reflexivity|intros []; reflexivity]).
  destruct l as [|a [|b [|c [|e [|? ?]]]]]; cbn [sides_of clockwise set_dir]; try reflexivity; do 4 eexists; (split; [reflexivity|intros []; reflexivity]).
Qed.

(** ** Parts of a shorthand *)
Section Parts.
Variable ho : hash_order.
Hypothesis V : valid_order ho.

(** the component a part belongs to, its value and the next object number *)
Fixpoint classify (table : list (comp * choices)) (n : nat) (v : pyval) : res (comp * pyval * nat) :=
  match table with
  | [] => Err ValueError
  | (k, ch) :: r =>
      match validate (ho_set ho) ch n v with
      | Ok (w, n') => Ok (k, w, n')
      | Err e => if is_value_error e then classify r n v else Err e
      end
  end.
Lemma parse_part_classify table n d v : parse_part (ho_set ho) table n d v =
  match classify table n v with
  | Ok (k, w, n') => match d k with Some _ => Err ValueError | None => Ok (set_part d k w, n') end
  | Err e => Err e
  end.
Proof.
  induction table as [|[k ch] table IH]; cbn [parse_part classify]; [reflexivity|].
  destruct (validate _ ch n v) as [[w n']|e]; [reflexivity|]. destruct (is_value_error e); [exact IH|reflexivity].
Qed.
Definition comp_choices (sh : shorthand) (k : comp) : choices :=
  match sh, k with
  | S_outline, CWidth => OUTLINE_WIDTH_CHOICES | S_outline, CStyle => OUTLINE_STYLE_CHOICES | S_outline, CColor => OUTLINE_COLOR_CHOICES
  | _, CWidth => BORDER_WIDTH_CHOICES | _, CStyle => BORDER_STYLE_CHOICES | _, CColor => BORDER_COLOR_CHOICES
  end.
Lemma comp_choices_ok sh k : choices_ok (comp_choices sh k).
Proof.
  destruct sh, k; cbn [comp_choices]; first [apply (choices_of_ok (L_border_width STop)) | apply (choices_of_ok (L_border_style STop)) | apply (choices_of_ok (L_border_color STop))
   | apply (choices_of_ok L_outline_width) | apply (choices_of_ok L_outline_style) | apply (choices_of_ok L_outline_color)].
Qed.
(** validation by a component: only colours create objects *)
Lemma comp_validate sh k n v w n' : validate (ho_set ho) (comp_choices sh k) n v = Ok (w, n') ->
  (k <> CColor -> n' = n /\ forall m, validate (ho_set ho) (comp_choices sh k) m v = Ok (w, m))
  /\ (forall m, exists w' m', validate (ho_set ho) (comp_choices sh k) m v = Ok (w', m')).
Proof.
  intros H. split; [|intros m; eapply validate_any, H]. intros N.
  assert (K : forall m w' m', validate (ho_set ho) (comp_choices sh k) m v = Ok (w', m') -> m' = m /\ w' = w).
  { intros m w' m' H'. apply validate_inv in H; [|apply comp_choices_ok|apply V]. apply validate_inv in H'; [|apply comp_choices_ok|apply V].
    assert (F : forall f, In f (ch_validators (comp_choices sh k)) -> f = is_length) by (destruct sh, k; cbn; intuition congruence).
    destruct H as [(f & If & H)|(_ & Fv & W & _)], H' as [(f' & If' & H')|(-> & Fv' & W' & _)].
    - apply F in If. apply F in If'. subst f f'. cbn [run_validator] in H, H'. destruct (as_validation (units v)); cbn in H, H'; [|discriminate].
      injection H as <- <-. injection H' as <- <-. auto.
    - pose proof (first_valid_none _ _ n _ Fv') as X. assert (Y : ch_validators (comp_choices sh k) = [f]).
      { apply F in If as Z. destruct sh, k; cbn in *; first [contradiction|destruct If as [<-|[]]; reflexivity]. }
      rewrite Y in X. cbn [first_valid] in X. rewrite H in X. discriminate.
    - pose proof (first_valid_none _ _ m _ Fv) as X. assert (Y : ch_validators (comp_choices sh k) = [f']).
      { apply F in If' as Z. destruct sh, k; cbn in *; first [contradiction|destruct If' as [<-|[]]; reflexivity]. }
      rewrite Y in X. cbn [first_valid] in X. rewrite H' in X. discriminate.
    - split; congruence. }
  split; [apply (K n w n' H)|]. intros m. destruct (validate_any _ _ _ m _ _ _ H) as (w' & m' & E). destruct (K _ _ _ E) as [-> ->]. exact E.
Qed.
Lemma table_choices sh : table_of sh = match sh with
  | S_outline => map (fun k => (k, comp_choices sh k)) [CColor; CStyle; CWidth]
  | _ => map (fun k => (k, comp_choices sh k)) [CWidth; CStyle; CColor] end.
Proof. destruct sh; reflexivity. Qed.
Lemma classify_ok sh n v k w n' : classify (table_of sh) n v = Ok (k, w, n') ->
  validate (ho_set ho) (comp_choices sh k) n v = Ok (w, n')
  /\ (forall m, exists w' m', classify (table_of sh) m v = Ok (k, w', m'))
  /\ (k <> CColor -> n' = n /\ forall m, classify (table_of sh) m v = Ok (k, w, m)).
Proof.
  rewrite table_choices.
  assert (K : forall ks, classify (map (fun k => (k, comp_choices sh k)) ks) n v = Ok (k, w, n') ->
    validate (ho_set ho) (comp_choices sh k) n v = Ok (w, n')
    /\ (forall m, exists w' m', classify (map (fun k => (k, comp_choices sh k)) ks) m v = Ok (k, w', m'))
    /\ (k <> CColor -> n' = n /\ forall m, classify (map (fun k => (k, comp_choices sh k)) ks) m v = Ok (k, w, m))).
  { induction ks as [|j ks IH]; cbn [map classify]; [discriminate|].
    destruct (validate (ho_set ho) (comp_choices sh j) n v) as [[w1 n1]|e] eqn:E.
    - intros H. injection H as <- <- <-. split; [exact E|]. apply comp_validate in E. destruct E as [E1 E2]. split.
      + intros m. destruct (E2 m) as (w' & m' & ->). eauto.
      + intros N. destruct (E1 N) as [-> E3]. split; [reflexivity|]. intros m. rewrite E3. reflexivity.
    - destruct (is_value_error e) eqn:X; [|discriminate]. intros H. destruct (IH H) as (A & B & C). split; [exact A|]. split.
      + intros m. rewrite (validate_err _ _ _ m _ _ E), X. apply B.
      + intros N. destruct (C N) as [-> D]. split; [reflexivity|]. intros m. rewrite (validate_err _ _ _ m _ _ E), X. apply D. }
  destruct sh; apply K.
Qed.

Definition same_parts (d d' : parts) : Prop := forall k, d k = d' k.
Lemma parse_parts_same table l : forall room n d d', same_parts d d' ->
  match parse_parts (ho_set ho) table room n d l, parse_parts (ho_set ho) table room n d' l with
  | Ok (a, m), Ok (b, m') => same_parts a b /\ m = m'
  | Err e, Err e' => e = e'
  | _, _ => False
  end.
Proof.
  induction l as [|v l IH]; intros [|room] n d d' S; cbn [parse_parts]; auto. rewrite !parse_part_classify.
  destruct (classify table n v) as [[[k w] n']|e]; cbn [bindr]; [|reflexivity]. rewrite <- (S k).
  destruct (d k); cbn [bindr fst snd]; [reflexivity|]. apply IH. intros j. unfold set_part. rewrite (S j). reflexivity.
Qed.
Lemma comp_eqb_neq a b : a <> b -> comp_eqb a b = false.
Proof. destruct a, b; cbn; congruence. Qed.
Lemma comp_eqb_refl a : comp_eqb a a = true.
Proof. destruct a; reflexivity. Qed.
Lemma parse_parts_perm sh l l' : Permutation l l' -> forall room n d a m,
  parse_parts (ho_set ho) (table_of sh) room n d l = Ok (a, m) ->
  exists a', parse_parts (ho_set ho) (table_of sh) room n d l' = Ok (a', m) /\ same_parts a a'.
Proof.
  induction 1 as [|x l l' P IH|x y l|l1 l2 l3 P1 IH1 P2 IH2]; intros room n d a m H.
  - exists a. split; [exact H|intros k; reflexivity].
  - destruct room; cbn [parse_parts] in *; [discriminate|]. destruct (parse_part _ _ n d x) as [y|]; cbn [bindr] in *; [|discriminate].
    apply IH, H.
  - destruct room as [|[|room]]; cbn [parse_parts] in H |- *; [discriminate|destruct (parse_part _ _ n d y); discriminate|].
    rewrite parse_part_classify in H |- *.
    destruct (classify (table_of sh) n y) as [[[ky wy] ny]|] eqn:Y; cbn [bindr] in H; [|discriminate].
    destruct (d ky) eqn:Dy; cbn [bindr fst snd] in H; [discriminate|]. rewrite parse_part_classify in H.
    destruct (classify (table_of sh) ny x) as [[[kx wx] nx]|] eqn:X; cbn [bindr] in H; [|discriminate].
    destruct (set_part d ky wy kx) eqn:Dx; cbn [bindr fst snd] in H; [discriminate|].
    assert (N : kx <> ky). { intros ->. unfold set_part in Dx. rewrite comp_eqb_refl in Dx. discriminate. }
    assert (Dx' : d kx = None). { unfold set_part in Dx. rewrite comp_eqb_neq in Dx by exact N. exact Dx. }
    assert (G : exists n1, classify (table_of sh) n x = Ok (kx, wx, n1) /\ classify (table_of sh) n1 y = Ok (ky, wy, nx)).
    { destruct (classify_ok _ _ _ _ _ _ X) as (_ & _ & CX), (classify_ok _ _ _ _ _ _ Y) as (_ & _ & CY).
      destruct kx; try (destruct CX as [-> CX]; [discriminate|]; rewrite CX; eexists; split; [reflexivity|]; exact Y).
      destruct CY as [-> CY]; [congruence|]. exists nx. split; [exact X|apply CY]. }
    destruct G as (n1 & G1 & G2). rewrite G1, Dx'. cbn [bindr fst snd]. rewrite parse_part_classify, G2.
    assert (Dy' : set_part d kx wx ky = None). { unfold set_part. rewrite comp_eqb_neq by congruence. exact Dy. }
    rewrite Dy'. cbn [bindr fst snd].
    pose proof (parse_parts_same (table_of sh) l room nx (set_part (set_part d ky wy) kx wx) (set_part (set_part d kx wx) ky wy)) as S.
    rewrite H in S. destruct (parse_parts _ _ _ _ (set_part (set_part d kx wx) ky wy) l) as [[b m']|].
    + destruct S as [S <-]; [|eauto]. intros j. unfold set_part.
      destruct (comp_eqb j kx) eqn:Jx, (comp_eqb j ky) eqn:Jy; try reflexivity. destruct j, kx, ky; try discriminate; congruence.
    + destruct S. intros j. unfold set_part.
      destruct (comp_eqb j kx) eqn:Jx, (comp_eqb j ky) eqn:Jy; try reflexivity. destruct j, kx, ky; try discriminate; congruence.
  - destruct (IH1 _ _ _ _ _ H) as (a1 & H1 & S1). destruct (IH2 _ _ _ _ _ H1) as (a2 & H2 & S2).
    exists a2. split; [exact H2|]. intros k. rewrite (S1 k). apply S2.
Qed.

(** the components found, in the order of the parts *)
Lemma parse_parts_assign sh l : forall room n d a m, parse_parts (ho_set ho) (table_of sh) room n d l = Ok (a, m) ->
  exists asg, Forall2 (fun k v => exists w i j, validate (ho_set ho) (comp_choices sh k) i v = Ok (w, j) /\ a k = Some w /\ d k = None) asg l
    /\ NoDup asg /\ (forall k, ~ In k asg -> a k = d k) /\ (List.length l <= room)%nat.
Proof.
  induction l as [|v l IH]; intros room n d a m H.
  - exists []. destruct room; cbn [parse_parts] in H; injection H as <- <-; repeat split; try constructor; auto; cbn; lia.
  - destruct room; cbn [parse_parts] in H; [discriminate|]. rewrite parse_part_classify in H.
    destruct (classify (table_of sh) n v) as [[[k w] n']|] eqn:C; cbn [bindr] in H; [|discriminate].
    destruct (d k) eqn:D; cbn [bindr fst snd] in H; [discriminate|].
    destruct (IH _ _ _ _ _ H) as (asg & F & ND & O & Le). exists (k :: asg).
    assert (NI : ~ In k asg).
    { intros I. clear -F I. induction F as [|j x asg l X F IHf]; [destruct I|]. destruct I as [->|I]; [|auto].
      destruct X as (w' & i' & j' & _ & _ & Z). unfold set_part in Z. rewrite comp_eqb_refl in Z. discriminate. }
    apply classify_ok in C. destruct C as (C & _ & _). split; [|split; [|split]].
    + constructor.
      * exists w, n, n'. split; [exact C|]. split; [|exact D]. rewrite O by exact NI. unfold set_part. rewrite comp_eqb_refl. reflexivity.
      * clear -F. induction F as [|j x asg l X F IHf]; constructor; [|exact IHf]. destruct X as (w' & i' & j' & X1 & X2 & X3).
        exists w', i', j'. split; [exact X1|]. split; [exact X2|]. unfold set_part in X3. destruct (comp_eqb j k); [discriminate|exact X3].
    + constructor; assumption.
    + intros j J. cbn in J. rewrite O by tauto. unfold set_part. rewrite comp_eqb_neq; [reflexivity|]. intros ->. tauto.
    + cbn. lia.
Qed.
End Parts.

(** ** Setting a shorthand *)
Definition is_angle_value (w : pyval) : Prop := exists u, w = VUnit u /\ is_unit_kind (u_kind u) = false.
Lemma comp_choices_long sh k l : In l (component sh k) -> comp_choices sh k = choices_of l.
Proof. destruct sh, k; cbn; intros H; repeat destruct H as [<-|H]; try destruct H; reflexivity. Qed.
Lemma comp_value ho sh k i v w j : valid_order ho -> validate (ho_set ho) (comp_choices sh k) i v = Ok (w, j) ->
  (reassignable w \/ (k = CWidth /\ is_angle_value w)) /\ (forall l, w <> VTuple l).
Proof.
  intros V H. apply validate_inv in H; [|apply comp_choices_ok|apply V]. destruct H as [(f & F & H)|(_ & _ & W & I)].
  - assert (X : (k = CWidth /\ f = is_length) \/ f = is_color) by (destruct sh, k; cbn in F; repeat destruct F as [<-|F]; try destruct F; auto).
    destruct X as [[-> ->] | ->]; cbn [run_validator] in H.
    + destruct (as_validation (units v)) as [u|]; cbn in H; [|discriminate]. injection H as <- <-. split; [|discriminate].
      destruct (is_unit_kind (u_kind u)) eqn:U; [left; exact U|right; split; [reflexivity|exists u; auto]].
    + apply as_validation_ok, color_ok in H. destruct H as (o & c & -> & _). split; [left; exact Logic.I|discriminate].
  - assert (C : const_ok w).
    { pose proof (comp_choices_ok sh k) as [C D]. rewrite Forall_forall in C, D. destruct I; auto. }
    destruct C as [->|[[s ->]| ->]]; (split; [left; exact Logic.I|discriminate]).
Qed.
Lemma angle_rejected ho sh k w n : valid_order ho -> is_angle_value w -> validate (ho_set ho) (comp_choices sh k) n w = Err ValueError.
Proof.
  intros V (u & -> & U).
  assert (F : first_valid (ch_validators (comp_choices sh k)) n (VUnit u) = Ok None).
  { destruct sh, k; cbn [comp_choices ch_validators first_valid BORDER_WIDTH_CHOICES BORDER_STYLE_CHOICES BORDER_COLOR_CHOICES OUTLINE_WIDTH_CHOICES OUTLINE_STYLE_CHOICES OUTLINE_COLOR_CHOICES run_validator];
      unfold units, units_in; rewrite ?U; reflexivity. }
  unfold validate. rewrite F. cbn [bindr py_eqb]. cbv zeta. pose proof (comp_choices_ok sh k) as [C D].
  assert (NC : ~ const_ok (VUnit u)) by (intros [X|[[s X]|X]]; discriminate).
  destruct (find_const (VUnit u) (ho_set ho _)) as [x|] eqn:X.
  { apply find_const_some in X; [|eapply Permutation_Forall; [apply V|exact C]]. destruct X as [_ X]. destruct NC.
    rewrite Forall_forall in C. apply C. eapply Permutation_in; [apply Permutation_sym, V|exact X]. }
  destruct (find_const (VUnit u) (ch_defaulting _)) as [x|] eqn:Y; [|reflexivity].
  apply find_const_some in Y; [|exact D]. destruct NC. rewrite Forall_forall in D. apply D, Y.
Qed.

Definition step (ho : hash_order) (d : parts) (kp : comp * prop) : cm unit :=
  match d (fst kp) with Some w => set_ld ho (snd kp) w | None => del_ld (snd kp) end.
Lemma keys_long sh k q : In (k, q) (valid_keys sh) -> (exists l, q = Long l /\ component sh k = [l]) \/
  (exists e, q = Dir e /\ component sh k = map (dir_side e) sides).
Proof. destruct sh; cbn; intros H; repeat destruct H as [H|H]; try contradiction; injection H as <- <-; eauto. Qed.
Lemma set_dir_plain ho e w : (forall l, w <> VTuple l) -> set_dir ho e w = set_sides ho e w w w w.
Proof. intros N. destruct w; try reflexivity. destruct (N l eq_refl). Qed.

Section Short.
Variable ho : hash_order.
Hypothesis V : valid_order ho.
Variable sh : shorthand.

Lemma took_validated l k i v w j c : In l (component sh k) -> validate (ho_set ho) (comp_choices sh k) i v = Ok (w, j) -> reassignable w ->
  took ho c l w -> took ho c l v.
Proof.
  intros I W R (m & w2 & m' & W2 & S). rewrite (comp_choices_long _ _ _ I) in W.
  rewrite (validate_again ho l i v w j V W R m) in W2. injection W2 as <- <-. exists i, w, j. auto.
Qed.
Lemma set_ld_fail_angle q k w c n : In (k, q) (valid_keys sh) -> is_angle_value w -> set_ld ho q w c n = (c, n, Err ValueError).
Proof.
  intros I A. assert (N : forall l, w <> VTuple l) by (destruct A as (u & -> & _); discriminate).
  destruct (keys_long _ _ _ I) as [(l & -> & E)|(e & -> & E)]; cbn [set_ld].
  - rewrite set_long_eq, <- (comp_choices_long sh k l) by (rewrite E; cbn; auto). rewrite (angle_rejected _ _ _ _ _ V A). reflexivity.
  - rewrite (set_dir_plain _ _ _ N). unfold set_sides, bind at 1.
    rewrite set_long_eq, <- (comp_choices_long sh k (dir_side e STop)) by (rewrite E; cbn; auto). rewrite (angle_rejected _ _ _ _ _ V A). reflexivity.
Qed.
Lemma step_ok d k q c n c' n' : In (k, q) (valid_keys sh) ->
  (forall w, d k = Some w -> exists i v j, validate (ho_set ho) (comp_choices sh k) i v = Ok (w, j)) ->
  step ho d (k, q) c n = (c', n', Ok tt) ->
  (d k = None -> forall l, In l (component sh k) -> c_store c' l = None)
  /\ (forall w i v j l, d k = Some w -> validate (ho_set ho) (comp_choices sh k) i v = Ok (w, j) -> In l (component sh k) -> took ho c' l v)
  /\ (forall l, ~ In l (component sh k) -> c_store c' l = c_store c l).
Proof.
  intros I D H. unfold step in H. cbn [fst snd] in H. destruct (d k) as [w|] eqn:Dk.
  - destruct (D w eq_refl) as (i & v & j & W). destruct (comp_value _ _ _ _ _ _ _ V W) as [[R|[_ A]] N];
      [|rewrite (set_ld_fail_angle _ k _ _ _ I A) in H; discriminate].
    assert (K : (forall l, In l (component sh k) -> took ho c' l w) /\ (forall l, ~ In l (component sh k) -> c_store c' l = c_store c l)).
    { destruct (keys_long _ _ _ I) as [(l & -> & E)|(e & -> & E)]; cbn [set_ld] in H; rewrite E.
      - split.
        + intros l0 [<-|[]]. apply (set_long_took _ _ _ _ _ _ _ V H).
        + intros l0 N0. apply (set_long_other _ _ _ _ _ _ _ _ _ H). intros ->. apply N0. cbn. auto.
      - rewrite (set_dir_plain _ _ _ N) in H. apply (set_sides_ok _ _ _ _ _ _ _ _ _ _ V) in H. destruct H as [H1 H2]. split.
        + intros l0 I0. apply in_map_iff in I0. destruct I0 as (s & <- & _). specialize (H1 s). destruct s; exact H1.
        + intros l0 N0. apply H2. intros s ->. apply N0. apply in_map. destruct s; cbn; auto. }
    destruct K as [K1 K2]. split; [discriminate|]. split; [|exact K2].
    intros w' i' v' j' l Q W' Il. injection Q as <-. apply (took_validated l k i' v' w j' c' Il W' R), K1, Il.
  - assert (NS : forall s, q <> Short s) by (destruct (keys_long _ _ _ I) as [(l & -> & _)|(e & -> & _)]; discriminate).
    assert (K : forall x, c_store c' x = if existsb (lh_eqb x) (component sh k) then None else c_store c x).
    { destruct (keys_long _ _ _ I) as [(l & -> & E)|(e & -> & E)]; cbn [del_ld] in H; rewrite E.
      - intros x. pose proof (del_long_store l c n x) as S. rewrite H in S. cbn [fst] in S. rewrite S. cbn [existsb]. rewrite orb_false_r. reflexivity.
      - intros x. unfold del_dir, sides in H. cbn [each] in H. unfold bind in H.
        destruct (del_long_ok (dir_side e STop) c n) as [c1 E1]. rewrite E1 in H.
        destruct (del_long_ok (dir_side e SRight) c1 n) as [c2 E2]. rewrite E2 in H.
        destruct (del_long_ok (dir_side e SBottom) c2 n) as [c3 E3]. rewrite E3 in H.
        destruct (del_long_ok (dir_side e SLeft) c3 n) as [c4 E4]. rewrite E4 in H. cbn [ret] in H. injection H as <- _.
        pose proof (del_long_store (dir_side e STop) c n x) as S1. rewrite E1 in S1.
        pose proof (del_long_store (dir_side e SRight) c1 n x) as S2. rewrite E2 in S2.
        pose proof (del_long_store (dir_side e SBottom) c2 n x) as S3. rewrite E3 in S3.
        pose proof (del_long_store (dir_side e SLeft) c3 n x) as S4. rewrite E4 in S4. cbn [fst] in *.
        rewrite S4, S3, S2, S1. cbn [map sides existsb]. repeat destruct (lh_eqb x _); reflexivity. }
    assert (M : forall x, existsb (lh_eqb x) (component sh k) = true <-> In x (component sh k)).
    { intros x. rewrite existsb_exists. split; [intros (y & Y & Q); apply lh_eqb_eq in Q; congruence|]. intros Ix. exists x. split; [exact Ix|apply lh_eqb_refl]. }
    split; [|split; [discriminate|]].
    + intros _ l Il. rewrite K. apply M in Il. rewrite Il. reflexivity.
    + intros l Nl. rewrite K. destruct (existsb _ _) eqn:X; [apply M in X; tauto|reflexivity].
Qed.
Lemma step_accepts d k q c n : In (k, q) (valid_keys sh) -> has_layout c ->
  (forall w, d k = Some w -> reassignable w /\ exists i v j, validate (ho_set ho) (comp_choices sh k) i v = Ok (w, j)) ->
  exists c' n', step ho d (k, q) c n = (c', n', Ok tt) /\ has_layout c'.
Proof.
  intros I L D. unfold step. cbn [fst snd]. destruct (d k) as [w|] eqn:Dk.
  - destruct (D w eq_refl) as (R & i & v & j & W). destruct (comp_value _ _ _ _ _ _ _ V W) as [_ N].
    destruct (keys_long _ _ _ I) as [(l & -> & E)|(e & -> & E)]; cbn [set_ld].
    + assert (Il : In l (component sh k)) by (rewrite E; cbn; auto). rewrite (comp_choices_long _ _ _ Il) in W.
      destruct (set_long_accepts ho l w c n w n L) as (c' & S & L'); [apply (validate_again ho l i v w j V W R)|]. eauto.
    + rewrite (set_dir_plain _ _ _ N). apply set_sides_accepts; [exact L|]. intros s. exists w, 0%nat.
      assert (Il : In (dir_side e s) (component sh k)) by (rewrite E; apply in_map; destruct s; cbn; auto). rewrite (comp_choices_long _ _ _ Il) in W.
      replace (sides_value w w w w s) with w by (destruct s; reflexivity). apply (validate_again ho _ i v w j V W R).
  - destruct (keys_long _ _ _ I) as [(l & -> & E)|(e & -> & E)]; cbn [del_ld].
    + destruct (del_long_ok l c n) as [c' E']. exists c', n. split; [exact E'|]. pose proof (del_long_layout l c n L) as L'. rewrite E' in L'. exact L'.
    + unfold del_dir, sides. cbn [each]. unfold bind.
      destruct (del_long_ok (dir_side e STop) c n) as [c1 E1]. pose proof (del_long_layout (dir_side e STop) c n L) as L1. rewrite E1 in *. cbn [fst] in L1.
      destruct (del_long_ok (dir_side e SRight) c1 n) as [c2 E2]. pose proof (del_long_layout (dir_side e SRight) c1 n L1) as L2. rewrite E2 in *. cbn [fst] in L2.
      destruct (del_long_ok (dir_side e SBottom) c2 n) as [c3 E3]. pose proof (del_long_layout (dir_side e SBottom) c2 n L2) as L3. rewrite E3 in *. cbn [fst] in L3.
      destruct (del_long_ok (dir_side e SLeft) c3 n) as [c4 E4]. pose proof (del_long_layout (dir_side e SLeft) c3 n L3) as L4. rewrite E4 in *. cbn [fst] in L4.
      exists c4, n. auto.
Qed.

Lemma set_short_step v c n : set_short ho sh v c n =
  match parse_shorthand (ho_set ho) (table_of sh) n v with
  | Err e => (c, n, Err (if is_value_error e then ValueError else e))
  | Ok (d, n') => (each (step ho d) (valid_keys sh) ;;c dirty) c n'
  end.
Proof. reflexivity. Qed.

Lemma valid_keys_three : exists k1 q1 k2 q2 k3 q3, valid_keys sh = [(k1, q1); (k2, q2); (k3, q3)]
  /\ NoDup [k1; k2; k3] /\ (forall k, In k [k1; k2; k3]).
Proof.
  destruct sh; cbn [valid_keys]; do 6 eexists; (split; [reflexivity|]); (split; [repeat constructor; cbn; intuition discriminate|]); intros []; cbn; auto.
Qed.
Lemma component_disjoint k k' l : In l (component sh k) -> In l (component sh k') -> k = k'.
Proof.
  destruct sh, k, k'; cbn; intros H1 H2; try reflexivity; repeat destruct H1 as [<-|H1]; try destruct H1; repeat destruct H2 as [H2|H2]; try discriminate H2; try destruct H2.
Qed.

(** a successful assignment: every part is taken by one component, the others are reset *)
Lemma set_short_ok v c n c' n' : set_short ho sh v c n = (c', n', Ok tt) ->
  exists l asg, shorthand_values v = Ok l /\ NoDup asg /\ (List.length l <= 3)%nat
    /\ Forall2 (fun k x => forall q, In q (component sh k) -> took ho c' q x) asg l
    /\ (forall k q, ~ In k asg -> In q (component sh k) -> c_store c' q = None)
    /\ (forall q, (forall k, ~ In q (component sh k)) -> c_store c' q = c_store c q).
Proof.
  rewrite set_short_step. unfold parse_shorthand. destruct (shorthand_values v) as [l|]; cbn [bindr]; [|discriminate].
  destruct (parse_parts (ho_set ho) (table_of sh) 3 n no_parts l) as [[d n1]|] eqn:P; [|discriminate]. intros H.
  destruct (parse_parts_assign _ V _ _ _ _ _ _ _ P) as (asg & F & ND & O & Le). exists l, asg.
  split; [reflexivity|]. split; [exact ND|]. split; [exact Le|].
  assert (D : forall k w, d k = Some w -> exists i v j, validate (ho_set ho) (comp_choices sh k) i v = Ok (w, j)).
  { intros k w Dk. assert (I : In k asg).
    { destruct (in_dec (fun a b : comp => ltac:(decide equality) : {a = b} + {a <> b}) k asg) as [|X]; [assumption|]. rewrite (O k X) in Dk. discriminate. }
    clear -F I Dk. induction F as [|j x asg l X F IHf]; [destruct I|]. destruct I as [->|I]; [|auto].
    destruct X as (w' & i' & j' & X1 & X2 & _). rewrite X2 in Dk. injection Dk as ->. eauto. }
  destruct valid_keys_three as (k1 & q1 & k2 & q2 & k3 & q3 & E & NK & AK). rewrite E in H. cbn [each] in H. unfold bind in H.
  assert (I1 : In (k1, q1) (valid_keys sh)) by (rewrite E; cbn; auto). assert (I2 : In (k2, q2) (valid_keys sh)) by (rewrite E; cbn; auto).
  assert (I3 : In (k3, q3) (valid_keys sh)) by (rewrite E; cbn; auto).
  destruct (step ho d (k1, q1) c n1) as [[c1 m1] [[]|]] eqn:E1; [|discriminate].
  destruct (step ho d (k2, q2) c1 m1) as [[c2 m2] [[]|]] eqn:E2; [|discriminate].
  destruct (step ho d (k3, q3) c2 m2) as [[c3 m3] [[]|]] eqn:E3; [|discriminate]. cbn [ret] in H.
  assert (S : c_store c' = c_store c3).
  { unfold dirty in H. pose proof (mark_dirty_store c3) as M. destruct (mark_dirty c3). injection H as <- _ _. exact M. }
  destruct (step_ok _ _ _ _ _ _ _ I1 (D k1) E1) as (A1 & B1 & C1), (step_ok _ _ _ _ _ _ _ I2 (D k2) E2) as (A2 & B2 & C2), (step_ok _ _ _ _ _ _ _ I3 (D k3) E3) as (A3 & B3 & C3).
  assert (Q : forall k q, In q (component sh k) -> c_store c' q = c_store (if comp_eqb k k1 then c1 else if comp_eqb k k2 then c2 else c3) q).
  { intros k q Iq. rewrite S.
    assert (X : forall j, k <> j -> ~ In q (component sh j)) by (intros j N Ij; apply N; eapply component_disjoint; eassumption).
    destruct (comp_eqb k k1) eqn:Q1.
    - assert (k = k1) as -> by (destruct k, k1; congruence || discriminate). rewrite C3, C2; [reflexivity|apply X|apply X]; intros Y; rewrite Y in NK; inversion NK; cbn in *; tauto.
    - destruct (comp_eqb k k2) eqn:Q2; [|reflexivity].
      assert (k = k2) as -> by (destruct k, k2; congruence || discriminate). rewrite C3; [reflexivity|apply X]. intros Y; rewrite Y in NK; inversion NK; inversion H3; cbn in *; tauto. }
  assert (G : forall k q, In q (component sh k) -> (d k = None -> c_store c' q = None) /\
            (forall w i x j, d k = Some w -> validate (ho_set ho) (comp_choices sh k) i x = Ok (w, j) -> took ho c' q x)).
  { intros k q Iq. pose proof (Q k q Iq) as Qk. destruct (AK k) as [<-|[<-|[<-|[]]]].
    - rewrite comp_eqb_refl in Qk. split; [intros Z; rewrite Qk; auto|]. intros. eapply took_store; [symmetry; exact Qk|]. eapply B1; eassumption.
    - rewrite comp_eqb_neq in Qk by (intros ->; inversion NK; cbn in *; tauto). rewrite comp_eqb_refl in Qk. split; [intros Z; rewrite Qk; auto|]. intros. eapply took_store; [symmetry; exact Qk|]. eapply B2; eassumption.
    - rewrite S. split; [intros Z; auto|]. intros. apply (took_store ho c3); [rewrite S; reflexivity|]. eapply B3; eassumption. }
  split; [|split].
  - clear -F G. induction F as [|j x asg l X F IHf]; constructor; [|exact IHf]. destruct X as (w & i & j' & X1 & X2 & _). intros q Iq.
    eapply (G j q Iq); eassumption.
  - intros k q Nk Iq. apply (G k q Iq). rewrite (O k Nk). reflexivity.
  - intros q Nq. rewrite S, C3, C2, C1; auto.
Qed.

Lemma validated_parts l n d n1 : parse_parts (ho_set ho) (table_of sh) 3 n no_parts l = Ok (d, n1) ->
  forall k w, d k = Some w -> exists i v j, validate (ho_set ho) (comp_choices sh k) i v = Ok (w, j).
Proof.
  intros P k w Dk. destruct (parse_parts_assign _ V _ _ _ _ _ _ _ P) as (asg & F & _ & O & _).
  assert (I : In k asg).
  { destruct (in_dec (fun a b : comp => ltac:(decide equality) : {a = b} + {a <> b}) k asg) as [|X]; [assumption|]. rewrite (O k X) in Dk. discriminate. }
  clear -F I Dk. induction F as [|j x asg l X F IHf]; [destruct I|]. destruct I as [->|I]; [|auto].
  destruct X as (w' & i' & j' & X1 & X2 & _). rewrite X2 in Dk. injection Dk as ->. eauto.
Qed.
(** no angle width: once parsed, the assignment succeeds *)
Lemma set_short_accepts c d n1 : has_layout c -> (forall k w, d k = Some w -> reassignable w /\ exists i v j, validate (ho_set ho) (comp_choices sh k) i v = Ok (w, j)) ->
  exists c' n', (each (step ho d) (valid_keys sh) ;;c dirty) c n1 = (c', n', Ok tt).
Proof.
  intros L D. destruct valid_keys_three as (k1 & q1 & k2 & q2 & k3 & q3 & E & NK & AK).
  assert (I1 : In (k1, q1) (valid_keys sh)) by (rewrite E; cbn; auto). assert (I2 : In (k2, q2) (valid_keys sh)) by (rewrite E; cbn; auto).
  assert (I3 : In (k3, q3) (valid_keys sh)) by (rewrite E; cbn; auto). rewrite E. cbn [each]. unfold bind.
  destruct (step_accepts d k1 q1 c n1 I1 L (D k1)) as (c1 & m1 & E1 & L1). rewrite E1.
  destruct (step_accepts d k2 q2 c1 m1 I2 L1 (D k2)) as (c2 & m2 & E2 & L2). rewrite E2.
  destruct (step_accepts d k3 q3 c2 m2 I3 L2 (D k3)) as (c3 & m3 & E3 & L3). rewrite E3. cbn [ret]. unfold dirty.
  pose proof (mark_dirty_ok c3 L3) as M. destruct (mark_dirty c3) as [c4 r]. cbn in M. subst r. eauto.
Qed.
(** where the width comes first, a failing assignment changes nothing *)
Lemma set_short_atomic v c n c' n' e : sh <> S_outline -> has_layout c -> set_short ho sh v c n = (c', n', Err e) -> c' = c.
Proof.
  intros NO L. rewrite set_short_step. unfold parse_shorthand. destruct (shorthand_values v) as [l|]; cbn [bindr]; [|intros H; injection H as <- _ _; reflexivity].
  destruct (parse_parts (ho_set ho) (table_of sh) 3 n no_parts l) as [[d n1]|] eqn:P; [|intros H; injection H as <- _ _; reflexivity].
  pose proof (validated_parts _ _ _ _ P) as D.
  destruct (d CWidth) as [w|] eqn:W.
  - destruct (D CWidth w W) as (i & x & j & X). destruct (comp_value _ _ _ _ _ _ _ V X) as [[R|[_ A]] _].
    + destruct (set_short_accepts c d n1 L) as (c2 & n2 & E2); [|rewrite E2; discriminate].
      intros k y Dk. destruct (D k y Dk) as (i' & x' & j' & X'). split; [|eauto].
      destruct (comp_value _ _ _ _ _ _ _ V X') as [[R'|[-> A']] _]; [exact R'|]. rewrite W in Dk. injection Dk as <-. exact R.
    + assert (H1 : exists q r, valid_keys sh = (CWidth, q) :: r) by (destruct sh; cbn; eauto; congruence).
      destruct H1 as (q & r & H1). rewrite H1. cbn [each]. unfold bind at 1. unfold bind at 1. unfold step at 1. cbn [fst snd]. rewrite W.
      rewrite (set_ld_fail_angle q CWidth w c n1) by (try rewrite H1; cbn; auto). intros H. injection H as <- _ _. reflexivity.
  - destruct (set_short_accepts c d n1 L) as (c2 & n2 & E2); [|rewrite E2; discriminate].
    intros k y Dk. destruct (D k y Dk) as (i' & x' & j' & X'). split; [|eauto].
    destruct (comp_value _ _ _ _ _ _ _ V X') as [[R'|[-> A']] _]; [exact R'|]. rewrite W in Dk. discriminate.
Qed.
(** the order of the parts does not matter *)
Lemma set_short_perm v v' l l' c n c' n' : shorthand_values v = Ok l -> shorthand_values v' = Ok l' -> Permutation l l' ->
  set_short ho sh v c n = (c', n', Ok tt) -> set_short ho sh v' c n = (c', n', Ok tt).
Proof.
  intros S S' P. rewrite !set_short_step. unfold parse_shorthand. rewrite S, S'. cbn [bindr].
  destruct (parse_parts (ho_set ho) (table_of sh) 3 n no_parts l) as [[d n1]|] eqn:E; [|discriminate].
  destruct (parse_parts_perm ho V sh l l' P _ _ _ _ _ E) as (d' & -> & Q). intros H. rewrite <- H.
  apply bind_ext; [|reflexivity]. apply each_ext. intros [k q] _ a m. unfold step. cbn [fst snd]. rewrite (Q k). reflexivity.
Qed.
End Short.
