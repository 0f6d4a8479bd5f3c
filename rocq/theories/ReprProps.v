(** * C148, C149: repr and hash of values *)
From Coq Require Import ZArith QArith Qcanon Bool String Ascii List Permutation Lia.
From Verif Require Import PyNum NumFacts Units Float64 PyStr StrFacts TextFacts Colors Values Parser Choices Shorthand Decl DeclSpec DeclFacts DeclNorm DeclProps2
  ParseSpec ParserSpec AcceptSpec AcceptProps Wrappers Text TextSpec TextProps IntText Classes ClassSpec ClassProps Repr ReprSpec.
Import ListNotations.
Open Scope string_scope.
Open Scope Z_scope.

(** ** C148 *)
Lemma show_int z : show_Z z = int_text z.
Proof. apply show_Z_text. Qed.
Lemma inner_brackets ts : inner 1 (bracketed ts) = join ", " ts.
Proof. unfold inner, bracketed. rewrite <- app_assoc_s. change (drop 1 (drop_end (String.length "]") (("[" ++ join ", " ts) ++ "]")) = join ", " ts). rewrite drop_end_app. reflexivity. Qed.
Lemma whole_or_not q : (exists z, q = Z2Qc z) \/ (forall z, q <> Z2Qc z).
Proof.
  destruct (qc_eqb q (Z2Qc (trunc_q (this q)))) eqn:E.
  - left. eexists. apply Qc_eq_bool_correct, E.
  - right. intros z ->. revert E. rewrite trunc_q_Z. destruct (qc_eqb_spec (Z2Qc z) (Z2Qc z)); congruence.
Qed.
Lemma length_str_spec show u t : length_str show u = Ok t <-> length_written show u t.
Proof.
  unfold length_str, unit_str. split.
  - destruct (pval (u_val u)) as [q| |] eqn:E; cbn [xtrunc bindr]; try discriminate. intros H. injection H as <-.
    destruct (qc_eqb_spec q (Z2Qc (trunc_q (this q)))) as [W|W].
    + rewrite show_int. apply length_whole. rewrite E, <- W. reflexivity.
    + apply length_fraction; [exact E|]. intros z ->. apply W. rewrite trunc_q_Z. reflexivity.
  - intros [v z E|v q E N]; rewrite E; cbn [xtrunc bindr].
    + rewrite trunc_q_Z. destruct (qc_eqb_spec (Z2Qc z) (Z2Qc z)); [rewrite show_int; reflexivity|congruence].
    + destruct (qc_eqb_spec q (Z2Qc (trunc_q (this q)))) as [W|W]; [destruct (N _ W)|reflexivity].
Qed.
Lemma applied_4 f a b c d : applied f [a; b; c; d] = f ++ "(" ++ a ++ ", " ++ b ++ ", " ++ c ++ ", " ++ d ++ ")".
Proof. unfold applied. cbn [String.concat]. rewrite !app_assoc_s. reflexivity. Qed.
Lemma applied_2 f a b : applied f [a; b] = f ++ "(" ++ a ++ ", " ++ b ++ ")".
Proof. unfold applied. cbn [String.concat]. rewrite !app_assoc_s. reflexivity. Qed.
Lemma uri_applied o x : uri_str (VUri o x) = Ok (applied "url" [q2 ++ x ++ q2]).
Proof. unfold applied. cbn [String.concat uri_str]. rewrite !app_assoc_s. reflexivity. Qed.
Lemma color_applied show c : color_str show c = match c with
  | Rgb r g b a => applied "rgba" (map (number_written show) [r; g; b; a])
  | Hsl h s l a => applied "hsla" (map (number_written show) [h; s; l; a])
  end.
Proof.
  assert (N : forall m, number_written show m = num_str show m) by (intros [z|x]; cbn [number_written num_str]; [symmetry; apply show_int|reflexivity]).
  destruct c; cbn [map]; rewrite applied_4, !N; reflexivity.
Qed.
Lemma color_str_spec show obj o c t : written show obj (VColor o c) t <-> t = color_str show c.
Proof. rewrite color_applied. split; [intros H; inversion H; reflexivity|intros ->; destruct c; constructor]. Qed.
Lemma repr_all_spec (f : pyval -> res string) (W : pyval -> string -> Prop) l :
  Forall (fun v => forall t, f v = Ok t <-> W v t) l -> forall ts, repr_all f l = Ok ts <-> Forall2 W l ts.
Proof.
  induction 1 as [|v l E F IH]; intros ts; cbn [repr_all].
  - split; [intros H; injection H as <-; constructor|intros H; inversion H; reflexivity].
  - split.
    + destruct (f v) as [t|] eqn:X; cbn [bindr]; [|discriminate]. destruct (repr_all f l) as [us|] eqn:Y; cbn [bindr]; [|discriminate].
      intros H. injection H as <-. constructor; [apply E; first [exact X|reflexivity]|apply IH; first [exact Y|reflexivity]].
    + intros H. inversion H as [|? t ? us A B]; subst. apply E in A. apply IH in B. rewrite A. cbn [bindr]. change (us' <-r repr_all f l ;; Ok (t :: us') = Ok (t :: us)). rewrite B. reflexivity.
Qed.
Lemma repr_all_length f l ts : repr_all f l = Ok ts -> List.length l = List.length ts.
Proof.
  revert ts. induction l as [|v l IH]; intros ts; cbn [repr_all]; [intros H; injection H as <-; reflexivity|].
  destruct (f v); cbn [bindr]; [|discriminate]. destruct (repr_all f l) eqn:Y; cbn [bindr]; [|discriminate]. intros H. injection H as <-. cbn. f_equal. apply IH. reflexivity.
Qed.
Lemma join_concat s l : join s l = String.concat s l.
Proof. reflexivity. Qed.
Ltac ok_injs := repeat match goal with
  | H : Ok _ = Ok _ |- _ => injection H as <-
  | H : bindr ?x _ = Ok _ |- _ => let E := fresh "E" in destruct x eqn:E; cbn [bindr] in H; [|discriminate H]
  end.
Ltac rew_lengths := repeat match goal with H : length_written _ _ _ |- _ => apply length_str_spec in H end.
(** *** Python's way of writing a string *)
Lemma glyph_printable c : printable c = true <-> has_glyph c.
Proof.
  unfold printable, has_glyph, PyStr.in_range, code. cbv zeta. pose proof (N_ascii_bounded c) as B. lia.
Qed.
Lemma code_nat c : code c = Z.of_nat (nat_of_ascii c).
Proof. unfold code, nat_of_ascii. lia. Qed.
Lemma code_is c d : code c = code d -> c = d.
Proof. unfold code. intros H. rewrite <- (ascii_N_embedding c), <- (ascii_N_embedding d). f_equal. lia. Qed.
Lemma hex_get k x : String.get k "0123456789abcdef" = Some x <-> (k < 16)%nat /\ x = hex_char (Z.of_nat k).
Proof.
  split.
  - do 16 (destruct k as [|k]; [cbn; intros H; injection H as <-; split; [lia|reflexivity]|]). discriminate.
  - intros [H ->]. do 16 (destruct k as [|k]; [reflexivity|]). lia.
Qed.
Lemma escape_spec q c t : q = squote \/ q = dquote -> (escaped q c t <-> t = repr_char q c).
Proof.
  intros Q. unfold repr_char. split.
  - intros E. destruct E as [c M| | | |c G NQ NB|c i j x y G NI C X Y].
    + destruct M as [-> | ->]; rewrite ?Ascii.eqb_refl; cbn [orb]; [reflexivity|]. destruct Q as [-> | ->]; reflexivity.
    + destruct Q as [-> | ->]; reflexivity.
    + destruct Q as [-> | ->]; reflexivity.
    + destruct Q as [-> | ->]; reflexivity.
    + apply glyph_printable in G. rewrite (proj2 (Ascii.eqb_neq c q) NQ), (proj2 (Ascii.eqb_neq c backslash) NB). cbn [orb].
      destruct (code c =? 9) eqn:A; [unfold printable, PyStr.in_range in G; lia|].
      destruct (code c =? 10) eqn:B; [unfold printable, PyStr.in_range in G; lia|].
      destruct (code c =? 13) eqn:D; [unfold printable, PyStr.in_range in G; lia|]. rewrite G. reflexivity.
    + rewrite <- glyph_printable in G. apply not_true_is_false in G.
      assert (NQ : Ascii.eqb c q = false) by (apply Ascii.eqb_neq; intros ->; destruct Q as [-> | ->]; discriminate G).
      assert (NB : Ascii.eqb c backslash = false) by (apply Ascii.eqb_neq; intros ->; discriminate G). rewrite NQ, NB. cbn [orb].
      assert (N9 : code c =? 9 = false) by (apply Z.eqb_neq; intros H; apply NI; left; apply code_is; symmetry; exact H).
      assert (N10 : code c =? 10 = false) by (apply Z.eqb_neq; intros H; apply NI; right; left; apply code_is; symmetry; exact H).
      assert (N13 : code c =? 13 = false) by (apply Z.eqb_neq; intros H; apply NI; right; right; left; apply code_is; symmetry; exact H).
      rewrite N9, N10, N13, G. apply hex_get in X, Y. destruct X as [I ->], Y as [J ->].
      rewrite code_nat, C.
      rewrite <- (Z.div_unique (Z.of_nat (16 * i + j)) 16 (Z.of_nat i) (Z.of_nat j)) by lia. rewrite <- (Z.mod_unique (Z.of_nat (16 * i + j)) 16 (Z.of_nat i) (Z.of_nat j)) by lia. reflexivity.
  - intros ->. destruct (Ascii.eqb c q || Ascii.eqb c backslash) eqn:M.
    { apply orb_true_iff in M. rewrite !Ascii.eqb_eq in M. apply (escaped_mark q c). exact M. }
    apply orb_false_iff in M. rewrite !Ascii.eqb_neq in M. destruct M as [NQ NB].
    destruct (code c =? 9) eqn:N9; [apply Z.eqb_eq in N9; rewrite (code_is c "009" N9); constructor|].
    destruct (code c =? 10) eqn:N10; [apply Z.eqb_eq in N10; rewrite (code_is c "010" N10); constructor|].
    destruct (code c =? 13) eqn:N13; [apply Z.eqb_eq in N13; rewrite (code_is c "013" N13); constructor|].
    destruct (printable c) eqn:P; [apply escaped_not; [apply glyph_printable, P|exact NQ|exact NB]|].
    assert (B : 0 <= code c < 256) by (rewrite code_nat; pose proof (nat_ascii_bounded c); lia).
    apply (escaped_code q c (Z.to_nat (code c / 16)) (Z.to_nat (code c mod 16))).
    + rewrite <- glyph_printable, P. discriminate.
    + intros [H|[H|[H|[]]]]; subst c; discriminate.
    + rewrite code_nat in *. pose proof (Z.div_mod (Z.of_nat (nat_of_ascii c)) 16). pose proof (Z.mod_pos_bound (Z.of_nat (nat_of_ascii c)) 16). pose proof (Z.div_pos (Z.of_nat (nat_of_ascii c)) 16). lia.
    + apply hex_get. pose proof (Z.div_pos (code c) 16). assert (code c / 16 < 16) by (apply Z.div_lt_upper_bound; lia). rewrite Z2Nat.id by lia. split; [lia|reflexivity].
    + apply hex_get. pose proof (Z.mod_pos_bound (code c) 16). rewrite Z2Nat.id by lia. split; [lia|reflexivity].
Qed.
Lemma contains_in c s : contains c s = true <-> In c (list_ascii_of_string s).
Proof.
  unfold contains. rewrite existsb_exists. split; [intros (x & I & E); apply Ascii.eqb_eq in E; subst; exact I|]. intros I. exists c. split; [exact I|apply Ascii.eqb_refl].
Qed.
Lemma quote_spec s q : quoted_by s q <-> q = if contains squote s && negb (contains dquote s) then dquote else squote.
Proof.
  unfold quoted_by. pose proof (contains_in squote s) as A. pose proof (contains_in dquote s) as B. change q1 with squote. change q2c with dquote.
  destruct (contains squote s), (contains dquote s); cbn [andb negb]; intuition congruence.
Qed.
Lemma quoted_repr s t : quoted s t <-> t = repr_str s.
Proof.
  assert (Q : forall s', (if contains squote s' && negb (contains dquote s') then dquote else squote) = squote \/ (if contains squote s' && negb (contains dquote s') then dquote else squote) = dquote) by (intros s'; destruct (_ && _); auto).
  assert (B : forall q, q = squote \/ q = dquote -> forall r ts, Forall2 (escaped q) (list_ascii_of_string r) ts -> String.concat "" ts = repr_body q r).
  { intros q QQ r. induction r as [|c r IH]; cbn [list_ascii_of_string repr_body]; intros ts F; inversion F as [|? x ? xs F1 F2]; subst; [reflexivity|].
    apply (escape_spec q c x QQ) in F1. subst x. rewrite <- (IH xs F2). destruct xs; cbn [String.concat]; [rewrite app_nil_r_s; reflexivity|reflexivity]. }
  unfold quoted, repr_str. specialize (Q s). split.
  - intros (q & ts & QB & F & ->). apply quote_spec in QB. rewrite <- QB in *. rewrite (B q Q s ts F). reflexivity.
  - intros ->. exists (if contains squote s && negb (contains dquote s) then dquote else squote), (map (repr_char (if contains squote s && negb (contains dquote s) then dquote else squote)) (list_ascii_of_string s)).
    assert (F : Forall2 (escaped (if contains squote s && negb (contains dquote s) then dquote else squote)) (list_ascii_of_string s) (map (repr_char (if contains squote s && negb (contains dquote s) then dquote else squote)) (list_ascii_of_string s))).
    { induction (list_ascii_of_string s) as [|c l IH]; constructor; [apply escape_spec; [exact Q|reflexivity]|exact IH]. }
    split; [apply quote_spec; reflexivity|]. split; [exact F|]. rewrite (B _ Q s _ F). reflexivity.
Qed.

(** C148: the text of every value. *)
Theorem C148_repr : forall show obj v t, py_repr show obj v = Ok t <-> written show obj v t.
Proof.
  intros show obj v. induction v as [l H|l H|l H|v HT HL HC] using value_ind; intros t.
  - cbn [py_repr]. pose proof (repr_all_spec _ _ _ H) as A. split.
    + intros X. ok_injs. pose proof (repr_all_length _ _ _ E) as L. apply (repr_all_spec _ _ _ H) in E. destruct a as [|t [|u ts]].
      * destruct l; [|discriminate]. apply written_tuple; [discriminate|exact E].
      * destruct l as [|v [|? ?]]; try discriminate. inversion E; subst. constructor. assumption.
      * apply written_tuple; [rewrite L; discriminate|exact E].
    + intros X. inversion X; subst.
      * assert (E : repr_all (py_repr show obj) [v] = Ok [t0]) by (apply A; repeat constructor; assumption). rewrite E. reflexivity.
      * match goal with F : Forall2 _ l _ |- _ => apply A in F; rewrite F; cbn [bindr]; pose proof (repr_all_length _ _ _ F) end. unfold tuple_text.
        destruct ts as [|? [|? ?]]; try reflexivity. cbn in *. congruence.
  - cbn [py_repr]. pose proof (repr_all_spec _ _ _ H) as A. split.
    + intros X. ok_injs. apply (repr_all_spec _ _ _ H) in E. apply written_list. exact E.
    + intros X. inversion X; subst. match goal with F : Forall2 _ l _ |- _ => apply A in F; rewrite F end. reflexivity.
  - pose proof (repr_all_spec _ _ _ H) as A. destruct l as [|v l].
    { cbn [py_repr]. split; [intros X; ok_injs; constructor|]. intros X. inversion X; subst; [reflexivity|congruence]. }
    change (py_repr show obj (VCursor (v :: l))) with (ts <-r repr_all (py_repr show obj) (v :: l) ;; Ok ("Cursor([" ++ inner 1 (bracketed ts) ++ "])")). split.
    + intros X. ok_injs. apply (repr_all_spec _ _ _ H) in E. rewrite inner_brackets.
      assert (Q : written show obj (VCursor (v :: l)) (applied "Cursor" [listed a])) by (apply written_cursor; [discriminate|exact E]).
      unfold applied, listed in Q. cbn [String.concat] in Q. rewrite !app_assoc_s in Q. exact Q.
    + intros X. inversion X as [| | | | | | | | | | | | | | | |? ts N F| |]; subst. apply A in F. rewrite F. cbn [bindr]. rewrite inner_brackets. f_equal.
      unfold applied, listed. cbn [String.concat]. rewrite !app_assoc_s. reflexivity.
  - destruct v; try (destruct (HT _ eq_refl)); try (destruct (HL _ eq_refl)); try (destruct (HC _ eq_refl)); cbn [py_repr]; rewrite ?uri_applied, ?show_int.
    all: try (split; [intros X; ok_injs; constructor; fail|intros X; inversion X; reflexivity]).
    + split; [intros X; ok_injs; constructor; apply quoted_repr; reflexivity|]. intros X. inversion X as [| | |s' t' QS| | | | | | | | | | | | | | |]; subst. apply quoted_repr in QS. subst. reflexivity.
    + rewrite length_str_spec. split; [apply written_length|]. intros X. inversion X. assumption.
    + rewrite color_str_spec. split; [intros X; ok_injs; reflexivity|intros ->; reflexivity].
    + destruct vertical as [w|].
      * split.
        -- intros X. ok_injs. apply length_str_spec in E, E0. pose proof (written_spacing2 show obj o _ _ _ _ E E0) as Y. rewrite applied_2 in Y. exact Y.
        -- intros X. inversion X; subst. rew_lengths. repeat match goal with Z : length_str _ _ = _ |- _ => rewrite Z; clear Z; cbn [bindr] end. rewrite ?applied_2, ?applied_4. reflexivity.
      * split.
        -- intros X. ok_injs. apply length_str_spec in E. exact (written_spacing _ _ _ _ _ E).
        -- intros X. inversion X; subst. rew_lengths. repeat match goal with Z : length_str _ _ = _ |- _ => rewrite Z; clear Z; cbn [bindr] end. rewrite ?applied_2, ?applied_4. reflexivity.
    + unfold rect_str. change (unit_str (fun q => show (Fin q))) with (length_str show). split.
      * intros X. ok_injs. apply length_str_spec in E, E0, E1, E2.
        pose proof (written_rect show obj top right left bottom [a; a0; a1; a2] ltac:(repeat (constructor; [assumption|]); constructor)) as Y.
        rewrite applied_4 in Y. exact Y.
      * intros X. inversion X as [| | | | | | | | | | | |? ? ? ? ts F| | | | | |]; subst. repeat match goal with F : Forall2 _ (_ :: _) _ |- _ => inversion F; subst; clear F | F : Forall2 _ [] _ |- _ => inversion F; subst; clear F end.
        rew_lengths. repeat match goal with Z : length_str _ _ = _ |- _ => rewrite Z; clear Z; cbn [bindr] end. rewrite ?applied_2, ?applied_4. reflexivity.
    + assert (Q : forall ts, Forall2 (fun p t => exists a b, quoted (fst p) a /\ quoted (snd p) b /\ t = applied "" [a; b]) l ts <-> ts = map (fun p => tuple_text [repr_str (fst p); repr_str (snd p)]) l).
      { clear. induction l as [|p l IH]; intros ts; [split; [intros F; inversion F; reflexivity|intros ->; constructor]|]. cbn [map]. split.
        - intros F. inversion F as [|? ? ? xs (x & y & X & Y & ->) F2]; subst. apply quoted_repr in X, Y. subst. apply IH in F2. subst. reflexivity.
        - intros ->. constructor; [|apply IH; reflexivity]. exists (repr_str (fst p)), (repr_str (snd p)). split; [apply quoted_repr; reflexivity|]. split; [apply quoted_repr; reflexivity|reflexivity]. }
      split.
      * intros X. ok_injs. apply (written_quotes show obj l). apply Q. reflexivity.
      * intros X. inversion X as [| | | | | | | | | | | | |l' ts F| | | | |]; subst. apply Q in F. subst ts. reflexivity.
Qed.
Print Assumptions C148_repr.
(** *** which values have no text *)
Lemma bad_length show u e : length_str show u = Err e ->
  (e = OverflowError /\ exists b, pval (u_val u) = Inf b) \/ (e = ValueError /\ pval (u_val u) = Nan).
Proof. unfold length_str, unit_str. destruct (pval (u_val u)) as [q|b|]; cbn [xtrunc bindr]; intros H; try discriminate; injection H as <-; eauto. Qed.
Lemma written_finite show u t : length_written show u t -> finite (u_val u).
Proof. intros []; eexists; eassumption. Qed.
Lemma forall2_in {A B} (R : A -> B -> Prop) l m x : Forall2 R l m -> In x l -> exists y, R x y.
Proof. induction 1; intros []; [subst; eauto|auto]. Qed.
Lemma written_within show obj a v : within a v -> forall t, written show obj v t -> exists t', written show obj a t'.
Proof.
  induction 1 as [v|a v l I W IH|a v l I W IH|a v l I W IH]; intros t H; [eauto| | |].
  - inversion H; subst.
    + destruct I as [<- |[]]. eapply IH. eassumption.
    + match goal with F : Forall2 _ l _ |- _ => destruct (forall2_in _ _ _ _ F I) as [y Y]; exact (IH y Y) end.
  - inversion H; subst. match goal with F : Forall2 _ l _ |- _ => destruct (forall2_in _ _ _ _ F I) as [y Y]; exact (IH y Y) end.
  - inversion H; subst; [destruct I|]. match goal with F : Forall2 _ l _ |- _ => destruct (forall2_in _ _ _ _ F I) as [y Y]; exact (IH y Y) end.
Qed.
Lemma repr_all_err f l e : repr_all f l = Err e -> exists v, In v l /\ f v = Err e.
Proof.
  induction l as [|v l IH]; cbn [repr_all]; [discriminate|]. destruct (f v) as [t|] eqn:E; cbn [bindr].
  - destruct (repr_all f l) as [|e'] eqn:X; cbn [bindr]; [discriminate|]. intros H. destruct IH as (w & W & F); [exact H|]. exists w. split; [right; exact W|exact F].
  - intros H. injection H as ->. exists v. split; [left; reflexivity|exact E].
Qed.
Ltac err_bind H := repeat match type of H with
  | bindr ?x _ = Err _ => let E := fresh "E" in destruct x eqn:E; cbn [bindr] in H; [|injection H as ->]
  | Ok _ = Err _ => discriminate H
  end.
(** C148: repr raises exactly for values that contain an infinite length or NaN. *)
Theorem C148_raises : forall show obj v,
  (forall e, py_repr show obj v = Err e -> exists a u, within a v /\ length_of a u
     /\ ((e = OverflowError /\ exists b, pval (u_val u) = Inf b) \/ (e = ValueError /\ pval (u_val u) = Nan)))
  /\ ((exists a u, within a v /\ length_of a u /\ ~ finite (u_val u)) -> exists e, py_repr show obj v = Err e).
Proof.
  intros show obj v. split.
  - induction v as [l H|l H|l H|v HT HL HC] using value_ind; intros e.
    + cbn [py_repr]. intros X. err_bind X. destruct (repr_all_err _ _ _ E) as (v & I & F). rewrite Forall_forall in H.
      destruct (H v I e F) as (a & u & W & Q). exists a, u. split; [exact (within_tuple a v l I W)|exact Q].
    + cbn [py_repr]. intros X. err_bind X. destruct (repr_all_err _ _ _ E) as (v & I & F). rewrite Forall_forall in H.
      destruct (H v I e F) as (a & u & W & Q). exists a, u. split; [exact (within_list a v l I W)|exact Q].
    + destruct l as [|v0 l]; [discriminate|].
      change (py_repr show obj (VCursor (v0 :: l))) with (ts <-r repr_all (py_repr show obj) (v0 :: l) ;; Ok ("Cursor([" ++ inner 1 (bracketed ts) ++ "])")).
      intros X. err_bind X. destruct (repr_all_err _ _ _ E) as (v & I & F). rewrite Forall_forall in H.
      destruct (H v I e F) as (a & u & W & Q). exists a, u. split; [exact (within_cursor a v _ I W)|exact Q].
    + destruct v; try (destruct (HT _ eq_refl)); try (destruct (HL _ eq_refl)); try (destruct (HC _ eq_refl)); cbn [py_repr]; try discriminate; intros X.
      * exists (VUnit u), u. split; [constructor|]. split; [constructor|]. exact (bad_length _ _ _ X).
      * eexists. destruct vertical as [w|].
        -- err_bind X; eexists; (split; [constructor|]); (split; [|eapply bad_length; eassumption]); constructor.
        -- err_bind X. eexists; (split; [constructor|]); (split; [|eapply bad_length; eassumption]); constructor.
      * unfold rect_str in X. change (unit_str (fun q => show (Fin q))) with (length_str show) in X. eexists.
        err_bind X; eexists; (split; [constructor|]); (split; [|eapply bad_length; eassumption]); constructor; cbn; tauto.
  - intros (a & u & W & L & N). destruct (py_repr show obj v) as [t|e] eqn:E; [exfalso|eauto].
    apply C148_repr in E. destruct (written_within _ _ _ _ W _ E) as (t' & Q). apply N. destruct L as [u|o h w|o h w|x y z b u I].
    + inversion Q; subst. eapply written_finite. eassumption.
    + inversion Q; subst; eapply written_finite; eassumption.
    + inversion Q; subst; eapply written_finite; eassumption.
    + inversion Q; subst. match goal with F : Forall2 _ _ _ |- _ => destruct (forall2_in _ _ _ _ F I) as [s Y]; exact (written_finite _ _ _ Y) end.
Qed.
Print Assumptions C148_raises.
(** *** shorthand readings *)
Definition no_brace (c : ascii) : bool := negb (Ascii.eqb c "{") && negb (Ascii.eqb c "}").
Lemma no_brace_free s : all_chars no_brace s = true <-> brace_free s.
Proof.
  unfold brace_free. induction s as [|c s IH]; cbn [all_chars list_ascii_of_string In]; [tauto|]. rewrite andb_true_iff, IH. unfold no_brace.
  rewrite andb_true_iff, !negb_true_iff. destruct (Ascii.eqb_spec c "{"), (Ascii.eqb_spec c "}"); intuition congruence.
Qed.
Lemma format_plain show props s : all_chars no_brace s = true -> format_text show props None s = Ok s.
Proof.
  induction s as [|c s IH]; cbn [all_chars]; [reflexivity|]. intros H. apply andb_prop in H. destruct H as [C S]. unfold no_brace in C. apply andb_prop in C.
  destruct C as [A B]. apply negb_true_iff in A, B. cbn [format_text]. rewrite A, B, (IH S). reflexivity.
Qed.
Lemma digit_free c : is_digit c = true -> no_brace c = true.
Proof. revert c. by_chars (fun c => implb (is_digit c) (no_brace c)). intros H. rewrite H in X. exact X. Qed.
Lemma show_Z_free z : all_chars no_brace (int_text z) = true.
Proof.
  rewrite <- show_int. destruct (show_Z_signed z) as (ds & k & m & (_ & D & _) & [[-> _]|[-> _]]); [|cbn [all_chars]]; revert D; apply all_chars_impl, digit_free.
Qed.
Lemma free_app a b : all_chars no_brace a = true -> all_chars no_brace b = true -> all_chars no_brace (a ++ b) = true.
Proof. intros A B. rewrite all_chars_app, A, B. reflexivity. Qed.
Lemma free_concat ts : Forall (fun t => all_chars no_brace t = true) ts -> all_chars no_brace (String.concat ", " ts) = true.
Proof.
  induction 1 as [|t ts T F IH]; [reflexivity|]. cbn [String.concat]. destruct ts; [exact T|]. apply free_app; [exact T|]. apply free_app; [reflexivity|exact IH].
Qed.
Lemma applied_free f ts : all_chars no_brace f = true -> Forall (fun t => all_chars no_brace t = true) ts -> all_chars no_brace (applied f ts) = true.
Proof. intros A B. unfold applied. apply free_app; [exact A|]. apply free_app; [reflexivity|]. apply free_app; [apply free_concat, B|reflexivity]. Qed.
Section Parts.
Context (show : xq -> string) (obj : pyval -> string) (SF : forall x, brace_free (show x)).
Lemma float_free x : all_chars no_brace (show x) = true.
Proof. apply no_brace_free, SF. Qed.
Lemma number_free m : all_chars no_brace (number_written show m) = true.
Proof. destruct m; [apply show_Z_free|apply float_free]. Qed.
Lemma color_free c : all_chars no_brace (color_str show c) = true.
Proof. rewrite color_applied. destruct c; (apply applied_free; [reflexivity|]); repeat (constructor; [apply number_free|]); constructor. Qed.
Lemma units_free t k : In (t, k) css_units -> all_chars no_brace (suffix_of k) = true.
Proof. intros H. cbn in H. decompose [or] H; try contradiction; match goal with E : _ = _ |- _ => injection E as _ <- end; reflexivity. Qed.
Lemma length_free u t s : In (s, u_kind u) css_units -> length_written show u t -> all_chars no_brace t = true.
Proof. intros I H. inversion H; subst; (apply free_app; [first [apply show_Z_free|apply float_free]|exact (units_free _ _ I)]). Qed.
End Parts.
(** The values of the parts of a border side or outline. *)
Inductive part_value (p : longhand) : pyval -> Prop :=
| part_none : part_value p VNone
| part_word s : In s (keywords p) -> part_value p (VStr s)
| part_length u : part_value p (VUnit u)
| part_color o c : part_value p (VColor o c).
Lemma border_value ho c k sh l v : valid_order ho -> reachable ho c k -> In l (longhands_of (Short sh)) -> c_store c l = Some v -> part_value l v.
Proof.
  intros V R I S. destruct (stored_accepts ho c k l v V R S) as (v0 & m & m' & A). destruct A as [kd v0 w m' K T|s K N|K|K|D].
  - assert (Q : kd = LengthK \/ kd = ColorK).
    { destruct sh as [s| |]; [destruct s| |]; cbn in I; repeat match type of I with _ \/ _ => destruct I as [<- |I] end; try contradiction; cbn in K; try discriminate; injection K as <-; auto. }
    destruct Q as [-> | ->]; cbn [takes] in T.
    + destruct T as (u & _ & -> & _). constructor.
    + destruct (color_ok _ _ _ _ T) as (o & cc & -> & _). constructor.
  - constructor. exact K.
  - constructor.
  - constructor.
  - exfalso. destruct sh as [s| |]; [destruct s| |]; cbn in I; destruct D as [-> | ->]; intuition discriminate.
Qed.
Lemma keyword_free sh l s : In l (longhands_of (Short sh)) -> In s (keywords l) -> all_chars no_brace (repr_str s) = true.
Proof.
  intros I K. assert (F : forallb (fun l => forallb (fun s => all_chars no_brace (repr_str s)) (keywords l)) (longhands_of (Short sh)) = true).
  { destruct sh as [x| |]; [destruct x| |]; vm_compute; reflexivity. }
  rewrite forallb_forall in F. specialize (F l I). rewrite forallb_forall in F. exact (F s K).
Qed.
Lemma python_free sh l : In l (longhands_of (Short sh)) -> all_chars no_brace (python_name (Long l)) = true.
Proof.
  intros I. assert (F : forallb (fun l => all_chars no_brace (python_name (Long l))) (longhands_of (Short sh)) = true).
  { destruct sh as [x| |]; [destruct x| |]; vm_compute; reflexivity. }
  rewrite forallb_forall in F. exact (F l I).
Qed.
Lemma map_res_all {A} (f : A -> res string) (R : A -> string -> Prop) l :
  (forall x, In x l -> exists t, f x = Ok t /\ R x t) -> exists ts, map_res f l = Ok ts /\ Forall2 R l ts.
Proof.
  induction l as [|x l IH]; intros H; [exists []; split; [reflexivity|constructor]|]. destruct (H x (or_introl eq_refl)) as (t & E & T).
  destruct IH as (ts & F & G); [intros y Y; apply H; right; exact Y|]. exists (t :: ts). cbn [map_res]. rewrite E. cbn [bindr]. rewrite F. split; [reflexivity|constructor; assumption].
Qed.
(** C148: the text of what reading a border side or outline gives. *)
Theorem C148_shorthand : forall show obj ho c k sh w, valid_order ho -> reachable ho c k -> read_short c sh = Ok (Some w) ->
  library_units w -> (forall x, brace_free (show x)) -> (forall n u, In (n, VUnit u) (to_dict w) -> finite (u_val u)) ->
  exists ts, Forall2 (fun kv t => exists x, written show obj (snd kv) x /\ t = fst kv ++ "=" ++ x) (to_dict w) ts
    /\ wrapper_repr show obj w = Ok (applied (class_called sh) ts).
Proof.
  intros show obj ho c k sh w V R E LU SF FN. destruct (C120_read c sh) as (r & E' & Q). rewrite E in E'. injection E' as <-.
  destruct Q as (WC & _ & M & _).
  set (R' := fun (kv : string * pyval) t => (exists x, written show obj (snd kv) x /\ t = fst kv ++ "=" ++ x) /\ all_chars no_brace t = true).
  destruct (map_res_all (fun kv => t <-r py_repr show obj (snd kv) ;; Ok (fst kv ++ "=" ++ t)) R' (to_dict w)) as (ts & MR & F).
  { intros [n v] I. cbn [fst snd]. destruct (proj1 (M n v) I) as (NB & l & IL & -> & S). pose proof (border_value ho c k sh l v V R IL S) as P.
    assert (X : exists t, py_repr show obj v = Ok t /\ all_chars no_brace t = true).
    { destruct P as [|s K|u|o cc].
      - exists "None". auto.
      - exists (repr_str s). split; [reflexivity|]. exact (keyword_free sh l s IL K).
      - destruct (LU _ _ I) as (t & T). destruct (FN _ _ I) as [q Q]. destruct (py_repr show obj (VUnit u)) as [x|e] eqn:Y.
        + exists x. split; [reflexivity|]. apply C148_repr in Y. inversion Y; subst. eapply length_free; eassumption.
        + exfalso. destruct (bad_length _ _ _ Y) as [[_ [b B]]|[_ B]]; congruence.
      - exists (color_str show cc). split; [reflexivity|]. apply color_free, SF. }
    destruct X as (t & X & T). rewrite X. cbn [bindr]. eexists. split; [reflexivity|]. split.
    - exists t. split; [apply C148_repr, X|reflexivity].
    - cbn [fst]. apply free_app; [exact (python_free sh l IL)|]. apply free_app; [reflexivity|exact T]. }
  exists ts. split; [clear -F; induction F as [|x t l ts [A _] F IH]; constructor; assumption|].
  unfold wrapper_repr. rewrite MR. cbn [bindr]. rewrite WC. change (join ", " ts) with (String.concat ", " ts).
  change (class_name sh ++ "(" ++ String.concat ", " ts ++ ")") with (applied (class_name sh) ts). replace (class_name sh) with (class_called sh) by (destruct sh as [[]| |]; reflexivity).
  apply format_plain, applied_free; [destruct sh as [[]| |]; reflexivity|]. clear -F. induction F as [|x t l ts [_ T] F IH]; constructor; assumption.
Qed.
Print Assumptions C148_shorthand.
(** A declaration with parts of a border, and a text with a brace in an object
    made by hand: there the result is not the text of the parts, or an exception. *)
Definition bordered_css : css := fst (run_ops plain_order [
  OpSet (Long (L_border_width STop)) (VStr "2px"); OpSet (Long (L_border_style STop)) (VStr "solid"); OpSet (Long (L_border_color STop)) (VStr "#0af")] fresh_css first_free).
Definition braced_outline (s : string) : list (string * pyval) := [("outline_width", VUnit (mkU KPx (PI 1))); ("outline_style", VStr s)].
Example C148_example : (exists n, reachable plain_order bordered_css n)
  /\ (exists w, read_short bordered_css (S_border_side STop) = Ok (Some w) /\ library_units w /\ List.length (to_dict w) = 3%nat
       /\ wrapper_repr show_half (fun _ => "") w = Ok "BorderTop(border_top_width=2px, border_top_style='solid', border_top_color=rgba(0, 170, 255, 1.0))")
  /\ brace_free (show_half (Fin 1%Qc))
  /\ (forall s r, In (s, r) [("{", Err ValueError); ("{}", Err IndexError); ("{x}", Err KeyError); ("{outline_width}", Ok "Outline(outline_style='1px', outline_width=1px)")] ->
       exists w, make_wrapper S_outline (braced_outline s) = Ok w /\ wrapper_repr show_half (fun _ => "") w = r)
  /\ py_repr show_half (fun _ => "") (VCursor [VUri (OId 7) "a.png"; VStr "help"]) = Ok ("Cursor([url(" ++ q2 ++ "a.png" ++ q2 ++ "), 'help'])")
  /\ py_repr show_half (fun _ => "") (VTuple [VUnit (mkU KPx (PF (Inf true)))]) = Err OverflowError.
Proof.
  split; [eexists; eexists; unfold bordered_css; apply surjective_pairing|]. split.
  { eexists. split; [reflexivity|]. split.
    - intros k u I. vm_compute in I. destruct I as [I|[I|[I|[]]]]; try discriminate. injection I as _ <-. exists "px". left. reflexivity.
    - split; vm_compute; reflexivity. }
  split; [apply no_brace_free; reflexivity|]. split; [|split; vm_compute; reflexivity].
  intros s r I. cbn in I. repeat match type of I with _ \/ _ => destruct I as [I|I] end; try contradiction; injection I as <- <-; eexists; (split; [reflexivity|]); vm_compute; reflexivity.
Qed.

(** C148: any shorthand object, also one made by hand: the text of its parts, passed
    through format() with the parts as the arguments. *)
Theorem C148_formatted : forall show obj w ts,
  Forall2 (fun kv t => exists x, written show obj (snd kv) x /\ t = fst kv ++ "=" ++ x) (to_dict w) ts ->
  wrapper_repr show obj w = format_text show (to_dict w) None (applied (class_called (w_class w)) ts).
Proof.
  intros show obj w ts F. unfold wrapper_repr. replace (map_res _ (to_dict w)) with (Ok ts).
  - cbn [bindr]. unfold applied. replace (class_name (w_class w)) with (class_called (w_class w)) by (destruct (w_class w) as [[]| |]; reflexivity). reflexivity.
  - symmetry. induction F as [|kv t l ts (x & X & ->) F IH]; [reflexivity|]. cbn [map_res]. apply C148_repr in X. rewrite X. cbn [bindr]. rewrite IH. reflexivity.
Qed.
Print Assumptions C148_formatted.
(** *** Format strings *)
Lemma look_up_in props n v : NoDup (map fst props) -> In (n, v) props -> look_up n props = Some v.
Proof.
  induction props as [|[k w] r IH]; cbn [look_up map fst]; [intros _ []|]. intros N I. inversion N as [|? ? X Y]; subst. destruct I as [I|I].
  - injection I as -> ->. rewrite String.eqb_refl. reflexivity.
  - destruct (String.eqb_spec k n) as [->|_]; [destruct X; apply (in_map fst _ _ I)|apply IH; assumption].
Qed.
Lemma look_up_none props n : ~ In n (map fst props) -> look_up n props = None.
Proof.
  induction props as [|[k w] r IH]; cbn [look_up map fst]; [reflexivity|]. intros N. destruct (String.eqb_spec k n) as [->|_]; [destruct N; left; reflexivity|].
  apply IH. intros I. apply N. right. exact I.
Qed.
Lemma digit_listed c : is_digit c = existsb (Ascii.eqb c) (list_ascii_of_string "0123456789").
Proof. destruct c as [[] [] [] [] [] [] [] []]; reflexivity. Qed.
Lemma field_simple show props n : simple_name n -> field show props n = match look_up n props with Some v => value_str show v | None => Err KeyError end.
Proof.
  intros [A (c & I & D)]. unfold field. replace (existsb _ ["."; "["; "!"; ":"]%char) with false.
  2: { symmetry. apply not_true_is_false. intros X. apply existsb_exists in X. destruct X as (d & J & X). unfold contains in X. apply existsb_exists in X.
       destruct X as (e & K & X). apply Ascii.eqb_eq in X. subst e. exact (A d J K). }
  replace (forallb is_digit (list_ascii_of_string n)) with false; [reflexivity|]. symmetry. apply not_true_is_false. intros X. rewrite forallb_forall in X.
  specialize (X c I). rewrite digit_listed in X. apply existsb_exists in X. destruct X as (d & J & X). apply Ascii.eqb_eq in X. subst d. exact (D J).
Qed.
Lemma field_number show props n : (forall c, In c (list_ascii_of_string n) -> In c (list_ascii_of_string "0123456789")) -> field show props n = Err IndexError.
Proof.
  intros A. unfold field. replace (existsb _ ["."; "["; "!"; ":"]%char) with false.
  2: { symmetry. apply not_true_is_false. intros X. apply existsb_exists in X. destruct X as (d & J & X). unfold contains in X. apply existsb_exists in X.
       destruct X as (e & K & X). apply Ascii.eqb_eq in X. subst e. apply A in K. cbn in J, K. intuition (subst; discriminate). }
  replace (forallb is_digit (list_ascii_of_string n)) with true; [reflexivity|]. symmetry. apply forallb_forall. intros c I. rewrite digit_listed.
  apply existsb_exists. exists c. split; [apply A, I|apply Ascii.eqb_refl].
Qed.
Lemma format_char show props c r : no_brace c = true -> format_text show props None (String c r) = (t <-r format_text show props None r ;; Ok (String c t)).
Proof. intros C. unfold no_brace in C. apply andb_prop in C. destruct C as [A B]. apply negb_true_iff in A, B. cbn [format_text]. rewrite A, B. reflexivity. Qed.
Lemma format_name show props : forall n f r, all_chars no_brace n = true -> format_text show props (Some f) (n ++ r) = format_text show props (Some (f ++ n)) r.
Proof.
  induction n as [|c n IH]; intros f r H; [cbn [append]; rewrite app_nil_r_s; reflexivity|]. cbn [all_chars] in H. apply andb_prop in H. destruct H as [C N].
  unfold no_brace in C. apply andb_prop in C. destruct C as [A B]. apply negb_true_iff in A, B. cbn [append format_text]. rewrite A, B. rewrite IH by exact N.
  f_equal. f_equal. rewrite app_assoc_s. reflexivity.
Qed.
Lemma format_open show props n r : all_chars no_brace n = true -> (n = EmptyString -> forall r', r <> String "{" r' /\ r <> EmptyString) ->
  format_text show props None (String "{" (n ++ r)) = format_text show props (Some n) r.
Proof.
  intros N R. change (format_text show props None (String "{" (n ++ r))) with
    (match n ++ r with
     | String d r' => if Ascii.eqb d "{" then t <-r format_text show props None r' ;; Ok (String "{" t) else format_text show props (Some EmptyString) (n ++ r)
     | EmptyString => Err ValueError end).
  rewrite (format_name show props n EmptyString r N). cbn [append]. destruct n as [|c n].
  - cbn [append]. destruct r as [|d r]; [destruct (R eq_refl EmptyString) as [_ X]; congruence|]. destruct (Ascii.eqb_spec d "{") as [->|_]; [destruct (R eq_refl r) as [X _]; congruence|reflexivity].
  - cbn [append]. cbn [all_chars] in N. apply andb_prop in N. destruct N as [C _]. unfold no_brace in C. apply andb_prop in C. destruct C as [A _]. apply negb_true_iff in A. rewrite A. reflexivity.
Qed.
Lemma format_field show props n r : brace_free n -> format_text show props None ("{" ++ n ++ "}" ++ r) = (t <-r field show props n ;; u <-r format_text show props None r ;; Ok (t ++ u)).
Proof.
  intros N. apply no_brace_free in N. cbn [append]. change (String "{" (n ++ String "}" r)) with (String "{" (n ++ (String "}" r))).
  rewrite format_open; [reflexivity|exact N|]. intros _ r'. split; discriminate.
Qed.
Lemma template_cons p ps : template (p :: ps) = piece_text p ++ template ps.
Proof. unfold template. cbn [map String.concat]. destruct (map piece_text ps); cbn [String.concat]; [rewrite app_nil_r_s|]; reflexivity. Qed.
Lemma concat_cons t ts : String.concat "" (t :: ts) = t ++ String.concat "" ts.
Proof. cbn [String.concat]. destruct ts; cbn [String.concat]; [rewrite app_nil_r_s|]; reflexivity. Qed.
Lemma format_pieces show props : NoDup (map fst props) -> forall ps ts r, Forall well_formed ps -> Forall2 (replaced show props) ps ts ->
  format_text show props None (template ps ++ r) = (u <-r format_text show props None r ;; Ok (String.concat "" ts ++ u)).
Proof.
  intros N ps ts r W F. revert W. induction F as [|p t ps ts P F IH]; intros W.
  - cbn [append]. change (template [] ++ r) with r. destruct (format_text show props None r); reflexivity.
  - inversion W as [|? ? A B]; subst. specialize (IH B). rewrite template_cons, concat_cons, !app_assoc_s. destruct P as [c| | |n v t S I V]; cbn [piece_text well_formed] in *.
    + cbn [append]. rewrite format_char, IH; [destruct (format_text show props None r); reflexivity|].
      unfold no_brace. destruct A as [A1 A2]. destruct (Ascii.eqb_spec c "{"); [contradiction|]. destruct (Ascii.eqb_spec c "}"); [contradiction|]. reflexivity.
    + cbn [append format_text]. cbn [Ascii.eqb Bool.eqb]. rewrite IH. destruct (format_text show props None r); reflexivity.
    + cbn [append format_text]. cbn [Ascii.eqb Bool.eqb]. rewrite IH. destruct (format_text show props None r); reflexivity.
    + rewrite !app_assoc_s, format_field by exact A. rewrite field_simple by exact S. rewrite (look_up_in _ _ _ N I), V. cbn [bindr]. rewrite IH.
      destruct (format_text show props None r); cbn [bindr]; rewrite ?app_assoc_s; reflexivity.
Qed.
(** C148: format() replaces every field by the text of its property and every
    doubled brace by one. *)
Theorem C148_format : forall show props ps ts, NoDup (map fst props) -> Forall well_formed ps -> Forall2 (replaced show props) ps ts ->
  format_text show props None (template ps) = Ok (String.concat "" ts).
Proof.
  intros show props ps ts N W F. rewrite <- (app_nil_r_s (template ps)), (format_pieces show props N ps ts EmptyString W F).
  cbn [format_text bindr]. rewrite app_nil_r_s. reflexivity.
Qed.
Print Assumptions C148_format.
Lemma stray_fails show props s : stray s -> format_text show props None s = Err ValueError.
Proof.
  intros [|c r C|n N].
  - reflexivity.
  - cbn [format_text]. cbn [Ascii.eqb Bool.eqb]. destruct (Ascii.eqb_spec c "}"); [contradiction|reflexivity].
  - apply no_brace_free in N. destruct n as [|c n]; [reflexivity|]. rewrite <- (app_nil_r_s (String c n)), format_open; [reflexivity|exact N|discriminate].
Qed.
(** C148: after pieces that can be replaced, an unbalanced brace raises ValueError;
    a field that names no property raises KeyError and one without a name or with a
    number for a name IndexError, whatever follows. *)
Theorem C148_format_raises : forall show props ps ts, NoDup (map fst props) -> Forall well_formed ps -> Forall2 (replaced show props) ps ts ->
  (forall s, stray s -> format_text show props None (template ps ++ s) = Err ValueError)
  /\ (forall n s, brace_free n -> simple_name n -> ~ In n (map fst props) -> format_text show props None (template ps ++ "{" ++ n ++ "}" ++ s) = Err KeyError)
  /\ (forall n s, (forall c, In c (list_ascii_of_string n) -> In c (list_ascii_of_string "0123456789")) ->
       format_text show props None (template ps ++ "{" ++ n ++ "}" ++ s) = Err IndexError).
Proof.
  intros show props ps ts N W F. repeat split.
  - intros s S. rewrite (format_pieces show props N ps ts s W F), stray_fails by exact S. reflexivity.
  - intros n s B S I. rewrite (format_pieces show props N ps ts _ W F), format_field by exact B. rewrite field_simple, look_up_none by assumption. reflexivity.
  - intros n s D. rewrite (format_pieces show props N ps ts _ W F), format_field, field_number; [reflexivity|exact D|].
    split; intros I; apply D in I; cbn in I; intuition discriminate.
Qed.
Print Assumptions C148_format_raises.
(** C148: these are all the texts there are, except one with a brace inside a
    field. *)
Theorem C148_format_texts : forall s, exists ps r, Forall well_formed ps /\ s = template ps ++ r
  /\ (r = EmptyString \/ stray r \/ exists n r', n <> EmptyString /\ brace_free n /\ r = "{" ++ n ++ "{" ++ r').
Proof.
  assert (K : forall n s, (String.length s < n)%nat -> exists ps r, Forall well_formed ps /\ s = template ps ++ r
    /\ (r = EmptyString \/ stray r \/ exists n r', n <> EmptyString /\ brace_free n /\ r = "{" ++ n ++ "{" ++ r')).
  2: { intros s. apply (K (S (String.length s))). lia. }
  induction n as [|n IH]; intros s L; [lia|]. destruct s as [|c s]; [exists [], EmptyString; repeat split; auto|]. cbn [String.length] in L.
  assert (STEP : forall p s', well_formed p -> (String.length s' < n)%nat -> String c s = piece_text p ++ s' -> exists ps r, Forall well_formed ps /\ String c s = template ps ++ r
    /\ (r = EmptyString \/ stray r \/ exists n r', n <> EmptyString /\ brace_free n /\ r = "{" ++ n ++ "{" ++ r')).
  { intros p s' P L' E. destruct (IH s' L') as (ps & r & W & -> & Q). exists (p :: ps), r. split; [constructor; assumption|]. split; [|exact Q].
    rewrite E, template_cons, app_assoc_s. reflexivity. }
  destruct (Ascii.eqb_spec c "{") as [->|CO].
  - assert (FN : forall s, exists m r, all_chars no_brace m = true /\ s = m ++ r /\ (r = EmptyString \/ (exists r', r = String "}" r') \/ exists r', r = String "{" r')).
    { clear. induction s as [|c s (m & r & A & -> & Q)]; [exists EmptyString, EmptyString; auto|]. destruct (no_brace c) eqn:B.
      - exists (String c m), r. cbn [all_chars append]. rewrite B, A. auto.
      - exists EmptyString, (String c (m ++ r)). repeat split. right. unfold no_brace in B. destruct (Ascii.eqb_spec c "{") as [->|_]; [right; eauto|].
        destruct (Ascii.eqb_spec c "}") as [->|_]; [left; eauto|discriminate]. }
    destruct (FN s) as (m & r & A & -> & [->|[[r' ->]|[r' ->]]]).
    + exists [], (String "{" (m ++ EmptyString)). repeat split; [constructor|]. right. left. constructor. rewrite app_nil_r_s. apply no_brace_free, A.
    + apply (STEP (P_field m) r'); [apply no_brace_free, A| |cbn [piece_text append]; rewrite app_assoc_s; reflexivity].
      clear -L. assert (LA : String.length (m ++ String "}" r') = (String.length m + S (String.length r'))%nat) by (clear; induction m as [|c m IH]; cbn; [reflexivity|rewrite IH; reflexivity]). lia.
    + destruct m as [|d m].
      * apply (STEP P_opening r'); [exact I|cbn [append String.length] in L; lia|reflexivity].
      * exists [], (String "{" (String d m ++ String "{" r')). repeat split; [constructor|]. right. right. exists (String d m), r'. repeat split; [discriminate| |]; apply no_brace_free in A; apply A.
  - destruct (Ascii.eqb_spec c "}") as [->|CC].
    + destruct s as [|d s]; [exists [], "}"; repeat split; [constructor|]; right; left; constructor|]. destruct (Ascii.eqb_spec d "}") as [->|D].
      * apply (STEP P_closing s); [exact I|cbn [String.length] in L; lia|reflexivity].
      * exists [], (String "}" (String d s)). repeat split; [constructor|]. right. left. constructor. exact D.
    + apply (STEP (P_char c) s); [split; assumption|lia|reflexivity].
Qed.
Print Assumptions C148_format_texts.
(** "a{{{outline_width}" becomes "a{1px"; a closing brace or an unknown field after it raises. *)
Example C148_format_example :
  let props := braced_outline "solid" in let ps := [P_char "a"; P_opening; P_field "outline_width"] in
  NoDup (map fst props) /\ Forall well_formed ps /\ Forall2 (replaced show_half props) ps ["a"; "{"; "1px"] /\ stray "} b" /\ simple_name "nothing"
  /\ template ps = "a{{{outline_width}" /\ format_text show_half props None (template ps) = Ok "a{1px".
Proof.
  assert (SN : forall n, forallb (fun c => negb (contains c n)) ["."; "["; "!"; ":"]%char = true -> (exists c r, n = String c r /\ is_digit c = false) -> simple_name n).
  { intros n A (c & r & -> & D). split.
    - intros d J I. rewrite forallb_forall in A. specialize (A d J). apply negb_true_iff in A. apply not_true_iff_false in A. apply A. unfold contains. apply existsb_exists. exists d. split; [exact I|apply Ascii.eqb_refl].
    - exists c. split; [left; reflexivity|]. intros I. rewrite digit_listed in D. apply not_true_iff_false in D. apply D. apply existsb_exists. exists c. split; [exact I|apply Ascii.eqb_refl]. }
  cbv zeta. repeat split.
  - repeat constructor; cbn; intuition discriminate.
  - repeat constructor; cbn; intuition discriminate.
  - repeat constructor. eapply replaced_field; [apply SN; [reflexivity|eexists; eexists; split; reflexivity]|left; reflexivity|vm_compute; reflexivity].
  - apply stray_closing. discriminate.
  - apply SN; [reflexivity|eexists; eexists; split; reflexivity].
  - apply SN; [reflexivity|eexists; eexists; split; reflexivity].
Qed.

(** ** C149 *)
Lemma hash_all_spec (f g : pyval -> res Z) l : forall m xs ys, Forall2 (fun a b => forall x y, f a = Ok x -> g b = Ok y -> x = y) l m ->
  hash_all f l = Ok xs -> hash_all g m = Ok ys -> xs = ys.
Proof.
  intros m xs ys F. revert xs ys. induction F as [|a b l m E F IH]; intros xs ys; cbn [hash_all]; [congruence|].
  destruct (f a) as [x|]; cbn [bindr]; [|discriminate]. destruct (hash_all f l) as [xs'|] eqn:X; cbn [bindr]; [|discriminate].
  destruct (g b) as [y|]; cbn [bindr]; [|discriminate]. destruct (hash_all g m) as [ys'|] eqn:Y; cbn [bindr]; [|discriminate].
  intros P Q. injection P as <-. injection Q as <-. f_equal; [apply E; reflexivity|apply IH; reflexivity].
Qed.
Lemma forall_forall2 {A B} (P Q : A -> B -> Prop) l m : Forall (fun a => forall b, P a b -> Q a b) l -> Forall2 P l m -> Forall2 Q l m.
Proof. intros F G. induction G; [constructor|]. inversion F; subst. constructor; auto. Qed.
Lemma hash_equals : forall h a b x y, equals a b -> py_hash h a = Ok x -> py_hash h b = Ok y -> x = y.
Proof.
  intros h a. induction a as [l H|l H|l H|a HT HL HC] using value_ind; intros b x y E.
  - destruct b; apply equals_inv in E; try contradiction; cbn [py_hash]. intros X Y. ok_injs. f_equal. eapply hash_all_spec; [|eassumption|eassumption].
    revert E. apply forall_forall2. revert H. apply Forall_impl. intros v A w E x y. apply A, E.
  - discriminate.
  - destruct b; apply equals_inv in E; try contradiction; cbn [py_hash]; [discriminate|]. intros X Y. ok_injs. do 3 f_equal. f_equal. eapply hash_all_spec; [|eassumption|eassumption].
    revert E. apply forall_forall2. revert H. apply Forall_impl. intros v A w E x y. apply A, E.
  - destruct a; try (destruct (HT _ eq_refl)); try (destruct (HL _ eq_refl)); try (destruct (HC _ eq_refl));
      destruct b; apply equals_inv in E; try contradiction; cbn [py_hash identity_of]; intros X Y; try discriminate; ok_injs; try reflexivity; try (f_equal; subst; reflexivity).
    all: first [destruct E as [<- _]; reflexivity|destruct E as [-> _]; reflexivity].
Qed.
(** C149: values that compare equal have the same hash, if both have one. *)
Theorem C149_equal : forall h a b x y, py_eqb a b = true -> py_hash h a = Ok x -> py_hash h b = Ok y -> x = y.
Proof. intros h a b x y E. apply hash_equals, py_eqb_spec, E. Qed.
Print Assumptions C149_equal.
Lemma hash_all_ok f l : (exists xs, hash_all f l = Ok xs) <-> (forall v, In v l -> exists x, f v = Ok x).
Proof.
  induction l as [|v l IH]; cbn [hash_all]; [split; [intros _ ? []|eauto]|]. split.
  - intros [xs H]. ok_injs. intros w [<- |I]; [eauto|]. revert w I. apply IH. eauto.
  - intros H. destruct (H v (or_introl eq_refl)) as [x ->]. cbn [bindr]. destruct (proj2 IH) as [xs E]; [intros w I; apply H; right; exact I|].
    rewrite E. cbn [bindr]. eauto.
Qed.
Lemma hash_all_errors f l e : (forall v e', In v l -> f v = Err e' -> e' = e) -> forall e', hash_all f l = Err e' -> e' = e.
Proof.
  intros H e'. induction l as [|v l IH]; cbn [hash_all]; [discriminate|]. destruct (f v) eqn:F; cbn [bindr].
  - destruct (hash_all f l) eqn:G; cbn [bindr]; [discriminate|]. intros Q. apply IH; [|exact Q]. intros w e2 I. apply H. right. exact I.
  - intros Q. injection Q as <-. eapply H; [left; reflexivity|exact F].
Qed.
(** C149: the values that have a hash. *)
Theorem C149_hashable : forall h v, ((exists x, py_hash h v = Ok x) <-> (forall a, member a v -> ~ unhashable a))
  /\ forall e, py_hash h v = Err e -> e = TypeError.
Proof.
  intros h v. induction v as [l H|l H|l H|v HT HL HC] using value_ind.
  - rewrite Forall_forall in H. split.
    + assert (Q : (exists x, py_hash h (VTuple l) = Ok x) <-> (exists xs, hash_all (py_hash h) l = Ok xs)).
      { cbn [py_hash]. split; [intros [x X]; ok_injs; eauto|]. intros [xs ->]. cbn [bindr]. eauto. }
      rewrite Q, hash_all_ok. split.
      * intros A a M. inversion M as [|? v ? I W|]; subst; [intros U; inversion U|]. exact (proj1 (proj1 (H v I)) (A v I) a W).
      * intros A v I. apply (proj1 (H v I)). intros a W. apply A. exact (member_tuple a v l I W).
    + cbn [py_hash]. intros e X. err_bind X. eapply (hash_all_errors (py_hash h)); [|exact E]. intros v e' I. apply (proj2 (H v I)).
  - split; [|cbn [py_hash]; congruence]. split; [intros [x X]; discriminate|]. intros A. destruct (A _ (member_self _)). constructor.
  - rewrite Forall_forall in H. split.
    + assert (Q : (exists x, py_hash h (VCursor l) = Ok x) <-> (exists xs, hash_all (py_hash h) l = Ok xs)).
      { cbn [py_hash]. split; [intros [x X]; ok_injs; eauto|]. intros [xs ->]. cbn [bindr]. eauto. }
      rewrite Q, hash_all_ok. split.
      * intros A a M. inversion M as [| |? v ? I W]; subst; [intros U; inversion U|]. exact (proj1 (proj1 (H v I)) (A v I) a W).
      * intros A v I. apply (proj1 (H v I)). intros a W. apply A. exact (member_cursor a v l I W).
    + cbn [py_hash]. intros e X. err_bind X. eapply (hash_all_errors (py_hash h)); [|exact E]. intros v e' I. apply (proj2 (H v I)).
  - destruct v; try (destruct (HT _ eq_refl)); try (destruct (HL _ eq_refl)); try (destruct (HC _ eq_refl)); (split; [|cbn [py_hash]; congruence]); cbn [py_hash].
    all: first [ split; [intros [x X]; discriminate|intros A; exfalso; apply (A _ (member_self _)); constructor]
               | split; [intros _ a M U; inversion M; subst; inversion U|intros _; eexists; reflexivity] ].
Qed.
Print Assumptions C149_hashable.
(** C149: every cursor a declaration holds has a hash. *)
Theorem C149_cursor : forall h ho c n l, valid_order ho -> reachable ho c n -> c_store c L_cursor = Some (VCursor l) ->
  exists x, py_hash h (VCursor l) = Ok x /\ x = hash_tuple h [hash_text h "Cursor"; hash_tuple h (map (fun v => match py_hash h v with Ok y => y | Err _ => 0 end) l)].
Proof.
  intros h ho c n l V R S. destruct (stored_accepts ho c n _ _ V R S) as (v0 & m & m' & A). 
  assert (SH : cursor_shape l).
  { inversion A as [kd ? ? ? K T|s K N E| | |]; subst. cbn in K. injection K as <-. cbn [takes] in T. exact (stored_cursor _ _ _ _ T). }
  assert (Q : hash_all (py_hash h) l = Ok (map (fun v => match py_hash h v with Ok y => y | Err _ => 0 end) l)).
  { clear -SH. induction SH as [|k K|o x l SH IH]; [reflexivity|reflexivity|]. cbn [hash_all map py_hash bindr]. rewrite IH. reflexivity. }
  cbn [py_hash]. rewrite Q. cbn [bindr]. eauto.
Qed.
Print Assumptions C149_cursor.
(** C149: a Cursor and an ImmutableList with the same members are equal (both
    are lists), but nothing makes their hashes equal. *)
Definition sum_hashes : hashes := mkHashes 1 (fun _ => 2) (fun s => Z.of_nat (String.length s)) (fun _ => 3) (fun l => fold_right Z.add 5 l).
Theorem C149_two_classes : forall l, (forall v a, In v l -> member a v -> ~ unhashable a) ->
  exists h x y, py_hash h (VCursor l) = Ok x /\ immutable_hash h "Cursor" l = Ok x /\ immutable_hash h "ImmutableList" l = Ok y /\ x <> y.
Proof.
  intros l H. exists sum_hashes. destruct (proj2 (hash_all_ok (py_hash sum_hashes) l)) as [xs E].
  { intros v I. apply C149_hashable. intros a M. exact (H v a I M). }
  cbn [py_hash]. unfold immutable_hash. rewrite E. cbn [bindr]. eexists. eexists. split; [reflexivity|]. split; [reflexivity|]. split; [reflexivity|]. unfold sum_hashes. cbn [hash_tuple hash_text fold_right].
  change (Z.of_nat (String.length "Cursor")) with 6. change (Z.of_nat (String.length "ImmutableList")) with 13. lia.
Qed.
Print Assumptions C149_two_classes.
Definition pointer_css : css := fst (run_ops plain_order [OpSet (Long L_cursor) (VStr "url(a.png), help")] fresh_css first_free).
Example C149_example : (exists n, reachable plain_order pointer_css n)
  /\ (exists l, c_store pointer_css L_cursor = Some (VCursor l) /\ List.length l = 2%nat)
  /\ equals (VTuple [VInt 2; VStr "a"]) (VTuple [VFloat (Fin (Z2Qc 2)); VStr "a"]) /\ py_hash sum_hashes (VTuple [VInt 2; VStr "a"]) = Ok 8
  /\ (forall a, member a (VTuple [VInt 2; VStr "a"]) -> ~ unhashable a)
  /\ py_hash sum_hashes (VTuple [VInt 2; VUnit (mkU KPx (PI 1))]) = Err TypeError.
Proof.
  split; [eexists; eexists; unfold pointer_css; apply surjective_pairing|]. split; [eexists; split; [reflexivity|reflexivity]|].
  split. { apply eq_tuple. constructor; [|constructor; [constructor|constructor]]. eapply eq_number; [constructor|constructor|]. split; [reflexivity|discriminate]. }
  split; [reflexivity|]. split; [|reflexivity]. apply (C149_hashable sum_hashes). eexists. reflexivity.
Qed.
