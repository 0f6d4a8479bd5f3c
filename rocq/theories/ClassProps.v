(** * C118-C121: bounds, error messages, shorthand objects, identity of keywords *)
From Coq Require Import ZArith QArith Qcanon Bool String Ascii List Permutation Sorted Lia.
From Verif Require Import PyNum NumFacts Units Float64 PyStr StrFacts Colors Values Parser Choices Shorthand Decl DeclSpec DeclFacts DeclNorm DeclProps DeclProps2 DeclProps3
  ParseSpec ParserSpec AcceptSpec AcceptProps Classes ClassSpec.
Import ListNotations.
Open Scope string_scope.
Open Scope Z_scope.

(** ** C118 *)
Lemma b64_not_nan q : b64 q <> Nan.
Proof. unfold b64. repeat match goal with |- context [if ?b then _ else _] => destruct b end; discriminate. Qed.
Lemma float_of_spec v x : float_of v = Ok x <-> float_value v x.
Proof.
  split.
  - destruct v; cbn [float_of]; try discriminate.
    + unfold float_of_int. destruct (b64 (inject_Z z)) as [q| |] eqn:E; [|discriminate|destruct (b64_not_nan _ E)]. intros H. injection H as <-. constructor. exact E.
    + intros H. injection H as <-. constructor.
    + intros H. constructor. exact H.
  - intros []; cbn [float_of]; [reflexivity| |assumption]. unfold float_of_int. rewrite H. reflexivity.
Qed.
Lemma xltb_spec a b : a <> Nan -> b <> Nan -> xltb a b = false <-> at_most b a.
Proof.
  intros A B. destruct a as [p|[]|], b as [q|[]|]; cbn; try congruence; try (split; [intros _; constructor; discriminate|reflexivity]);
    try (split; [discriminate|intros H; inversion H; congruence]).
  split.
  - intros H. constructor. destruct (qc_ltb_spec p q) as [L|L]; [discriminate|]. apply Qcnot_lt_le, L.
  - intros H. inversion H; subst. destruct (qc_ltb_spec p q) as [L|L]; [|reflexivity]. exfalso. exact (Qcle_not_lt _ _ H2 L).
Qed.
Lemma in_bounds_spec lo hi x w : proper_bounds lo hi -> in_bounds lo hi x = Ok w <-> w = x /\ (pval x = Nan \/ in_range lo hi (pval x)).
Proof.
  intros [PL PH]. unfold in_bounds, below, above, in_range.
  assert (NP : forall m : pynum, m <> PF Nan -> pval m <> Nan) by (intros [z|[]]; cbn; congruence).
  assert (D : pval x = Nan \/ pval x <> Nan) by (destruct (pval x); [right|right|left]; congruence).
  destruct D as [D|D].
  - assert (L : forall a, xltb (pval x) a = false /\ xltb a (pval x) = false) by (intros a; rewrite D; destruct a as [?|[]|]; split; reflexivity).
    assert (A : (match lo with Some m => xltb (pval x) (pval m) | None => false end) = false) by (destruct lo; [apply L|reflexivity]).
    assert (B : (match hi with Some m => xltb (pval m) (pval x) | None => false end) = false) by (destruct hi; [apply L|reflexivity]).
    rewrite A, B. split; [intros H; injection H as <-; auto|intros [-> _]; reflexivity].
  - assert (A : (match lo with Some m => xltb (pval x) (pval m) | None => false end) = false <-> (forall m, lo = Some m -> at_most (pval m) (pval x))).
    { destruct lo as [m|]; [|split; [discriminate|reflexivity]]. rewrite xltb_spec; [|exact D|apply NP; congruence]. split; [intros H k E; injection E as <-; exact H|intros H; apply H; reflexivity]. }
    assert (B : (match hi with Some m => xltb (pval m) (pval x) | None => false end) = false <-> (forall m, hi = Some m -> at_most (pval x) (pval m))).
    { destruct hi as [m|]; [|split; [discriminate|reflexivity]]. rewrite xltb_spec; [|apply NP; congruence|exact D]. split; [intros H k E; injection E as <-; exact H|intros H; apply H; reflexivity]. }
    destruct (match lo with Some m => xltb (pval x) (pval m) | None => false end); [|destruct (match hi with Some m => xltb (pval m) (pval x) | None => false end)].
    + split; [discriminate|]. intros [_ [H|[H _]]]; [contradiction|]. apply (proj2 A) in H. discriminate.
    + split; [discriminate|]. intros [_ [H|[_ H]]]; [contradiction|]. apply (proj2 B) in H. discriminate.
    + split; [intros H; injection H as <-; split; [reflexivity|right; split; [apply A|apply B]; reflexivity]|intros [-> _]; reflexivity].
Qed.
Theorem C118_number : forall lo hi v w, proper_bounds lo hi ->
  number_validator lo hi v = Ok w <-> exists x, float_value v x /\ w = PF x /\ (x = Nan \/ in_range lo hi x).
Proof.
  intros lo hi v w P. unfold number_validator. split.
  - destruct (as_validation_t (float_of v)) as [x|] eqn:E; [|discriminate]. cbn [bindr]. intros H. apply (in_bounds_spec _ _ _ _ P) in H. apply (proj1 (as_validation_t_ok _ _)) in E. apply float_of_spec in E.
    exists x. destruct H as [-> H]. auto.
  - intros (x & F & -> & H). apply float_of_spec in F. apply (proj2 (as_validation_t_ok _ _)) in F. rewrite F. cbn [bindr]. apply (in_bounds_spec _ _ _ _ P). auto.
Qed.
Print Assumptions C118_number.
Theorem C118_integer : forall lo hi v w, proper_bounds lo hi ->
  integer_validator lo hi v = Ok w <-> exists z, integer_value v z /\ w = PI z /\ in_range lo hi (Fin (Z2Qc z)).
Proof.
  intros lo hi v w P. unfold integer_validator. split.
  - destruct (as_validation_t (int_of v)) as [z|] eqn:E; [|discriminate]. cbn [bindr]. intros H. apply (in_bounds_spec _ _ _ _ P) in H. apply (proj1 (as_validation_t_ok _ _)) in E. apply integer_int_of in E.
    exists z. destruct H as [-> [H|H]]; [discriminate|auto].
  - intros (z & F & -> & H). apply integer_int_of in F. apply (proj2 (as_validation_t_ok _ _)) in F. rewrite F. cbn [bindr]. apply (in_bounds_spec _ _ _ _ P). auto.
Qed.
Print Assumptions C118_integer.
Lemma as_validation_t_cases {A} (m : res A) e : as_validation_t m = Err e -> e = ValidationError \/ m = Err e.
Proof. destruct m as [a|x]; [discriminate|]. destruct x; cbn; intros H; injection H as <-; auto. Qed.
Theorem C118_errors : forall lo hi v e, 
  (number_validator lo hi v = Err e -> e = ValidationError \/ e = OverflowError /\ exists z, v = VInt z)
  /\ (integer_validator lo hi v = Err e -> e = ValidationError \/ e = OverflowError /\ exists b, v = VFloat (Inf b)).
Proof.
  intros lo hi v e. assert (B : forall x, in_bounds lo hi x = Err e -> e = ValidationError) by (intros x; unfold in_bounds; destruct (below x lo); [|destruct (above x hi)]; congruence).
  split.
  - unfold number_validator. destruct (as_validation_t (float_of v)) as [x|y] eqn:E; cbn [bindr]; intros H; [left; exact (B _ H)|]. injection H as ->.
    pose proof E as E0. apply as_validation_t_cases in E. destruct E as [E|E]; [auto|]. destruct v; cbn [float_of] in E; try discriminate E; try (injection E as <-; discriminate E0).
    + right. split; [|eauto]. unfold float_of_int in E. destruct (b64 _); try discriminate; congruence.
    + pose proof (py_float_err _ _ E). subst. cbn [float_of] in E0. rewrite E in E0. discriminate E0.
  - unfold integer_validator. destruct (as_validation_t (int_of v)) as [x|y] eqn:E; cbn [bindr]; intros H; [left; exact (B _ H)|]. injection H as ->.
    pose proof E as E0. apply as_validation_t_cases in E. destruct E as [E|E]; [auto|]. destruct v; cbn [int_of] in E; try discriminate E; try (injection E as <-; discriminate E0).
    + destruct x as [q|b|]; cbn in E; try discriminate; [right; split; [congruence|eauto]|injection E as <-; discriminate E0].
    + pose proof (py_int_base_err _ _ _ E). subst. cbn [int_of] in E0. rewrite E in E0. discriminate E0.
Qed.
Print Assumptions C118_errors.
(** Examples: a text in range, one out of range, and NaN, which every range lets
    through. *)
Example C118_example : proper_bounds (Some (PI 0)) (Some (PF (Fin (qfrac 5 2))))
  /\ (exists w, number_validator (Some (PI 0)) (Some (PF (Fin (qfrac 5 2)))) (VStr "2.25") = Ok w)
  /\ number_validator (Some (PI 0)) (Some (PF (Fin (qfrac 5 2)))) (VStr "-1") = Err ValidationError
  /\ number_validator (Some (PI 0)) (Some (PF (Fin (qfrac 5 2)))) (VStr "nan") = Ok (PF Nan)
  /\ integer_validator (Some (PI 2)) None (VFloat (Fin (qfrac 5 2))) = Ok (PI 2)
  /\ integer_validator (Some (PI 3)) None (VFloat (Fin (qfrac 5 2))) = Err ValidationError.
Proof.
  split; [split; discriminate|]. split; [eexists; vm_compute; reflexivity|]. split; [vm_compute; reflexivity|]. split; [vm_compute; reflexivity|]. split; vm_compute; reflexivity.
Qed.

(** ** C119 *)
Lemma add_text_in s l x : In x (add_text s l) <-> x = s \/ In x l.
Proof.
  induction l as [|t l IH]; cbn [add_text In]; [intuition congruence|]. destruct (String.compare s t) eqn:E; cbn [In].
  - apply String.compare_eq_iff in E. subst. intuition congruence.
  - intuition congruence.
  - rewrite IH. intuition congruence.
Qed.
Lemma text_before_trans a b c : text_before a b -> text_before b c -> text_before a c.
Proof.
  unfold text_before. revert b c. induction a as [|x a IH]; intros [|y b] [|z c]; cbn [String.compare]; try discriminate; try reflexivity.
  unfold Ascii.compare. destruct (N.compare_spec (Ascii.N_of_ascii x) (Ascii.N_of_ascii y)) as [E|L|G]; try discriminate;
    destruct (N.compare_spec (Ascii.N_of_ascii y) (Ascii.N_of_ascii z)) as [E'|L'|G']; try discriminate; intros A B.
  - rewrite (proj2 (N.compare_eq_iff _ _)) by congruence. eapply IH; eassumption.
  - rewrite (proj2 (N.compare_lt_iff _ _)) by lia. reflexivity.
  - rewrite (proj2 (N.compare_lt_iff _ _)) by lia. reflexivity.
  - rewrite (proj2 (N.compare_lt_iff _ _)) by lia. reflexivity.
Qed.
Lemma text_before_irrefl a : ~ text_before a a.
Proof.
  unfold text_before. induction a as [|x a IH]; cbn [String.compare]; [discriminate|]. unfold Ascii.compare. rewrite N.compare_refl. exact IH.
Qed.
Lemma add_text_sorted s l : StronglySorted text_before l -> StronglySorted text_before (add_text s l).
Proof.
  induction 1 as [|t l S IH F]; cbn [add_text]; [constructor; constructor|]. destruct (String.compare s t) eqn:E.
  - constructor; assumption.
  - constructor; [constructor; assumption|]. constructor; [exact E|]. revert F. apply Forall_impl. intros x. apply text_before_trans, E.
  - constructor; [exact IH|]. apply Forall_forall. intros x I. apply add_text_in in I. destruct I as [->|I]; [|rewrite Forall_forall in F; auto].
    unfold text_before. rewrite String.compare_antisym, E. reflexivity.
Qed.
Lemma add_all xs : forall l, StronglySorted text_before l ->
  StronglySorted text_before (fold_left (fun l s => add_text s l) xs l) /\ (forall s, In s (fold_left (fun l s => add_text s l) xs l) <-> In s xs \/ In s l).
Proof.
  induction xs as [|x xs IH]; intros l S; cbn [fold_left In]; [split; [exact S|tauto]|].
  destruct (IH _ (add_text_sorted x l S)) as [A B]. split; [exact A|]. intros s. rewrite B, add_text_in. split; intuition auto.
Qed.
Lemma sorted_unique (l m : list string) : StronglySorted text_before l -> StronglySorted text_before m -> (forall s, In s l <-> In s m) -> l = m.
Proof.
  intros L. revert m. induction L as [|x l S IH F]; intros m M H.
  - destruct m as [|y m]; [reflexivity|]. destruct (proj2 (H y) (or_introl eq_refl)).
  - inversion M as [|y m' S' F']; subst; [destruct (proj1 (H x) (or_introl eq_refl))|].
    rewrite Forall_forall in F, F'. pose proof text_before_irrefl as IR.
    assert (x = y) as ->.
    { destruct (proj1 (H x) (or_introl eq_refl)) as [E|I]; [auto|]. destruct (proj2 (H y) (or_introl eq_refl)) as [E|J]; [auto|]. destruct (IR x). eapply text_before_trans; [apply F, J|apply F', I]. }
    f_equal. apply IH; [exact S'|]. intros s. split; intros I.
    + destruct (proj1 (H s) (or_intror I)) as [<-|J]; [destruct (IR y); auto|exact J].
    + destruct (proj2 (H s) (or_intror I)) as [<-|J]; [destruct (IR y); auto|exact J].
Qed.
Definition all_texts (ot : string) (order : list pyval -> list pyval) (ch : choices) : list string :=
  (map (constant_text ot) (order (ch_constants ch)) ++ map description (ch_validators ch) ++ map defaulting_text (ch_defaulting ch))%list.
Definition mention_list (p : longhand) : list string :=
  (keywords p ++ match kind_of p with Some k => [kind_text k] | None => [] end
   ++ (if existsb (fun f => match f with is_percentage => true | _ => false end) (ch_validators (choices_of p)) then ["<percentage>"] else []))%list.
Lemma percentages p : existsb (fun f => match f with is_percentage => true | _ => false end) (ch_validators (choices_of p)) = true <-> takes_percentage p.
Proof. destruct p; vm_compute; split; intros; try discriminate; try contradiction; reflexivity || exact I. Qed.
Lemma incl_check a b : forallb (fun x => existsb (String.eqb x) b) a = true -> incl a b.
Proof. intros H x I. rewrite forallb_forall in H. apply existsb_In, H, I. Qed.
Lemma texts_mentioned ot p s : In s (all_texts ot (fun l => l) (choices_of p)) <-> mentioned ot p s.
Proof.
  assert (M : mentioned ot p s <-> In s (mention_list p) \/ ((p = L_color \/ p = L_background_color) /\ s = dashed (lower ot))).
  { rewrite dashed_with. unfold mentioned, mention_list. rewrite !in_app_iff, <- percentages. destruct (kind_of p) as [k|]; destruct (existsb _ (ch_validators (choices_of p))); cbn [In]; split; intros H;
      repeat match goal with
      | H : _ \/ _ |- _ => destruct H | H : _ /\ _ |- _ => destruct H | H : exists _, _ |- _ => destruct H | H : Some _ = Some _ |- _ => injection H as <- | H : False |- _ => destruct H
      | H : None = Some _ |- _ => discriminate H | H : false = true |- _ => discriminate H end; subst; eauto 8; tauto. }
  rewrite M. clear M.
  assert (G : forall q, q <> L_color -> q <> L_background_color -> incl (all_texts ot (fun l => l) (choices_of q)) (mention_list q) /\ incl (mention_list q) (all_texts ot (fun l => l) (choices_of q))).
  { intros q A B. destruct q; try congruence; split; apply incl_check; vm_compute; reflexivity. }
  assert (D : (p = L_color \/ p = L_background_color) \/ (p <> L_color /\ p <> L_background_color)).
  { destruct (longhand_eq_dec p L_color); [auto|]. destruct (longhand_eq_dec p L_background_color); auto. }
  destruct D as [[-> | ->]|[A B]].
  - unfold all_texts, mention_list. cbn - [lower dashed]. split; intuition auto; subst; auto; discriminate.
  - unfold all_texts, mention_list. cbn - [lower dashed]. split; intuition auto; subst; auto; discriminate.
  - destruct (G p A B) as [X Y]. split; [intros I; left; apply X, I|intros [I|[[E|E] _]]; [apply Y, I|contradiction|contradiction]].
Qed.
Theorem C119_message : forall ot ho p, valid_order ho ->
  exists l, valid_values ot ho p = String.concat ", " l /\ StronglySorted text_before l /\ (forall s, In s l <-> mentioned ot p s).
Proof.
  change String.concat with join in *.
  intros ot ho p V. destruct (add_all (all_texts ot (ho_set ho) (choices_of p)) [] (SSorted_nil _)) as [A B]. eexists. split; [reflexivity|]. split; [exact A|].
  intros s. rewrite B. rewrite <- texts_mentioned. cbn [In]. unfold all_texts. rewrite !in_app_iff.
  assert (P : In s (map (constant_text ot) (ho_set ho (ch_constants (choices_of p)))) <-> In s (map (constant_text ot) (ch_constants (choices_of p)))).
  { split; apply Permutation_in; [apply Permutation_sym|]; apply Permutation_map, V. }
  tauto.
Qed.
Print Assumptions C119_message.
Theorem C119_order : forall ot h1 h2 p, valid_order h1 -> valid_order h2 -> valid_values ot h1 p = valid_values ot h2 p.
Proof.
  intros ot h1 h2 p V1 V2. destruct (C119_message ot h1 p V1) as (l & -> & S & M), (C119_message ot h2 p V2) as (l' & -> & S' & M').
  f_equal. apply sorted_unique; [exact S|exact S'|]. intros s. rewrite M, M'. tauto.
Qed.
Print Assumptions C119_order.
Example C119_example : valid_values "<object object at 0x7F00_1234>" plain_order L_clip = "<rect>, auto, inherit"
  /\ valid_values "<object object at 0x7F00_1234>" plain_order L_background_color = "<color>, <object object at 0x7f00-1234>, transparent"
  /\ valid_values "" plain_order (L_margin STop) = "<length>, <percentage>, auto".
Proof. vm_compute. auto. Qed.

(** ** C120 *)
Lemma names_are sh : key_names sh = part_names sh.
Proof. destruct sh as [[]| |]; reflexivity. Qed.
Lemma names_nodup sh : NoDup (part_names sh).
Proof. destruct sh as [[]| |]; cbn; repeat constructor; cbn; intuition discriminate. Qed.
Lemma In_existsb s l : In s l -> existsb (String.eqb s) l = true.
Proof. intros I. apply existsb_exists. exists s. split; [exact I|apply String.eqb_refl]. Qed.
Lemma set_keys_cases sh kw : forall d,
  (set_keys sh d kw = Err ValueError /\ exists k v, In (k, v) kw /\ ~ In k (part_names sh))
  \/ (exists d', set_keys sh d kw = Ok d' /\ (forall k v, In (k, v) kw -> In k (part_names sh))
      /\ (distinct_names kw -> forall k, (~ In k (map fst kw) -> d' k = d k) /\ (forall v, In (k, v) kw -> d' k = Some v))).
Proof.
  induction kw as [|[k v] kw IH]; intros d; cbn [set_keys].
  - right. exists d. split; [reflexivity|]. split; [intros k v []|]. intros _ k. split; [reflexivity|]. intros v [].
  - destruct (existsb (String.eqb k) (key_names sh)) eqn:E.
    + destruct (IH (fun j => if String.eqb j k then Some v else d j)) as [(E' & j & w & I & N)|(d' & E' & A & B)].
      * left. split; [exact E'|]. exists j, w. split; [right; exact I|exact N].
      * right. exists d'. split; [exact E'|]. split.
        { intros j w [Q|I]; [|eauto]. injection Q as <- <-. rewrite <- names_are. apply existsb_In, E. }
        intros D j. inversion D as [|x xs N D']; subst. destruct (B D' j) as [B1 B2]. cbn [map fst In]. split.
        { intros Q. rewrite B1 by tauto. destruct (String.eqb_spec j k) as [->|_]; [tauto|reflexivity]. }
        intros w [Q|I]; [|auto]. injection Q as <- <-. rewrite B1 by exact N. rewrite String.eqb_refl. reflexivity.
    + left. split; [reflexivity|]. exists k, v. split; [left; reflexivity|]. rewrite <- names_are. intros I. rewrite (In_existsb _ _ I) in E. discriminate.
Qed.
Definition entries (d : string -> option pyval) (names : list string) : list (string * pyval) :=
  flat_map (fun k => match d k with Some v => [(k, v)] | None => [] end) names.
Lemma entries_order d names : in_order (entries d names) names.
Proof. induction names as [|k names IH]; cbn; [constructor|]. destruct (d k); cbn; constructor; exact IH. Qed.
Lemma entries_in d names k v : In (k, v) (entries d names) <-> In k names /\ d k = Some v.
Proof.
  unfold entries. rewrite in_flat_map. split.
  - intros (j & I & J). destruct (d j) eqn:E; [|destruct J]. destruct J as [Q|[]]. injection Q as <- <-. auto.
  - intros [I E]. exists k. rewrite E. split; [exact I|left; reflexivity].
Qed.
Lemma in_order_fst d names : in_order d names -> incl (map fst d) names /\ (NoDup names -> NoDup (map fst d)).
Proof.
  induction 1 as [|d k names O [I N]|d k v names O [I N]]; cbn [map fst].
  - split; [apply incl_refl|auto].
  - split; [apply incl_tl, I|]. intros D. inversion D. auto.
  - split; [intros x [->|J]; [left; reflexivity|right; auto]|]. intros D. inversion D; subst. constructor; auto.
Qed.
Lemma to_dict_entries w : to_dict w = entries (w_dict w) (part_names (w_class w)).
Proof. unfold to_dict. rewrite names_are. reflexivity. Qed.
Theorem C120_construct : forall sh kw,
  (make_wrapper sh kw = Err ValueError /\ exists k v, In (k, v) kw /\ ~ In k (part_names sh))
  \/ (exists w, make_wrapper sh kw = Ok w /\ w_class w = sh /\ (forall k v, In (k, v) kw -> In k (part_names sh))
      /\ in_order (to_dict w) (part_names sh) /\ (distinct_names kw -> Permutation (to_dict w) kw)).
Proof.
  intros sh kw. unfold make_wrapper. destruct (set_keys_cases sh kw (fun _ => None)) as [(E & X)|(d & E & A & B)]; rewrite E; cbn [bindr]; [left; auto|].
  right. eexists. split; [reflexivity|]. split; [reflexivity|]. split; [exact A|]. rewrite to_dict_entries. cbn [w_class w_dict]. split; [apply entries_order|].
  intros D. specialize (B D). apply NoDup_Permutation.
  - apply NoDup_map_inv with (f := fst). apply (proj2 (in_order_fst _ _ (entries_order d _))), names_nodup.
  - apply NoDup_map_inv with (f := fst). exact D.
  - intros [k v]. rewrite entries_in. destruct (B k) as [B1 B2]. split.
    + intros [I Q]. destruct (in_dec string_dec k (map fst kw)) as [J|J]; [|rewrite B1 in Q by exact J; discriminate].
      apply in_map_iff in J. destruct J as ([j w] & <- & J). cbn [fst] in *. rewrite (B2 _ J) in Q. injection Q as <-. exact J.
    + intros I. split; [eauto|auto].
Qed.
Print Assumptions C120_construct.
Lemma dict_eqb_spec d : forall e, dict_eqb d e = true <-> same_entries d e.
Proof.
  induction d as [|[k v] d IH]; intros [|[j w] e]; cbn [dict_eqb].
  - split; [constructor|reflexivity].
  - split; [discriminate|intros H; inversion H].
  - split; [discriminate|intros H; inversion H].
  - rewrite !andb_true_iff, String.eqb_eq, py_eqb_spec, IH. split.
    + intros [[-> E] S]. constructor; auto.
    + intros H. inversion H as [|? ? ? ? [A B] C]; subst. cbn in *. auto.
Qed.
Lemma class_eqb_spec a b : class_eqb a b = true <-> a = b.
Proof. split; [|intros ->; apply String.eqb_refl]. destruct a as [[]| |], b as [[]| |]; vm_compute; congruence. Qed.
Lemma in_order_sorted_same d e names : NoDup names -> in_order d names -> in_order e names -> map fst d = map fst e \/ exists k, (In k (map fst d) /\ ~ In k (map fst e)) \/ (In k (map fst e) /\ ~ In k (map fst d)).
Proof.
  intros D A. revert e. induction A as [|d k names A IH|d k v names A IH]; intros e B; inversion D as [|? ? N D']; subst.
  - inversion B. left. reflexivity.
  - inversion B as [|? ? ? B'|e' ? w ? B']; subst; [auto|]. right. exists k. right. cbn. split; [auto|]. intros I. apply N, (proj1 (in_order_fst _ _ A)), I.
  - inversion B as [|? ? ? B'|e' ? w ? B']; subst.
    + right. exists k. left. cbn. split; [auto|]. intros I. apply N, (proj1 (in_order_fst _ _ B')), I.
    + assert (ND : ~ In k (map fst d)) by (intros I; apply N, (proj1 (in_order_fst _ _ A)), I).
      assert (NE : ~ In k (map fst e')) by (intros I; apply N, (proj1 (in_order_fst _ _ B')), I).
      destruct (IH D' _ B') as [E|(j & [[I J]|[I J]])]; cbn [map fst In].
      * left. rewrite E. reflexivity.
      * right. exists j. left. split; [auto|]. intros [->|Q]; tauto.
      * right. exists j. right. split; [auto|]. intros [->|Q]; tauto.
Qed.
Lemma Forall2_perm {A B} (R : A -> B -> Prop) l m : Forall2 R l m -> forall l', Permutation l l' -> exists m', Permutation m m' /\ Forall2 R l' m'.
Proof.
  intros F l' P. revert m F. induction P as [|x l l' P IH|x y l|l l1 l2 P1 IH1 P2 IH2]; intros m F.
  - inversion F. exists []. auto.
  - inversion F as [|? y ? m0 Rxy F0]; subst. destruct (IH _ F0) as (m' & Q & G). exists (y :: m'). auto.
  - inversion F as [|? a ? m0 R1 F0]; subst. inversion F0 as [|? b ? m1 R2 F1]; subst. exists (b :: a :: m1). split; [apply perm_swap|auto].
  - destruct (IH1 _ F) as (m1 & Q1 & G1). destruct (IH2 _ G1) as (m2 & Q2 & G2). exists m2. split; [eapply perm_trans; eassumption|exact G2].
Qed.
Lemma same_fst d e : same_entries d e -> map fst d = map fst e.
Proof. induction 1 as [|x y d e [A _] _ IH]; cbn; congruence. Qed.
Lemma lookup_entries d e : NoDup (map fst d) -> map fst d = map fst e -> (forall k v w, In (k, v) d -> In (k, w) e -> equals v w) -> same_entries d e.
Proof.
  revert e. induction d as [|[k v] d IH]; intros [|[j w] e] N E H; cbn in E; try discriminate; [constructor|]. injection E as -> E. inversion N; subst. constructor.
  - split; [reflexivity|]. cbn. apply (H j); left; reflexivity.
  - apply IH; [assumption|exact E|]. intros q x y I J. apply (H q); right; assumption.
Qed.
Theorem C120_equal : forall a b u v sh sh', distinct_names a -> distinct_names b -> make_wrapper sh a = Ok u -> make_wrapper sh' b = Ok v ->
  (wrapper_eqb u v = true <-> sh = sh' /\ exists b', Permutation b b' /\ same_entries a b').
Proof.
  intros a b u v sh sh' Da Db A B.
  destruct (C120_construct sh a) as [[E _]|(u' & E & Cu & _ & Ou & Pu)]; rewrite A in E; [discriminate|]. injection E as <-. specialize (Pu Da).
  destruct (C120_construct sh' b) as [[E _]|(v' & E & Cv & _ & Ov & Pv)]; rewrite B in E; [discriminate|]. injection E as <-. specialize (Pv Db).
  unfold wrapper_eqb. rewrite andb_true_iff, class_eqb_spec, dict_eqb_spec, Cu, Cv. split.
  - intros [<- S]. split; [reflexivity|]. destruct (Forall2_perm _ _ _ S _ Pu) as (b' & P & F). exists b'. split; [|exact F]. eapply perm_trans; [apply Permutation_sym, Pv|exact P].
  - intros [<- (b' & P & S)]. split; [reflexivity|].
    assert (Nu : NoDup (map fst (to_dict u))) by (apply (Permutation_NoDup (Permutation_map fst (Permutation_sym Pu))), Da).
    assert (K : forall k, In k (map fst (to_dict u)) <-> In k (map fst (to_dict v))).
    { intros k. assert (Q : Permutation (map fst (to_dict u)) (map fst (to_dict v))).
      { eapply perm_trans; [apply Permutation_map, Pu|]. rewrite (same_fst _ _ S). apply Permutation_map. eapply perm_trans; [apply Permutation_sym, P|apply Permutation_sym, Pv]. }
      split; apply Permutation_in; [exact Q|apply Permutation_sym, Q]. }
    apply lookup_entries; [exact Nu| |].
    + destruct (in_order_sorted_same _ _ _ (names_nodup sh) Ou Ov) as [Q|(k & [[I J]|[I J]])]; [exact Q| |]; apply K in I; contradiction.
    + intros k x y I J. apply (Permutation_in _ Pu) in I. apply (Permutation_in _ Pv), (Permutation_in _ P) in J.
      assert (Nb : NoDup (map fst b')) by (rewrite <- (same_fst _ _ S); exact Da).
      clear - S I J Nb. induction S as [|[k1 x1] [k2 x2] a b' [E R] S IH]; [destruct I|]. cbn [fst snd map] in *. subst. inversion Nb as [|? ? N Nb']; subst.
      destruct I as [I|I], J as [J|J].
      * injection I as <- <-. injection J as <-. exact R.
      * injection I as <- <-. destruct N. apply in_map_iff. exists (k2, y). auto.
      * injection J as <- <-. destruct N. rewrite <- (same_fst _ _ S). apply in_map_iff. exists (k2, x). auto.
      * auto.
Qed.
Print Assumptions C120_equal.
Definition the_side (sh : shorthand) : bool := match sh with S_border => false | _ => true end.
Lemma short_kw c sh : distinct_names (map (fun qv : prop * pyval => (prop_name (fst qv), snd qv)) (get_short c sh))
  /\ (forall k v, In (k, v) (map (fun qv : prop * pyval => (prop_name (fst qv), snd qv)) (get_short c sh)) <->
       sh <> S_border /\ exists l, In l (longhands_of (Short sh)) /\ k = long_name l /\ c_store c l = Some v)
  /\ (forall k v, In (k, v) (map (fun qv : prop * pyval => (prop_name (fst qv), snd qv)) (get_short c sh)) -> In k (part_names sh)).
Proof.
  split; [|split].
  - unfold distinct_names, get_short. destruct sh as [[]| |]; cbn;
      repeat match goal with |- context [c_store c ?l] => destruct (c_store c l) end; cbn; repeat constructor; cbn; intuition discriminate.
  - intros k v. rewrite in_map_iff. unfold get_short. split.
    + intros ([q x] & E & I). injection E as <- <-. apply in_flat_map in I. destruct I as ([cmp p] & I & J). cbn [snd] in J.
      destruct p as [l| |]; [|destruct J..]. destruct (c_store c l) as [y|] eqn:S; [|destruct J]. destruct J as [J|[]]. injection J as <- <-.
      split; [intros ->; cbn in I; intuition discriminate|]. exists l. split; [|auto].
      destruct sh as [[]| |]; cbn in I; intuition (try discriminate); match goal with H : (_, _) = (_, _) |- _ => injection H as _ <- end; cbn; auto.
    + intros (N & l & I & -> & S). exists (Long l, v). split; [reflexivity|]. apply in_flat_map.
      destruct sh as [[]| |]; [..|congruence|]; cbn in I; intuition subst; match goal with S : c_store c ?l = _ |- _ =>
        first [exists (CWidth, Long l); split; [cbn; tauto|] | exists (CStyle, Long l); split; [cbn; tauto|] | exists (CColor, Long l); split; [cbn; tauto|]] end; cbn [snd]; rewrite S; left; reflexivity.
  - intros k v. rewrite in_map_iff. intros ([q x] & E & I). injection E as <- <-. unfold get_short in I. apply in_flat_map in I. destruct I as ([cmp p] & I & J). cbn [snd] in J.
    rewrite <- names_are. unfold key_names. apply in_map_iff. exists (cmp, p). split; [|exact I]. cbn [snd fst]. destruct p as [l| |]; [|destruct J..]. destruct (c_store c l); [|destruct J].
    destruct J as [J|[]]. injection J as <- <-. reflexivity.
Qed.
Theorem C120_read : forall c sh, exists r, read_short c sh = Ok r
  /\ match r with
     | None => sh = S_border \/ forall l, In l (longhands_of (Short sh)) -> c_store c l = None
     | Some w => w_class w = sh /\ in_order (to_dict w) (part_names sh)
         /\ (forall k v, In (k, v) (to_dict w) <-> sh <> S_border /\ exists l, In l (longhands_of (Short sh)) /\ k = python_name (Long l) /\ c_store c l = Some v)
         /\ to_dict w <> []
     end.
Proof.
  intros c sh. destruct (short_kw c sh) as (D & M & N). unfold read_short. destruct (get_short c sh) as [|x l] eqn:G.
  - exists None. split; [reflexivity|]. cbn in M. assert (Q : sh = S_border \/ sh <> S_border) by (destruct sh; [right|left|right]; congruence).
    destruct Q as [Q|Q]; [auto|]. right. intros l I. destruct (c_store c l) as [v|] eqn:S; [|reflexivity]. destruct (proj2 (M (long_name l) v)). split; [exact Q|]. exists l. auto.
  - set (kw := map _ _) in *. destruct (C120_construct sh kw) as [(_ & k & v & I & J)|(w & E & Cw & _ & O & P)]; [destruct J; exact (N k v I)|].
    exists (Some w). rewrite E. split; [reflexivity|]. split; [exact Cw|]. split; [exact O|]. specialize (P D). split.
    + intros k v. transitivity (In (k, v) kw); [|rewrite M; split; intros (NB & l0 & I & K & S); (split; [exact NB|]; exists l0; rewrite ?long_python in *; auto)]. split; apply Permutation_in; [exact P|apply Permutation_sym, P].
    + intros Z. rewrite Z in P. apply Permutation_nil in P. discriminate.
Qed.
Print Assumptions C120_read.
Definition narrow_outline : list (string * pyval) := [("outline_width", VUnit (mkU KPx (PI 1))); ("outline_style", VStr "solid")].
Example C120_example : distinct_names narrow_outline
  /\ (exists w w', make_wrapper S_outline narrow_outline = Ok w /\ make_wrapper S_outline (rev narrow_outline) = Ok w'
        /\ map fst (to_dict w) = ["outline_style"; "outline_width"] /\ wrapper_eqb w w' = true)
  /\ make_wrapper (S_border_side STop) narrow_outline = Err ValueError.
Proof.
  split; [cbn; repeat constructor; cbn; intuition discriminate|]. split; [|reflexivity]. eexists. eexists. split; [reflexivity|]. split; [reflexivity|]. split; vm_compute; reflexivity.
Qed.

(** ** C121 *)
Lemma find_obj_map table x l : find_obj x (map (the_object table) l) = option_map (the_object table) (find_const x l).
Proof. induction l as [|c l IH]; cbn; [reflexivity|]. destruct (py_eqb x c); [reflexivity|exact IH]. Qed.
Lemma find_obj_val x l : option_map o_val (find_obj x l) = find_const x (map o_val l).
Proof. induction l as [|c l IH]; cbn; [reflexivity|]. destruct (py_eqb x (o_val c)); [reflexivity|exact IH]. Qed.
Lemma find_obj_in x l c : find_obj x l = Some c -> In c l.
Proof. induction l as [|d l IH]; cbn; [discriminate|]. destruct (py_eqb x (o_val d)); [intros Q; injection Q as <-; auto|auto]. Qed.
Theorem C121_contents : forall fresh order order' constants defaulting ch n v,
  map o_val (order constants) = order' (ch_constants ch) -> map o_val defaulting = ch_defaulting ch ->
  match validate_obj fresh order constants defaulting (ch_validators ch) n v with
  | Ok (r, m) => validate order' ch n (o_val v) = Ok (o_val r, m)
      /\ (o_id r = fresh \/ In r (order constants) \/ In r defaulting)
  | Err e => validate order' ch n (o_val v) = Err e
  end.
Proof.
  intros fresh order order' constants defaulting ch n v A B. unfold validate_obj, validate. destruct (first_valid _ n (o_val v)) as [[[w m]|]|e]; cbn [bindr]; [auto| |reflexivity].
  rewrite <- A, <- B, <- !find_obj_val. destruct (find_obj _ (order constants)) as [c|] eqn:E; cbn [option_map].
  - split; [reflexivity|]. right. left. eapply find_obj_in, E.
  - destruct (find_obj _ defaulting) as [c|] eqn:E'; cbn [option_map]; [|reflexivity]. split; [reflexivity|]. right. right. eapply find_obj_in, E'.
Qed.
Print Assumptions C121_contents.
Lemma objects_back table l : Forall (fun r => r = the_object table (o_val r)) l -> l = map (the_object table) (map o_val l).
Proof. induction 1 as [|r l E _ IH]; cbn; [reflexivity|]. congruence. Qed.
Lemma the_values table l : map o_val (map (the_object table) l) = l.
Proof. induction l as [|x l IH]; cbn; congruence. Qed.
Theorem C121_identity : forall table fresh order p n i s, (forall l, Permutation l (order l)) -> In s (keywords p) ->
  validate_obj fresh order (map (the_object table) (ch_constants (choices_of p))) (map (the_object table) (ch_defaulting (choices_of p)))
    (ch_validators (choices_of p)) n (mkObj i (VStr s))
  = Ok (the_object table (constant_for s), n).
Proof.
  intros table fresh order p n i s P K. destruct (keywords_constants p s K) as [I F]. cbv zeta in I.
  set (o := fun m => map o_val (order (map (the_object table) m))).
  assert (PO : forall m, Permutation m (o m)). { intros m. unfold o. rewrite <- (the_values table m) at 1. apply Permutation_map, P. }
  pose proof (const_value p (VStr s) o n PO (proj1 (F n)) I) as Q.
  assert (B : order (map (the_object table) (ch_constants (choices_of p))) = map (the_object table) (o (ch_constants (choices_of p)))).
  { apply objects_back. apply (Permutation_Forall (P _)). apply Forall_forall. intros r R. apply in_map_iff in R. destruct R as (x & <- & _). reflexivity. }
  unfold validate in Q. unfold validate_obj. cbn [o_val]. rewrite (proj1 (F n)) in *. cbn [bindr] in *. rewrite B, !find_obj_map. unfold constant_for. cbn [py_eqb] in *.
  destruct (find_const _ (o _)); cbn [option_map]; [injection Q as ->; reflexivity|]. destruct (find_const _ _); cbn [option_map]; [injection Q as ->; reflexivity|discriminate].
Qed.
Print Assumptions C121_identity.
(** Two different strings that spell auto, given for two properties, are kept as the same object. *)
Example C121_example : In "auto" (keywords L_width) /\ In "auto" (keywords (L_margin SLeft))
  /\ (let table := fun v => match v with VStr "auto" => 7%nat | _ => 8%nat end in
      let run p i := validate_obj 99%nat (@rev obj) (map (the_object table) (ch_constants (choices_of p))) (map (the_object table) (ch_defaulting (choices_of p)))
                       (ch_validators (choices_of p)) 0%nat (mkObj i (VStr "auto")) in
      run L_width 1%nat = Ok (mkObj 7 (VStr "auto"), 0%nat) /\ run (L_margin SLeft) 2%nat = Ok (mkObj 7 (VStr "auto"), 0%nat)).
Proof. vm_compute. intuition auto. Qed.
