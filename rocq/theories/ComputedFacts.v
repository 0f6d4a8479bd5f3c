(** * Facts about the engine's view of a declaration *)
From Coq Require Import ZArith QArith Qcanon Bool String List Permutation.
From Verif Require Import PyNum NumFacts Units BoxModel Engine EngineSim Float64 PyStr Colors Values Parser Choices Shorthand Decl
  DeclSpec DeclFacts DeclNorm DeclProps2 Computed ComputedSpec.
Import ListNotations.
Open Scope string_scope.

(** The values a property of keywords and lengths can have. *)
Definition kind_ok (p : longhand) (v : pyval) : Prop :=
  In v (ch_constants (choices_of p)) \/ In v (ch_defaulting (choices_of p))
  \/ (ch_validators (choices_of p) <> [] /\ exists u, v = VUnit u).
Definition of_lengths (p : longhand) : Prop :=
  forall f, In f (ch_validators (choices_of p)) -> f = is_length \/ f = is_percentage.
Lemma validated_kind ho p i v w j : valid_order ho -> of_lengths p -> validate (ho_set ho) (choices_of p) i v = Ok (w, j) -> kind_ok p w.
Proof.
  intros V L H. apply validate_inv in H; [|apply choices_of_ok|apply V]. destruct H as [(f & F & H)|(_ & _ & _ & I)].
  - right. right. split; [intros E; rewrite E in F; destruct F|]. destruct (L f F) as [-> | ->]; cbn [run_validator] in H;
    destruct (as_validation (units v)) as [u|]; cbn [bindr] in H; try discriminate.
    + injection H as <- _. eauto.
    + destruct (u_kind u); try discriminate. destruct (u_ltb _ _); [discriminate|]. injection H as <- _. eauto.
  - unfold kind_ok. tauto.
Qed.
(** Every stored value is the result of a validation (so it is after any
    history, and for copies). *)
Definition stored_ok (ho : hash_order) (c : css) : Prop :=
  forall p w, c_store c p = Some w -> exists v i j, validate (ho_set ho) (choices_of p) i v = Ok (w, j).
Lemma reachable_stored ho c k : valid_order ho -> reachable ho c k -> stored_ok ho c.
Proof. intros V R p w S. exact (stored_validated ho c k p w V R S). Qed.
Lemma reads_kind ho c p : valid_order ho -> stored_ok ho c -> of_lengths p -> ~ follower p -> kind_ok p (css_initial p) ->
  exists v, get_long ho c p = Ok v /\ kind_ok p v.
Proof.
  intros V R L F I. rewrite (get_long_plain _ _ _ V F). destruct (c_store c p) as [w|] eqn:S; [|eauto].
  destruct (R p w S) as (v & i & j & E). exists w. split; [reflexivity|]. exact (validated_kind _ _ _ _ _ _ V L E).
Qed.
Lemma field {A} ho c p (f : pyval -> option A) (show : A -> pyval) : valid_order ho -> stored_ok ho c ->
  of_lengths p -> ~ follower p -> kind_ok p (css_initial p) ->
  (forall v, kind_ok p v -> exists x, f v = Some x /\ show x = v) ->
  exists x, rd ho c p f = Some x /\ get_long ho c p = Ok (show x).
Proof.
  intros V R L F I H. destruct (reads_kind ho c p V R L F I) as (v & E & K). destruct (H v K) as (x & X & <-). exists x.
  unfold rd. rewrite E. auto.
Qed.
Ltac no_follow := intros [x X]; inversion X.
Ltac all_lengths := let f := fresh in let F := fresh in intros f F; cbn in F; intuition congruence.
Ltac initial_kind := unfold kind_ok; cbn; first [tauto | right; right; split; [discriminate|eexists; reflexivity]].
Ltac every_kind := let v := fresh in let K := fresh in intros v K; unfold kind_ok in K; cbn in K;
  repeat match type of K with _ \/ _ => destruct K as [K|K] end; try contradiction;
  try (subst; eexists; split; reflexivity);
  try (let E := fresh in let u := fresh in destruct K as [E [u ->]]; try (exfalso; apply E; reflexivity); eexists; split; reflexivity).
Ltac the_field R p f show := apply (field _ _ p f show ltac:(eassumption) R); [all_lengths|no_follow|initial_kind|every_kind].

Section View.
Variables (ho : hash_order) (c : css) (V : valid_order ho) (R : stored_ok ho c).
Lemma f_display : exists x, rd ho c L_display (as_opt_word display_words) = Some x /\ get_long ho c L_display = Ok (or_none (fun d => VStr (display_text d)) x).
Proof. the_field R L_display (as_opt_word display_words) (or_none (fun d => VStr (display_text d))). Qed.
Lemma f_position : exists x, rd ho c L_position (as_word position_words) = Some x /\ get_long ho c L_position = Ok (VStr (position_text x)).
Proof. the_field R L_position (as_word position_words) (fun x => VStr (position_text x)). Qed.
Lemma f_float : exists x, rd ho c L_float (as_opt_word float_words) = Some x /\ get_long ho c L_float = Ok (or_none (fun d => VStr (float_text d)) x).
Proof. the_field R L_float (as_opt_word float_words) (or_none (fun d => VStr (float_text d))). Qed.
Lemma f_direction : exists x, rd ho c L_direction (as_word direction_words) = Some x /\ get_long ho c L_direction = Ok (VStr (direction_text x)).
Proof. the_field R L_direction (as_word direction_words) (fun x => VStr (direction_text x)). Qed.
Lemma f_size p : In p [L_width; L_height; L_min_width; L_min_height] -> exists x, rd ho c p as_lenauto = Some x /\ get_long ho c p = Ok (show_lenauto x).
Proof. intros I. repeat destruct I as [<-|I]; try contradiction; the_field R uconstr:(_) as_lenauto show_lenauto. Qed.
Lemma f_max p : In p [L_max_width; L_max_height] -> exists x, rd ho c p as_max = Some x /\ get_long ho c p = Ok (or_none VUnit x).
Proof. intros I. repeat destruct I as [<-|I]; try contradiction; the_field R uconstr:(_) as_max (or_none VUnit). Qed.
Lemma f_margin s : exists x, rd ho c (L_margin s) as_lenauto = Some x /\ get_long ho c (L_margin s) = Ok (show_lenauto x).
Proof. the_field R (L_margin s) as_lenauto show_lenauto. Qed.
Lemma f_padding s : exists x, rd ho c (L_padding s) as_length = Some x /\ get_long ho c (L_padding s) = Ok (VUnit x).
Proof. the_field R (L_padding s) as_length VUnit. Qed.
Lemma f_bwidth s : exists x, rd ho c (L_border_width s) as_bwidth = Some x /\ get_long ho c (L_border_width s) = Ok (show_bwidth x).
Proof. the_field R (L_border_width s) as_bwidth show_bwidth. Qed.
Lemma f_offset s : exists x, rd ho c (L_offset s) as_offset = Some x /\ get_long ho c (L_offset s) = Ok (show_offset x).
Proof. the_field R (L_offset s) as_offset show_offset. Qed.
Lemma f_bstyle s : exists x, rd ho c (L_border_style s) (as_opt_word border_style_words) = Some x /\ get_long ho c (L_border_style s) = Ok (or_none (fun d => VStr (border_style_text d)) x).
Proof. the_field R (L_border_style s) (as_opt_word border_style_words) (or_none (fun d => VStr (border_style_text d))). Qed.

Lemma computed_view : exists s, computed ho c = Some s /\ forall p v, shows s p = Some v -> get_long ho c p = Ok v.
Proof.
  destruct f_display as (di & E1 & G1), f_position as (po & E2 & G2), f_float as (fl & E3 & G3), f_direction as (dr & E4 & G4).
  destruct (f_size L_width) as (w & E5 & G5); [cbn; tauto|]. destruct (f_size L_height) as (h & E6 & G6); [cbn; tauto|].
  destruct (f_size L_min_width) as (mw & E7 & G7); [cbn; tauto|]. destruct (f_size L_min_height) as (mh & E8 & G8); [cbn; tauto|].
  destruct (f_max L_max_width) as (xw & E9 & G9); [cbn; tauto|]. destruct (f_max L_max_height) as (xh & E10 & G10); [cbn; tauto|].
  destruct (f_margin STop) as (mt & E11 & G11), (f_margin SRight) as (mr & E12 & G12), (f_margin SBottom) as (mb & E13 & G13), (f_margin SLeft) as (ml & E14 & G14).
  destruct (f_padding STop) as (pt & E15 & G15), (f_padding SRight) as (pr & E16 & G16), (f_padding SBottom) as (pb & E17 & G17), (f_padding SLeft) as (pl & E18 & G18).
  destruct (f_bwidth STop) as (bt & E19 & G19), (f_bwidth SRight) as (br & E20 & G20), (f_bwidth SBottom) as (bb & E21 & G21), (f_bwidth SLeft) as (bl & E22 & G22).
  destruct (f_offset STop) as (ot & E23 & G23), (f_offset SRight) as (or' & E24 & G24), (f_offset SBottom) as (ob & E25 & G25), (f_offset SLeft) as (ol & E26 & G26).
  destruct (f_bstyle STop) as (st & E27 & G27), (f_bstyle SRight) as (sr & E28 & G28), (f_bstyle SBottom) as (sb & E29 & G29), (f_bstyle SLeft) as (sl & E30 & G30).
  exists (mkStyle di po fl dr w h mw mh xw xh mt mr mb ml pt pr pb pl bt br bb bl ot or' ob ol st sr sb sl). split.
  - unfold computed. rewrite E1. cbn [obind]. rewrite E2. cbn [obind]. rewrite E3. cbn [obind]. rewrite E4. cbn [obind]. rewrite E5. cbn [obind]. rewrite E6. cbn [obind].
    rewrite E7. cbn [obind]. rewrite E8. cbn [obind]. rewrite E9. cbn [obind]. rewrite E10. cbn [obind]. rewrite E11. cbn [obind]. rewrite E12. cbn [obind].
    rewrite E13. cbn [obind]. rewrite E14. cbn [obind]. rewrite E15. cbn [obind]. rewrite E16. cbn [obind]. rewrite E17. cbn [obind]. rewrite E18. cbn [obind].
    rewrite E19. cbn [obind]. rewrite E20. cbn [obind]. rewrite E21. cbn [obind]. rewrite E22. cbn [obind]. rewrite E23. cbn [obind]. rewrite E24. cbn [obind].
    rewrite E25. cbn [obind]. rewrite E26. cbn [obind]. rewrite E27. cbn [obind]. rewrite E28. cbn [obind]. rewrite E29. cbn [obind]. rewrite E30. reflexivity.
  - intros p v S. destruct p; repeat match goal with d : side |- _ => destruct d end; cbn in S; try discriminate; injection S as <-; assumption.
Qed.
End View.

(** The view is determined by what it shows. *)
Lemma words_inj : (forall a b, display_text a = display_text b -> a = b) /\ (forall a b, position_text a = position_text b -> a = b)
  /\ (forall a b, float_text a = float_text b -> a = b) /\ (forall a b, direction_text a = direction_text b -> a = b)
  /\ (forall a b, border_style_text a = border_style_text b -> a = b) /\ (forall a b, border_width_text a = border_width_text b -> a = b).
Proof. repeat split; intros [] []; cbn; congruence. Qed.
Lemma or_none_inj {A} (f : A -> pyval) : (forall a b, f a = f b -> a = b) -> (forall a, f a <> VNone) -> forall x y, or_none f x = or_none f y -> x = y.
Proof. intros H N [x|] [y|] E; cbn in E; [f_equal; auto|destruct (N _ E)|destruct (N _ (eq_sym E))|reflexivity]. Qed.
Lemma shows_inj s t : (forall p, shows s p = shows t p) -> s = t.
Proof.
  intros H. destruct words_inj as (W1 & W2 & W3 & W4 & W5 & W6).
  assert (LA : forall a b, Some (show_lenauto a) = Some (show_lenauto b) -> a = b) by (intros [] []; cbn; congruence).
  assert (BW : forall a b, Some (show_bwidth a) = Some (show_bwidth b) -> a = b).
  { intros [] [] E; cbn in E; try discriminate; injection E; intros; [f_equal; apply W6; assumption|congruence]. }
  assert (OF : forall a b, Some (show_offset a) = Some (show_offset b) -> a = b) by (intros [] []; cbn; congruence).
  assert (MX : forall a b, Some (or_none VUnit a) = Some (or_none VUnit b) -> a = b) by (intros [] []; cbn; congruence).
  assert (DI : forall a b, Some (or_none (fun d => VStr (display_text d)) a) = Some (or_none (fun d => VStr (display_text d)) b) -> a = b).
  { intros a b E. injection E as E. revert E. apply or_none_inj; [|discriminate]. intros x y E. injection E. apply W1. }
  assert (FL : forall a b, Some (or_none (fun d => VStr (float_text d)) a) = Some (or_none (fun d => VStr (float_text d)) b) -> a = b).
  { intros a b E. injection E as E. revert E. apply or_none_inj; [|discriminate]. intros x y E. injection E. apply W3. }
  assert (BS : forall a b, Some (or_none (fun d => VStr (border_style_text d)) a) = Some (or_none (fun d => VStr (border_style_text d)) b) -> a = b).
  { intros a b E. injection E as E. revert E. apply or_none_inj; [|discriminate]. intros x y E. injection E. apply W5. }
  assert (PO : forall a b, Some (VStr (position_text a)) = Some (VStr (position_text b)) -> a = b) by (intros a b E; apply W2; congruence).
  assert (DR : forall a b, Some (VStr (direction_text a)) = Some (VStr (direction_text b)) -> a = b) by (intros a b E; apply W4; congruence).
  assert (PD : forall a b, Some (VUnit a) = Some (VUnit b) -> a = b) by congruence.
  assert (E0 : st_display s = st_display t) by (apply DI; exact (H L_display)).
  assert (E1 : st_position s = st_position t) by (apply PO; exact (H L_position)).
  assert (E2 : st_float s = st_float t) by (apply FL; exact (H L_float)).
  assert (E3 : st_direction s = st_direction t) by (apply DR; exact (H L_direction)).
  assert (E4 : st_width s = st_width t) by (apply LA; exact (H L_width)).
  assert (E5 : st_height s = st_height t) by (apply LA; exact (H L_height)).
  assert (E6 : st_min_width s = st_min_width t) by (apply LA; exact (H L_min_width)).
  assert (E7 : st_min_height s = st_min_height t) by (apply LA; exact (H L_min_height)).
  assert (E8 : st_max_width s = st_max_width t) by (apply MX; exact (H L_max_width)).
  assert (E9 : st_max_height s = st_max_height t) by (apply MX; exact (H L_max_height)).
  assert (E10 : st_margin_top s = st_margin_top t) by (apply LA; exact (H (L_margin STop))).
  assert (E11 : st_margin_right s = st_margin_right t) by (apply LA; exact (H (L_margin SRight))).
  assert (E12 : st_margin_bottom s = st_margin_bottom t) by (apply LA; exact (H (L_margin SBottom))).
  assert (E13 : st_margin_left s = st_margin_left t) by (apply LA; exact (H (L_margin SLeft))).
  assert (E14 : st_padding_top s = st_padding_top t) by (apply PD; exact (H (L_padding STop))).
  assert (E15 : st_padding_right s = st_padding_right t) by (apply PD; exact (H (L_padding SRight))).
  assert (E16 : st_padding_bottom s = st_padding_bottom t) by (apply PD; exact (H (L_padding SBottom))).
  assert (E17 : st_padding_left s = st_padding_left t) by (apply PD; exact (H (L_padding SLeft))).
  assert (E18 : st_border_top s = st_border_top t) by (apply BW; exact (H (L_border_width STop))).
  assert (E19 : st_border_right s = st_border_right t) by (apply BW; exact (H (L_border_width SRight))).
  assert (E20 : st_border_bottom s = st_border_bottom t) by (apply BW; exact (H (L_border_width SBottom))).
  assert (E21 : st_border_left s = st_border_left t) by (apply BW; exact (H (L_border_width SLeft))).
  assert (E22 : st_top s = st_top t) by (apply OF; exact (H (L_offset STop))).
  assert (E23 : st_right s = st_right t) by (apply OF; exact (H (L_offset SRight))).
  assert (E24 : st_bottom s = st_bottom t) by (apply OF; exact (H (L_offset SBottom))).
  assert (E25 : st_left s = st_left t) by (apply OF; exact (H (L_offset SLeft))).
  assert (E26 : st_border_top_style s = st_border_top_style t) by (apply BS; exact (H (L_border_style STop))).
  assert (E27 : st_border_right_style s = st_border_right_style t) by (apply BS; exact (H (L_border_style SRight))).
  assert (E28 : st_border_bottom_style s = st_border_bottom_style t) by (apply BS; exact (H (L_border_style SBottom))).
  assert (E29 : st_border_left_style s = st_border_left_style t) by (apply BS; exact (H (L_border_style SLeft))).
  clear - E0 E1 E2 E3 E4 E5 E6 E7 E8 E9 E10 E11 E12 E13 E14 E15 E16 E17 E18 E19 E20 E21 E22 E23 E24 E25 E26 E27 E28 E29.
  destruct s, t. cbn in *. subst. reflexivity.
Qed.
Lemma shows_dom s t p : shows s p = None -> shows t p = None.
Proof. destruct p; repeat match goal with d : side |- _ => destruct d end; cbn; congruence. Qed.

(** ** Values that compare equal are alike to the engine *)
Lemma num_eqb_pval a b : py_num_eqb a b = true -> pval a = pval b.
Proof.
  unfold py_num_eqb. destruct (pval a) as [x|s|], (pval b) as [y|t|]; cbn; try discriminate.
  - intros E. f_equal. apply Qc_eq_bool_correct, E.
  - intros E. f_equal. apply eqb_prop, E.
Qed.
Lemma alike_eqb u v : u_kind u = u_kind v -> py_num_eqb (u_val u) (u_val v) = true -> alike u v.
Proof.
  intros K E. apply num_eqb_pval in E. split.
  - intros c. unfold px, lu. rewrite K, E. reflexivity.
  - unfold u_eq_int. rewrite K. destruct (u_kind v); try reflexivity. unfold py_num_eqb. rewrite E. reflexivity.
Qed.
