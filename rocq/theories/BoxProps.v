(** * Properties C37-C42, C68-C70: boxes, trees of boxes, intrinsic sizes *)
From Coq Require Import ZArith QArith Qcanon Lqa Lia Bool List.
From Verif Require Import PyNum NumFacts BoxModel BoxSpec BoxFacts.
Import ListNotations.
Open Scope Qc_scope.

(** C37.  For every box with numeric sizes, all computed sides are defined;
    right - left = width, bottom - top = height for the three boxes, and each
    box extends the inner one by exactly its padding/border. *)
Theorem C37_boxes_nested : forall b w h,
  content_width b = LNum w -> content_height b = LNum h ->
  exists cr cb pr pb pw ph br bb bw bh,
    content_right b = Ok cr /\ content_bottom b = Ok cb
    /\ padding_box_right b = Ok pr /\ padding_box_bottom b = Ok pb
    /\ padding_box_width b = Ok pw /\ padding_box_height b = Ok ph
    /\ border_box_right b = Ok br /\ border_box_bottom b = Ok bb
    /\ border_box_width b = Ok bw /\ border_box_height b = Ok bh
    (* right - left = width, bottom - top = height *)
    /\ nval cr - nval (content_left b) = nval w /\ nval cb - nval (content_top b) = nval h
    /\ nval pr - nval (padding_box_left b) = nval pw /\ nval pb - nval (padding_box_top b) = nval ph
    /\ nval br - nval (border_box_left b) = nval bw /\ nval bb - nval (border_box_top b) = nval bh
    (* padding box = content box + paddings *)
    /\ nval (content_left b) - nval (padding_box_left b) = nval (padding_left b)
    /\ nval (content_top b) - nval (padding_box_top b) = nval (padding_top b)
    /\ nval pr - nval cr = nval (padding_right b) /\ nval pb - nval cb = nval (padding_bottom b)
    (* border box = padding box + borders *)
    /\ nval (padding_box_left b) - nval (border_box_left b) = nval (border_left_width b)
    /\ nval (padding_box_top b) - nval (border_box_top b) = nval (border_top_width b)
    /\ nval br - nval pr = nval (border_right_width b) /\ nval bb - nval pb = nval (border_bottom_width b).
Proof.
  intros b w h Hw Hh.
  unfold content_right, content_bottom, padding_box_right, padding_box_bottom, padding_box_width,
    padding_box_height, border_box_right, border_box_bottom, border_box_width, border_box_height,
    padding_box_left, padding_box_top, border_box_left, border_box_top.
  rewrite Hw, Hh. cbn [as_num bindr]. do 10 eexists. repeat split; repeat (rewrite nval_add || rewrite nval_sub); ring.
Qed.
Print Assumptions C37_boxes_nested.

(** C37, containment: non-negative paddings and borders give nested boxes. *)
Theorem C37_containment : forall b cr cb pr pb br bb,
  content_right b = Ok cr -> content_bottom b = Ok cb ->
  padding_box_right b = Ok pr -> padding_box_bottom b = Ok pb ->
  border_box_right b = Ok br -> border_box_bottom b = Ok bb ->
  0 <= nval (padding_top b) -> 0 <= nval (padding_right b) ->
  0 <= nval (padding_bottom b) -> 0 <= nval (padding_left b) ->
  0 <= nval (border_top_width b) -> 0 <= nval (border_right_width b) ->
  0 <= nval (border_bottom_width b) -> 0 <= nval (border_left_width b) ->
  nval (border_box_left b) <= nval (padding_box_left b)
  /\ nval (padding_box_left b) <= nval (content_left b)
  /\ nval cr <= nval pr /\ nval pr <= nval br
  /\ nval (border_box_top b) <= nval (padding_box_top b)
  /\ nval (padding_box_top b) <= nval (content_top b)
  /\ nval cb <= nval pb /\ nval pb <= nval bb.
Proof.
  intros b cr cb pr pb br bb H1 H2 H3 H4 H5 H6.
  assert (exists w, content_width b = LNum w) as [w Hw].
  { unfold content_right in H1. destruct (content_width b); [eauto|discriminate|discriminate]. }
  assert (exists h, content_height b = LNum h) as [h Hh].
  { unfold content_bottom in H2. destruct (content_height b); [eauto|discriminate|discriminate]. }
  unfold content_right, content_bottom, padding_box_right, padding_box_bottom, border_box_right,
    border_box_bottom in *.
  rewrite Hw in *; rewrite Hh in *; cbn [as_num bindr] in *.
  apply Ok_inj in H1, H2, H3, H4, H5, H6. subst. intros.
  unfold padding_box_left, padding_box_top, border_box_left, border_box_top.
  repeat split; repeat (rewrite nval_add || rewrite nval_sub); qclra.
Qed.
Print Assumptions C37_containment.

Example C37_example : exists b w h cr br,
  content_width b = LNum w /\ content_height b = LNum h /\ content_right b = Ok cr /\ border_box_right b = Ok br
  /\ 0 <= nval (padding_left b) /\ 0 <= nval (border_left_width b) /\ nval cr <> nval br.
Proof.
  exists (mkBox (LNum (NI 10)) (LNum (NF (qfrac 1 2))) (NI 3) (NI 4) (NI 5) (NI 6)
           l0 l0 l0 l0 0 0 0 0 (NI 1) (NI 2) (NI 3) (NI 4) (NI 5) (NI 6) (NI 7) (NI 8) (Some true)).
  do 4 eexists. repeat split; vm_compute; discriminate.
Qed.

(** C38.  absolute = origin + relative, for the three boxes and four sides;
    both sides of each equation are undefined together. *)
Definition shift (o : num) (r : res num) (a : res num) : Prop :=
  match r, a with
  | Ok x, Ok y => nval y = nval o + nval x
  | Err e, Err e' => e = e'
  | _, _ => False
  end.
Theorem C38_absolute_is_origin_plus_relative : forall b,
  nval (absolute_content_top b) = nval (origin_top b) + nval (content_top b)
  /\ nval (absolute_content_left b) = nval (origin_left b) + nval (content_left b)
  /\ shift (origin_left b) (content_right b) (absolute_content_right b)
  /\ shift (origin_top b) (content_bottom b) (absolute_content_bottom b)
  /\ nval (absolute_padding_box_top b) = nval (origin_top b) + nval (padding_box_top b)
  /\ nval (absolute_padding_box_left b) = nval (origin_left b) + nval (padding_box_left b)
  /\ shift (origin_left b) (padding_box_right b) (absolute_padding_box_right b)
  /\ shift (origin_top b) (padding_box_bottom b) (absolute_padding_box_bottom b)
  /\ nval (absolute_border_box_top b) = nval (origin_top b) + nval (border_box_top b)
  /\ nval (absolute_border_box_left b) = nval (origin_left b) + nval (border_box_left b)
  /\ shift (origin_left b) (border_box_right b) (absolute_border_box_right b)
  /\ shift (origin_top b) (border_box_bottom b) (absolute_border_box_bottom b).
Proof.
  intros b. unfold shift, absolute_content_top, absolute_content_left, content_right,
    absolute_content_right, content_bottom, absolute_content_bottom, absolute_padding_box_top,
    padding_box_top, absolute_padding_box_left, padding_box_left, padding_box_right,
    absolute_padding_box_right, padding_box_bottom, absolute_padding_box_bottom,
    absolute_border_box_top, border_box_top, absolute_border_box_left, border_box_left,
    border_box_right, absolute_border_box_right, border_box_bottom, absolute_border_box_bottom.
  destruct (content_width b), (content_height b); cbn [as_num bindr];
    repeat split; repeat (rewrite nval_add || rewrite nval_sub); first [ring | reflexivity].
Qed.
Print Assumptions C38_absolute_is_origin_plus_relative.

Section WithStyles.
Context {S : Type}.
Notation node := (node S).

(** C39/C68.  Any sequence of assignments to content_top/content_left of any
    nodes, of dirty flags, and of resets of the whole document. *)
Theorem C39_moves_and_document_resets_partial : forall (os : list box_op) (n : node),
  (forall p, ~ In (OpResetAt p) os) -> consistent n -> consistent (run_ops os n).
Proof. exact run_ops_consistent. Qed.

Theorem C68_moves_and_document_resets : forall (os : list box_op) (n : node),
  (forall p, ~ In (OpResetAt p) os) -> consistent n -> consistent (run_ops os n).
Proof. exact run_ops_consistent. Qed.

(** C41/C70.  After dirty = True on a node, every descendant is dirty, if
    earlier dirtiness assignments other than True were made at the root. *)
Theorem C41_invalidation_reaches_subtree_partial : forall (os : list box_op) (n m : node) p b,
  Forall invalidation_op os -> dirty_closed n ->
  get_path p (run_ops os n) = Some m -> n_box m = Some b ->
  exists m', get_path p (run_op (OpDirty p (Some true)) (run_ops os n)) = Some m' /\ all_dirty m'.
Proof.
  intros os n m p b F H G Hb. exists (set_dirty (Some true) m). split.
  - cbn [run_op]. apply at_path_get. exact G.
  - eapply dirty_true_all; [|exact Hb]. eapply dirty_closed_sub; [|exact G].
    apply run_ops_dirty_closed; assumption.
Qed.

Theorem C70_invalidation_reaches_subtree : forall (os : list box_op) (n m : node) p b,
  Forall invalidation_op os -> dirty_closed n ->
  get_path p (run_ops os n) = Some m -> n_box m = Some b ->
  exists m', get_path p (run_op (OpDirty p (Some true)) (run_ops os n)) = Some m' /\ all_dirty m'.
Proof. exact C41_invalidation_reaches_subtree_partial. Qed.

Lemma store_assigned a i : assigned a i (size_store a i).
Proof. destruct i, a; repeat split. Qed.
(** C42.  Assigning an intrinsic attribute of a node with a layout: nothing
    happens if the value is equal to the old one; otherwise the value is
    stored, the node is dirty, and nothing but dirtiness changes elsewhere. *)
Theorem C42_intrinsic_change_dirties_iff_different : forall a (n : node) b,
  n_box n = Some b ->
  exists n', set_intrinsic a n = (n', Ok tt)
    /\ (same_attr a (n_intr n) -> n' = n)
    /\ (~ same_attr a (n_intr n) ->
        assigned a (n_intr n) (n_intr n')
        /\ (exists b', n_box n' = Some b' /\ dirty b' = Some true)
        /\ n_style n' = n_style n
        /\ option_map (upd_dirty (Some true)) (n_box n') = option_map (upd_dirty (Some true)) (n_box n)
        /\ map erase_dirty (n_kids n') = map erase_dirty (n_kids n)).
Proof.
  intros a [s i bx ks] b Hb. cbn in Hb. subst bx. cbn [set_intrinsic n_intr].
  destruct (size_attr_same a i) eqn:E.
  - exists (Node s i (Some b) ks). split; [reflexivity|]. split; [reflexivity|].
    intros N. exfalso. apply N, size_attr_same_spec, E.
  - exists (set_dirty (Some true) (Node s (size_store a i) (Some b) ks)). split; [reflexivity|]. split.
    + intros Hs. apply size_attr_same_spec in Hs. congruence.
    + intros _. pose proof (erase_dirty_set (Some true) (Node s (size_store a i) (Some b) ks)) as X.
      remember (set_dirty (Some true) (Node s (size_store a i) (Some b) ks)) as m eqn:Hm.
      destruct m as [s' i' bx' ks']. cbn in X. injection X as -> -> X3 X4. cbn [n_intr n_box n_style n_kids].
      split; [apply store_assigned|]. split.
      * destruct bx' as [b'|]; [|discriminate]. exists b'. split; [reflexivity|].
        apply (n_box_set_dirty (Some true) (Node s (size_store a i) (Some b) ks)).
        rewrite <- Hm. reflexivity.
      * split; [reflexivity|]. split; [exact X3 | exact X4].
Qed.
(** C42, without a layout: the assignment of a new value fails and the value
    stays assigned; that of an equal one does nothing. *)
Theorem C42_without_layout : forall a (n : node), n_box n = None ->
  (same_attr a (n_intr n) -> set_intrinsic a n = (n, Ok tt))
  /\ (~ same_attr a (n_intr n) -> exists n', set_intrinsic a n = (n', Err AttributeError)
        /\ assigned a (n_intr n) (n_intr n') /\ n_style n' = n_style n /\ n_box n' = None /\ n_kids n' = n_kids n).
Proof.
  intros a [s i bx ks] Hb. cbn in Hb. subst bx. cbn [set_intrinsic n_intr n_style n_kids]. destruct (size_attr_same a i) eqn:E.
  - split; [reflexivity|]. intros N. exfalso. apply N, size_attr_same_spec, E.
  - split; [intros Hs; apply size_attr_same_spec in Hs; congruence|]. intros _. eexists. split; [reflexivity|]. cbn [n_intr n_style n_box n_kids].
    split; [apply store_assigned|]. auto.
Qed.
End WithStyles.
Print Assumptions C39_moves_and_document_resets_partial.
Print Assumptions C68_moves_and_document_resets.
Print Assumptions C41_invalidation_reaches_subtree_partial.
Print Assumptions C70_invalidation_reaches_subtree.
Print Assumptions C42_intrinsic_change_dirties_iff_different.
Print Assumptions C42_without_layout.

(** A width given to a laid-out node with a child; the same twice; a ratio given before any layout. *)
Example C42_example :
  let n := Node tt size0 (Some (upd_dirty (Some false) box0)) [Node tt size0 (Some (upd_dirty (Some false) box0)) []] in
  let n' := fst (set_intrinsic (AWidth (Some (NI 20))) n) in
  ~ same_attr (AWidth (Some (NI 20))) (n_intr n) /\ same_attr (AWidth (Some (NF (Z2Qc 20)))) (n_intr n')
  /\ option_map dirty (n_box n) = Some (Some false) /\ option_map dirty (n_box n') = Some (Some true)
  /\ map (fun k => option_map dirty (n_box k)) (n_kids n') = [Some (Some true)]
  /\ ~ same_attr (ARatio (Some (NI 2))) (n_intr (Node tt size0 None [])).
Proof.
  cbn zeta. split; [intros H; inversion H|]. split; [constructor; reflexivity|]. split; [reflexivity|]. split; [reflexivity|]. split; [reflexivity|].
  intros H; inversion H.
Qed.

(** A three-level tree with boxes at various positions, fully consistent. *)
Definition ex_box (t l ot ol : Z) (d : dirt) : box :=
  upd_dirty d (upd_origin_top (NI ot) (upd_origin_left (NI ol)
    (upd_content_top (NI t) (upd_content_left (NI l) box0)))).
Definition ex_tree : node unit :=
  Node tt size0 (Some (ex_box 3 4 0 0 (Some true)))
    [Node tt size0 (Some (ex_box 5 6 3 4 (Some true)))
       [Node tt size0 (Some (ex_box 1 1 8 10 (Some true))) []; Node tt size0 None []];
     Node tt size0 None [Node tt size0 (Some (ex_box 9 9 77 77 None)) []]].

Example C39_example : consistent ex_tree /\ dirty_closed ex_tree.
Proof.
  split; repeat first
    [ progress intros | progress cbn in * | progress subst | discriminate
    | match goal with
      | H : _ \/ _ |- _ => destruct H
      | H : False |- _ => destruct H
      | H : Some _ = Some _ |- _ => injection H as H
      | |- _ /\ _ => split
      | |- consistent _ => constructor
      | |- dirty_closed _ => constructor
      end
    | reflexivity | apply qc_eq; reflexivity ].
Qed.

Example C41_example : exists m b,
  get_path [0%nat] (run_ops [OpDirty [] (Some false); OpTop [0%nat;0%nat] (NI 5); OpDirty [] None] ex_tree) = Some m
  /\ n_box m = Some b /\ dirty b = None
  /\ Forall (@invalidation_op) [OpDirty [] (Some false); OpTop [0%nat;0%nat] (NI 5); OpDirty [] None].
Proof. do 2 eexists. repeat split; try reflexivity. repeat constructor. Qed.

(** C39 refuted for resets of a part of the document: after
    child.layout.reset() the child no longer is where its parent says. *)
Theorem C39_subtree_reset_refuted : exists (n : node unit) os,
  consistent n /\ ~ consistent (run_ops os n).
Proof.
  exists ex_tree, [OpResetAt [0%nat]]. split; [apply C39_example|].
  intros H. inversion H as [s i bx ks _ B]. subst.
  destruct (B _ _ box0 eq_refl (or_introl eq_refl) eq_refl) as [E _]. discriminate E.
Qed.
Print Assumptions C39_subtree_reset_refuted.

(** C41 refuted in general: dirty = True on an already dirty parent does not
    reach a child that was cleaned in between. *)
Theorem C41_cleaned_child_refuted : exists (n : node unit) os,
  dirty_closed n /\ ~ all_dirty (run_op (OpDirty [] (Some true)) (run_ops os n)).
Proof.
  exists ex_tree, [OpDirty [0%nat] (Some false)]. split; [apply C39_example|].
  intros H. inversion H as [s i b ks _ A]. subst.
  specialize (A _ (or_introl eq_refl)). cbn in A.
  assert (X : all_dirty (Node tt size0 (Some (ex_box 5 6 3 4 (Some false)))
       [Node tt size0 (Some (ex_box 1 1 8 10 (Some false))) []; Node tt size0 None []])).
  { apply A. discriminate. }
  inversion X. discriminate.
Qed.
Print Assumptions C41_cleaned_child_refuted.

Open Scope Z_scope.
(** C40.  Extents never decrease. *)
Theorem C40_extent_never_decreases : forall s os b,
  extent_of s b <= extent_of s (run_margin_ops os b).
Proof. exact run_margin_ops_mono. Qed.
Print Assumptions C40_extent_never_decreases.

(** C40/C69.  Starting from a reset box, the extent of each side is the maximum
    of zero and the ints assigned to that side, for every sequence of
    assignments whose floats are not whole numbers (as px() returns them). *)
Theorem C40_extent_is_max_partial : forall s os,
  Forall normal_op os -> extent_of s (run_margin_ops os box0) = maxZ (ints_assigned s os).
Proof.
  intros s os F. rewrite run_margin_ops_extent by (trivial; apply margin_inv_reset).
  assert (0 <= maxZ (ints_assigned s os)) by (induction (ints_assigned s os); cbn; lia).
  destruct s; cbn; lia.
Qed.
Print Assumptions C40_extent_is_max_partial.

Theorem C69_extent_is_max_of_px_margins : forall s os,
  Forall normal_op os -> extent_of s (run_margin_ops os box0) = maxZ (ints_assigned s os).
Proof. exact C40_extent_is_max_partial. Qed.
Print Assumptions C69_extent_is_max_of_px_margins.

Example C69_example : Forall normal_op
   [SetMargin Top (LNum (NI 5)); SetMargin Top LAuto; SetMargin Top (LNum (NF (qfrac 19 2)));
    SetExtent Top (LNum (NI 7)); SetMargin Left (LNum (NI 9)); SetMargin Top (LNum (NI (-3)))]
  /\ extent_of Top (run_margin_ops
   [SetMargin Top (LNum (NI 5)); SetMargin Top LAuto; SetMargin Top (LNum (NF (qfrac 19 2)));
    SetExtent Top (LNum (NI 7)); SetMargin Left (LNum (NI 9)); SetMargin Top (LNum (NI (-3)))] box0) = 7.
Proof.
  split; [|reflexivity]. repeat constructor. cbn. intros z Hz%qc_eq'. rewrite this_qfrac, this_Z2Qc in Hz.
  unfold Qeq in Hz. cbn [Qnum Qden inject_Z] in Hz. lia.
Qed.

(** C40 refuted without that restriction: assigning 5.0 and then 5 leaves the
    extent at 0, because 5 == 5.0 makes the second assignment a no-op. *)
Theorem C40_whole_float_refuted : exists os, In 5 (ints_assigned Top os)
  /\ extent_of Top (run_margin_ops os box0) = 0.
Proof.
  exists [SetMargin Top (LNum (NF (Z2Qc 5))); SetMargin Top (LNum (NI 5))]. split; [left|]; reflexivity.
Qed.
Print Assumptions C40_whole_float_refuted.

(** ** More concrete cases *)
Example C38_example :
  let b := mkBox (LNum (NI 10)) (LNum (NF (qfrac 1 2))) (NI 3) (NI 4) (NI 5) (NI 6)
             l0 l0 l0 l0 0 0 0 0 (NI 1) (NI 2) (NI 3) (NI 4) (NI 5) (NI 6) (NI 7) (NI 8) (Some true) in
  nval (origin_left b) <> Z2Qc 0 /\ nval (content_left b) <> Z2Qc 0 /\ shift (origin_left b) (border_box_right b) (absolute_border_box_right b)
  /\ match absolute_border_box_right b with Ok x => qc_eqb (nval x) (nval (origin_left b)) = false | Err _ => False end.
Proof. cbn zeta. split; [discriminate|]. split; [discriminate|]. split; [apply qc_eq; reflexivity|reflexivity]. Qed.
Example C40_example : extent_of Top (run_margin_ops [SetMargin Top (LNum (NI 5)); SetMargin Top (LNum (NI 2))] box0) = 5
  /\ extent_of Top (run_margin_ops [SetExtent Top (LNum (NI 9)); SetMargin Left (LNum (NI 20))] (run_margin_ops [SetMargin Top (LNum (NI 5))] box0)) = 9.
Proof. split; reflexivity. Qed.
Example C68_example : (forall p, ~ In (OpResetAt p) [OpTop [0%nat] (NI 50); OpLeft [] (NI 7); OpTop [0%nat; 0%nat] (NI 2)]) /\ consistent ex_tree
  /\ option_map (fun m => option_map (fun b => this (nval (absolute_content_top b))) (n_box m))
       (get_path [0%nat; 0%nat] (run_ops [OpTop [0%nat] (NI 50); OpLeft [] (NI 7); OpTop [0%nat; 0%nat] (NI 2)] ex_tree)) = Some (Some 55%Q).
Proof. split; [intros p I; repeat (destruct I as [I|I]; [discriminate I|]); destruct I|]. split; [apply C39_example|vm_compute; reflexivity]. Qed.
Example C70_example : exists m b,
  get_path [0%nat] (run_ops [OpDirty [] (Some false); OpTop [0%nat;0%nat] (NI 5); OpDirty [] None] ex_tree) = Some m
  /\ n_box m = Some b /\ dirty b = None /\ dirty_closed ex_tree
  /\ Forall (@invalidation_op) [OpDirty [] (Some false); OpTop [0%nat;0%nat] (NI 5); OpDirty [] None].
Proof. destruct C41_example as (m & b & H1 & H2 & H3 & H4). exists m, b. split; [exact H1|]. split; [exact H2|]. split; [exact H3|]. split; [exact (proj2 C39_example)|exact H4]. Qed.
