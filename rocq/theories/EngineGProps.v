(** * Property C107: layout works in layout units *)
From Coq Require Import ZArith QArith Qcanon Lia Bool String List.
From Verif Require Import PyNum NumFacts Units UnitsSpec UnitsFacts BoxModel BoxSpec BoxFacts Engine EngineSpec EngineGSpec EngineGrid EngineExamples.
Import ListNotations.
Open Scope Z_scope.

Lemma gl_lnums v : gl v <-> forall x, In x (lnums v) -> on_grid (nval x).
Proof. destruct v; cbn; split; intros H; [intros x [<-|[]]; exact H|apply H; left; reflexivity|intros x []|exact I|intros x []|exact I]. Qed.
Lemma gbox_numbers b : gbox b <-> forall x, In x (numbers b) -> on_grid (nval x).
Proof.
  unfold numbers. split.
  - intros G x H. gdes G. rewrite !in_app_iff in H. cbn [In] in H.
    repeat match goal with H : _ \/ _ |- _ => destruct H as [H|H] end; try (subst x; assumption); try contradiction;
      (eapply (proj1 (gl_lnums _)); [|exact H]; assumption).
  - intros H. assert (L : forall v, (forall x, In x (lnums v) -> on_grid (nval x)) -> gl v) by (intros v; apply gl_lnums).
    unfold gbox. repeat split; try (apply L; intros x X); try (unfold gn); apply H; rewrite !in_app_iff; cbn [In]; tauto.
Qed.
Section Props.
Context {S : Type} (sty : S -> style).
Notation node := (node S).
Lemma gtree_measured (n : node) : gtree n <-> measured n /\ measured_sizes n.
Proof.
  split.
  - intros G. split.
    + intros p. revert n G. induction p as [|j p IH]; intros n G m b x P B X; cbn [get_path] in P.
      * injection P as <-. exact (proj1 (gbox_numbers b) (gtree_box n b G B) x X).
      * destruct (nth_error (n_kids n) j) as [k|] eqn:K; [|discriminate]. apply nth_error_In in K. exact (IH k (gtree_kid n k G K) m b x P B X).
    + intros p. revert n G. induction p as [|j p IH]; intros n G m P; cbn [get_path] in P.
      * injection P as <-. exact (gtree_size n G).
      * destruct (nth_error (n_kids n) j) as [k|] eqn:K; [|discriminate]. apply nth_error_In in K. exact (IH k (gtree_kid n k G K) m P).
  - induction n as [s i bx ks IH] using node_ind'. intros [M Z]. constructor.
    + exact (Z [] _ eq_refl).
    + intros b ->. apply gbox_numbers. intros x X. exact (M [] _ b x eq_refl eq_refl X).
    + intros k K. destruct (In_nth_error _ _ K) as [j J]. apply IH; [exact K|]. split.
      * intros p m b x P. apply (M (j :: p)). cbn [get_path n_kids]. rewrite J. exact P.
      * intros p m P. apply (Z (j :: p)). cbn [get_path n_kids]. rewrite J. exact P.
Qed.

(** C107.  If the display, the intrinsic sizes and the boxes are measured in
    layout units of 1/64 px, so are all boxes after layout, whether it
    completes or raises. *)
Theorem C107_layout_units : forall d h5 (n : node), measured_display d -> measured_sizes n -> measured n ->
  measured (fst (layout sty d h5 n)).
Proof. intros d h5 n D Z M. apply (gtree_measured (fst (layout sty d h5 n))), layout_grid; [exact D|]. apply gtree_measured. split; assumption. Qed.
(** C107, second part.  The same for every coordinate that can be read from a box. *)
Theorem C107_coordinates : forall d h5 (n : node) p m b x, measured_display d -> measured_sizes n -> measured n ->
  get_path p (fst (layout sty d h5 n)) = Some m -> n_box m = Some b -> In (Ok x) (coordinates b) -> on_grid (nval x).
Proof.
  intros d h5 n p m b x D Z M P B X.
  assert (G : gbox b) by (apply gbox_numbers; intros y Y; exact (C107_layout_units d h5 n D Z M p m b y P B Y)).
  unfold coordinates in X. rewrite in_app_iff in X. destruct X as [X|X].
  - apply in_map_iff in X. destruct X as (y & E & Y). apply Ok_inj in E. subst y. exact (proj1 (gbox_numbers b) G x Y).
  - gdes G. fold (gn x). assert (W : forall w, as_num (content_width b) = Ok w -> gn w) by (apply gr_num; assumption).
    assert (H : forall w, as_num (content_height b) = Ok w -> gn w) by (apply gr_num; assumption). cbn [In] in X.
    repeat match type of X with _ \/ _ => destruct X as [X|X] end; try contradiction;
      unfold border_box_top, border_box_right, border_box_bottom, border_box_left, border_box_width, border_box_height,
        absolute_border_box_top, absolute_border_box_right, absolute_border_box_bottom, absolute_border_box_left,
        padding_box_top, padding_box_right, padding_box_bottom, padding_box_left, padding_box_width, padding_box_height,
        absolute_padding_box_top, absolute_padding_box_right, absolute_padding_box_bottom, absolute_padding_box_left,
        content_bottom, content_right, absolute_content_top, absolute_content_right, absolute_content_bottom, absolute_content_left in X;
      try (destruct (as_num (content_width b)) as [w|]; [|discriminate X]; assert (gn w) by (apply W; reflexivity));
      try (destruct (as_num (content_height b)) as [w|]; [|discriminate X]; assert (gn w) by (apply H; reflexivity));
      cbn [bindr] in X; apply Ok_inj in X; subst x; gauto.
Qed.
End Props.

(** ** Examples *)
(** A document with percentages, em, a replaced child and a ratio; a third of
    the width is 333 21/64 px. *)
Definition g_leaf : doc := el (hpx 20 block_style) [].
Definition g_img : doc :=
  Node (s_display (Some DInline) (s_size (Len (mkU KPct (PF (Fin (qfrac 100 3))))) Auto block_style))
    (mkSize None None true true (Some (NI 2)) true) (Some box0) [].
Definition g_kid : doc :=
  el (s_padding (pctu 1) (emu 1) zero_px zero_px (s_size (Len (mkU KPct (PF (Fin (qfrac 100 3))))) Auto block_style)) [g_img].
Definition g_doc : doc := el block_style [g_kid; g_leaf].
Lemma measured0 (b : box) : b = box0 -> forall x, In x (numbers b) -> on_grid (nval x).
Proof. intros -> x H. apply (proj1 (gbox_numbers box0) gbox0 x H). Qed.
Lemma g_screen : measured_display screen.
Proof. split; [apply grid_Z|]. split; [apply grid_Z|]. intros []; apply grid_Z. Qed.
Lemma g_doc_tree : gtree g_doc.
Proof.
  assert (Z0 : gsize size0) by (repeat split; discriminate).
  assert (B0 : forall b, Some box0 = Some b -> gbox b) by (intros b E; injection E as <-; apply gbox0).
  constructor; [exact Z0|exact B0|]. intros k [<-|[<-|[]]].
  - constructor; [exact Z0|exact B0|]. intros k [<-|[]]. constructor; [|exact B0|intros k []].
    split; [discriminate|]. split; [discriminate|]. intros x E. injection E as <-. exists 2. reflexivity.
  - constructor; [exact Z0|exact B0|intros k []].
Qed.
Example C107_example : measured_display screen /\ measured_sizes g_doc /\ measured g_doc /\ ok false g_doc = true
  /\ lq (content_width (bx (kid 0 (out false g_doc)))) = Some (21333 # 64)%Q.
Proof.
  pose proof (proj1 (gtree_measured g_doc) g_doc_tree) as [M Z].
  split; [exact g_screen|]. split; [exact Z|]. split; [exact M|]. split; vm_compute; reflexivity.
Qed.
(** A ratio that is not whole leaves the grid: 100/3 % of the width times a
    third is no multiple of 1/64. *)
Definition g_off : doc :=
  el block_style [Node (s_display (Some DInline) (s_size (Len (pxu 100)) Auto block_style))
    (mkSize None None true true (Some (NF (qfrac 1 3))) true) (Some box0) []].
Example C107_ratio_needed : lq (content_height (bx (kid 0 (out false g_off)))) = Some (100 # 3)%Q.
Proof. vm_compute. reflexivity. Qed.

Print Assumptions C107_layout_units.
Print Assumptions C107_coordinates.
