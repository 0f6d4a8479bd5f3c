(** * C193: documents of whole pixels have int boxes *)
From Coq Require Import ZArith QArith Qcanon Lia Bool String List.
From Verif Require Import PyNum NumFacts Units UnitsSpec UnitsFacts BoxModel BoxSpec BoxFacts Engine EngineSpec EngineTree EngineInv EngineIProps EngineGSpec EngineExamples WholeSpec WholeFacts.
Import ListNotations.
Open Scope Z_scope.

Ltac gdes H := destruct H as ((Hcw & Hch & Hct & Hcl) & (Hot & Hol) & (Hmt & Hmr & Hmb & Hml) & (Hbt & Hbr & Hbb & Hbl) & (Hpt & Hpr & Hpb & Hpl)).
Ltac gauto := repeat first [ assumption | apply gn_add | apply gn_sub | apply gn_neg ].
Lemma wl_lnums v : gl v <-> forall x, In x (lnums v) -> py_int x.
Proof. destruct v; cbn; split; intros H; [intros x [<-|[]]; exact H|apply H; left; reflexivity|intros x []|exact I|intros x []|exact I]. Qed.
Lemma wbox_numbers b : gbox b <-> forall x, In x (numbers b) -> py_int x.
Proof.
  unfold numbers. split.
  - intros G x H. gdes G. rewrite !in_app_iff in H. cbn [In] in H.
    repeat match goal with H : _ \/ _ |- _ => destruct H as [H|H] end; try (subst x; assumption); try contradiction;
      (eapply (proj1 (wl_lnums _)); [|exact H]; assumption).
  - intros H. assert (L : forall v, (forall x, In x (lnums v) -> py_int x) -> gl v) by (intros v; apply wl_lnums).
    unfold gbox. repeat split; try (apply L; intros x X); apply H; rewrite !in_app_iff; cbn [In]; tauto.
Qed.
Section Props.
Context {S : Type} (d : display_t) (sty : S -> style).
Notation node := (node S).
Lemma wtree_whole (n : node) : gtree d sty n <-> whole_boxes n /\ whole_sizes n /\ whole_lengths d sty n.
Proof.
  split.
  - intros G. split; [|split].
    + intros p. revert n G. induction p as [|j p IH]; intros n G m b x P B X; cbn [get_path] in P.
      * injection P as <-. exact (proj1 (wbox_numbers b) (gtree_box d sty n b G B) x X).
      * destruct (nth_error (n_kids n) j) as [k|] eqn:K; [|discriminate]. apply nth_error_In in K. exact (IH k (gtree_kid d sty n k G K) m b x P B X).
    + intros p. revert n G. induction p as [|j p IH]; intros n G m P; cbn [get_path] in P.
      * injection P as <-. exact (gtree_size d sty n G).
      * destruct (nth_error (n_kids n) j) as [k|] eqn:K; [|discriminate]. apply nth_error_In in K. exact (IH k (gtree_kid d sty n k G K) m P).
    + intros p. revert n G. induction p as [|j p IH]; intros n G m u P; cbn [get_path] in P.
      * injection P as <-. exact (gtree_style d sty n G u).
      * destruct (nth_error (n_kids n) j) as [k|] eqn:K; [|discriminate]. apply nth_error_In in K. exact (IH k (gtree_kid d sty n k G K) m u P).
  - induction n as [s i bx ks IH] using node_ind'. intros (M & Z & L). constructor.
    + intros u. exact (L [] _ u eq_refl).
    + exact (Z [] _ eq_refl).
    + intros b ->. apply wbox_numbers. intros x X. exact (M [] _ b x eq_refl eq_refl X).
    + intros k K. destruct (In_nth_error _ _ K) as [j J]. apply IH; [exact K|]. split; [|split].
      * intros p m b x P. apply (M (j :: p)). cbn [get_path n_kids]. rewrite J. exact P.
      * intros p m P. apply (Z (j :: p)). cbn [get_path n_kids]. rewrite J. exact P.
      * intros p m u P. apply (L (j :: p)). cbn [get_path n_kids]. rewrite J. exact P.
Qed.
Lemma reset_whole (n : node) : boxed n -> whole_sizes n -> whole_lengths d sty n -> gtree d sty (reset n) /\ boxed (reset n).
Proof.
  induction n as [s i bx ks IH] using node_ind'. intros B Z L. inversion B as [? ? ? ? Bk]; subst. cbn [reset].
  assert (K : forall k, In k ks -> gtree d sty (reset k) /\ boxed (reset k)).
  { intros k K. destruct (In_nth_error _ _ K) as [j J]. apply IH; [exact K|apply Bk, K| |].
    - intros p m P. apply (Z (j :: p)). cbn [get_path n_kids]. rewrite J. exact P.
    - intros p m u P. apply (L (j :: p)). cbn [get_path n_kids]. rewrite J. exact P. }
  split; constructor.
  - intros u. exact (L [] _ u eq_refl).
  - exact (Z [] _ eq_refl).
  - intros bx E. injection E as <-. apply gbox0.
  - intros k H. apply in_map_iff in H. destruct H as (x & <- & I). apply K, I.
  - intros k H. apply in_map_iff in H. destruct H as (x & <- & I). apply K, I.
Qed.
(** C193.  On a display measured in ints, in a document of whole lengths and int sizes, every box holds ints after layout, whether it completes
    or raises.  If every node had a box, no matter what the boxes held before. *)
Theorem C193_ints h5 (n : node) : whole_display d -> whole_sizes n -> whole_lengths d sty n -> whole_boxes n \/ boxed n ->
  whole_boxes (fst (layout sty d h5 n)).
Proof.
  intros D Z L [B|B].
  - apply (wtree_whole (fst (layout sty d h5 n))), layout_grid; [exact D|]. apply wtree_whole. split; [exact B|split; assumption].
  - destruct (reset_whole n B Z L) as [G B']. rewrite (C79_history_independent sty d h5 n (reset n) B B'); [|symmetry; apply inputs_reset].
    apply (wtree_whole (fst (layout sty d h5 (reset n)))), layout_grid; assumption.
Qed.
Theorem C193_coordinates h5 (n : node) p m b x : whole_display d -> whole_sizes n -> whole_lengths d sty n -> whole_boxes n \/ boxed n ->
  get_path p (fst (layout sty d h5 n)) = Some m -> n_box m = Some b -> In (Ok x) (coordinates b) -> py_int x.
Proof.
  intros D Z L M P B X.
  assert (G : gbox b) by (apply wbox_numbers; intros y Y; exact (C193_ints h5 n D Z L M p m b y P B Y)).
  unfold coordinates in X. rewrite in_app_iff in X. destruct X as [X|X].
  - apply in_map_iff in X. destruct X as (y & E & Y). apply Ok_inj in E. subst y. exact (proj1 (wbox_numbers b) G x Y).
  - gdes G. assert (W : forall w, as_num (content_width b) = Ok w -> py_int w) by (apply gr_num; assumption).
    assert (H : forall w, as_num (content_height b) = Ok w -> py_int w) by (apply gr_num; assumption). cbn [In] in X.
    repeat match type of X with _ \/ _ => destruct X as [X|X] end; try contradiction;
      unfold border_box_top, border_box_right, border_box_bottom, border_box_left, border_box_width, border_box_height,
        absolute_border_box_top, absolute_border_box_right, absolute_border_box_bottom, absolute_border_box_left,
        padding_box_top, padding_box_right, padding_box_bottom, padding_box_left, padding_box_width, padding_box_height,
        absolute_padding_box_top, absolute_padding_box_right, absolute_padding_box_bottom, absolute_padding_box_left,
        content_bottom, content_right, absolute_content_top, absolute_content_right, absolute_content_bottom, absolute_content_left in X;
      try (destruct (as_num (content_width b)) as [w|]; [|discriminate X]; assert (py_int w) by (apply W; reflexivity));
      try (destruct (as_num (content_height b)) as [w|]; [|discriminate X]; assert (py_int w) by (apply H; reflexivity));
      cbn [bindr] in X; apply Ok_inj in X; subst x; gauto.
Qed.
(** Whole lengths: an int of px, whole hundreds of percent, and 0 of anything. *)
Theorem C193_lengths z k : whole_length d (mkU KPx (PI z)) /\ whole_length d (mkU KPct (PI (100 * z))) /\ whole_length d (mkU k (PI 0)).
Proof.
  remember (100 * z) as w eqn:Hw. split; [|split]; intros c q E G X; inversion X; subst q; repeat match goal with H : magnitude _ _ |- _ => inversion H; clear H end; repeat match goal with H : Z2Qc _ = ?v |- _ => is_var v; subst v end.
  - exists z. reflexivity.
  - specialize (G n). match goal with H : c_size c = _ |- _ => specialize (G H) end. destruct n as [y|]; [|contradiction]. exists (z * y). cbn [nval]. rewrite Hw, !Z2Qc_mul.
    assert (H100 : Z2Qc 100 <> 0%Qc) by discriminate. revert H100. generalize (Z2Qc 100) (Z2Qc z) (Z2Qc y). intros h a b H100. field. exact H100.
  - exists 0; change (Z2Qc 0) with (0%Qc); unfold Qcdiv; ring.
  - exists 0; change (Z2Qc 0) with (0%Qc); unfold Qcdiv; ring.
  - exists 0; change (Z2Qc 0) with (0%Qc); unfold Qcdiv; ring.
  - exists 0; change (Z2Qc 0) with (0%Qc); unfold Qcdiv; ring.
  - exists 0; change (Z2Qc 0) with (0%Qc); unfold Qcdiv; ring.
  - exists 0; change (Z2Qc 0) with (0%Qc); unfold Qcdiv; ring.
  - exists 0; change (Z2Qc 0) with (0%Qc); unfold Qcdiv; ring.
Qed.
End Props.

(** ** Examples *)
(** A centred block, a replaced child as wide as its container and a relative block. *)
Definition w_img : doc :=
  Node (s_display (Some DInline) (s_size (Len (pctu 100)) Auto block_style)) (mkSize None None true true (Some (NI 2)) true) (Some box0) [].
Definition w_kid (u : unit_) : doc :=
  el (s_margin (Len (pxu 3)) Auto (Len (pxu 7)) Auto (s_padding (pxu 1) (pxu 2) (pxu 0) zero_px (s_size (Len u) Auto block_style))) [w_img].
Definition w_doc (u : unit_) : doc := el (s_border (BKw Thin) (BLen (pxu 2)) (BLen zero_px) (BKw Thick) block_style) [w_kid u; el (hpx 20 block_style) []].
Lemma w_screen : whole_display screen.
Proof. split; [exact I|]. split; [exact I|]. intros []; exact I. Qed.
Ltac whole_units := let u := fresh in let H := fresh in intros u H; vm_compute in H; repeat (destruct H as [<-|H]; [first [apply (proj1 (C193_lengths screen _ KPx)) | apply (proj1 (proj2 (C193_lengths screen 1 KPx)))]|]); contradiction H.
Lemma w_doc_tree : gtree screen idsty (w_doc (pxu 501)).
Proof.
  assert (Z0 : gsize size0) by (repeat split; discriminate).
  assert (B0 : forall b, Some box0 = Some b -> gbox b) by (intros b E; injection E as <-; apply gbox0).
  constructor; [whole_units|exact Z0|exact B0|]. intros k [<-|[<-|[]]].
  - constructor; [whole_units|exact Z0|exact B0|]. intros k [<-|[]]. constructor; [whole_units| |exact B0|intros k []].
    split; [discriminate|]. split; [discriminate|]. intros x E. injection E as <-. exact I.
  - constructor; [whole_units|exact Z0|exact B0|intros k []].
Qed.
Example C193_example : whole_display screen /\ whole_sizes (w_doc (pxu 501)) /\ whole_lengths screen idsty (w_doc (pxu 501)) /\ whole_boxes (w_doc (pxu 501))
  /\ ok false (w_doc (pxu 501)) = true /\ content_height (bx (kid 0 (kid 0 (out false (w_doc (pxu 501)))))) = LNum (NI 1002)
  /\ margin_left (bx (kid 0 (out false (w_doc (pxu 501))))) = LNum (NI 245).
Proof.
  pose proof (proj1 (wtree_whole screen idsty _) w_doc_tree) as (M & Z & L).
  split; [exact w_screen|]. split; [exact Z|]. split; [exact L|]. split; [exact M|]. repeat split; vm_compute; reflexivity.
Qed.
(** Half of an odd width is a float. *)
Definition floaty (v : lval) : bool := match v with LNum (NF _) => true | _ => false end.
Example C193_needed : floaty (content_width (bx (kid 0 (out false (w_doc (pctu 50)))))) = true.
Proof. vm_compute. reflexivity. Qed.
Print Assumptions C193_ints.
Print Assumptions C193_coordinates.
Print Assumptions C193_lengths.
