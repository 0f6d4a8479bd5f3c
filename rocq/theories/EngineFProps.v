(** * Properties C137 and C138: layout in binary64 *)
From Coq Require Import ZArith QArith Qcanon Qabs Lqa Lia Bool String List.
From Verif Require Import PyNum NumFacts Float64 FloatFacts FloatUnits FloatSpec FloatProps Units UnitsSpec UnitsProps BoxModel BoxSpec Engine EngineSpec EngineGSpec EngineGrid EngineGProps EngineExamples EngineArith EngineArithFacts EngineFFacts EngineFSpec EngineFBound.
Import ListNotations.
Open Scope Z_scope.

Section Props.
Context {S : Type} (sty : S -> style).
(** C137.  Layout in Python's floats is layout in exact numbers, box for box
    and exception for exception, unless some value on the way is above 2^46 px
    in absolute value or some length rounds differently. *)
Theorem C137_float_layout : forall d h5 (n : node S), measured_display d -> measured_sizes n -> measured n ->
  snd (layoutA checked_arith sty d h5 n) <> Err Unmodelled ->
  layoutA float_arith sty d h5 n = layoutA exact_arith sty d h5 n
  /\ layoutA float_arith sty d h5 n = layout sty d h5 n.
Proof.
  intros d h5 n D Z M H. assert (E : layoutA float_arith sty d h5 n = layout sty d h5 n).
  { apply float_layout; [exact D|apply gtree_measured; split; assumption|exact H]. }
  split; [rewrite E; symmetry; apply ex_layout|exact E].
Qed.
(** C137, second part.  The engine written for any arithmetic, with the exact
    numbers, is the engine of the other properties, for every document. *)
Theorem C137_same_engine : forall d h5 (n : node S), layoutA exact_arith sty d h5 n = layout sty d h5 n.
Proof. intros. apply ex_layout. Qed.
(** C137, third part.  In binary64 too, the boxes stay in layout units. *)
Theorem C137_float_units : forall d h5 (n : node S), measured_display d -> measured_sizes n -> measured n ->
  snd (layoutA checked_arith sty d h5 n) <> Err Unmodelled -> measured (fst (layoutA float_arith sty d h5 n)).
Proof. intros d h5 n D Z M H. rewrite (proj2 (C137_float_layout d h5 n D Z M H)). apply C107_layout_units; assumption. Qed.

(** C138.  A document whose lengths are of at most [B] px and do not depend on
    the containing block is laid out in Python's floats as in exact numbers, as
    long as 140 times the number of nodes times the square of the depth times
    [B] is at most 2^46. *)
Theorem C138_plain_documents : forall d B h5 (n : node S),
  measured_display d -> measured_sizes n -> measured n ->
  (300 <= B)%Q -> plain_display B d -> plain_doc sty d B n -> no_stale_boxes n -> room B n ->
  layoutA float_arith sty d h5 n = layout sty d h5 n.
Proof.
  intros d B h5 n D Z M HB PD P N R. apply C137_float_layout; try assumption. exact (plain_checked sty d B h5 n HB PD P N R).
Qed.
(** C138, second part.  Such a layout computes no value above 2^46 px. *)
Theorem C138_never_stops : forall d B h5 (n : node S),
  (300 <= B)%Q -> plain_display B d -> plain_doc sty d B n -> no_stale_boxes n -> room B n ->
  snd (layoutA checked_arith sty d h5 n) <> Err Unmodelled.
Proof. intros d B h5 n HB PD P N R. exact (plain_checked sty d B h5 n HB PD P N R). Qed.
End Props.
(** C138, third part.  Pixel lengths are plain. *)
Theorem C138_pixel_lengths : forall d B p v, magnitude p v -> binary64 v -> (Qabs (this v) + 1 <= B)%Q -> (B <= qpow2 47)%Q ->
  plain_length d B (mkU KPx p).
Proof.
  intros d B p v M F H1 H2 sz. cbv zeta. split.
  - eapply C109_pixels_exact; [exact M|exact F|]. lra.
  - intros x E. destruct (C01_px_rounds_to_nearest _ _ _ E) as (q & Eq & _ & (Lo & Hi) & _).
    assert (q = v) as -> by (inversion Eq as [p' v' M'| | | | | | ]; subst; inversion M; subst; inversion M'; subst; reflexivity).
    unfold at_most. apply Qabs_Qle_condition. assert (Hv := Qabs_Qle_condition (this v) (Qabs (this v))). destruct Hv as [Hv _]. specialize (Hv (Qle_refl _)).
    unfold Qcle in *. rewrite this_sub, this_qfrac in Lo. rewrite this_add, this_qfrac in Hi. split; lra.
Qed.

(** ** Examples *)
(** The document of C107: percentages, em, a replaced child with a ratio. *)
Example C137_example : measured_display screen /\ measured_sizes g_doc /\ measured g_doc
  /\ snd (layoutA checked_arith idsty screen false g_doc) = Ok tt
  /\ lq (content_width (bx (kid 0 (fst (layoutA float_arith idsty screen false g_doc))))) = Some (21333 # 64)%Q.
Proof.
  pose proof (proj1 (gtree_measured g_doc) g_doc_tree) as [M Z].
  split; [exact g_screen|]. split; [exact Z|]. split; [exact M|]. split; vm_compute; reflexivity.
Qed.
(** Where the values are too large the two layouts differ: next
    to a width of 2^54 px a padding of half a px is lost in the solved margin. *)
Definition f_big : doc :=
  el block_style [el (s_padding (pxu 0) (pxu 0) (pxu 0) (mkU KPx (PF (Fin (qfrac 1 2)))) (s_size (Len (mkU KPx (PF (Fin (Z2Qc (2 ^ 54)))))) Auto block_style)) []].
Example C137_bound_needed :
  snd (layoutA checked_arith idsty screen false f_big) = Err Unmodelled
  /\ snd (layoutA float_arith idsty screen false f_big) = Ok tt
  /\ lq (margin_right (bx (kid 0 (out false f_big)))) <> lq (margin_right (bx (kid 0 (fst (layoutA float_arith idsty screen false f_big))))).
Proof. split; [vm_compute; reflexivity|]. split; [vm_compute; reflexivity|]. vm_compute. discriminate. Qed.


(** A document for C138: a child with a fractional padding and a child. *)
Definition half_px : unit_ := mkU KPx (PF (Fin (qfrac 1 2))).
Definition f_leaf : doc := el (hpx 20 block_style) [].
Definition f_kid : doc := el (s_padding half_px zero_px (pxu 7) zero_px (vmargin 10 30 block_style)) [f_leaf].
Definition f_doc : doc := el block_style [f_kid; f_leaf].
Lemma px_plain d z : Z.abs z <= 999 -> plain_length d 1000 (pxu z).
Proof.
  intros H. apply (C138_pixel_lengths d 1000 (PI z) (Z2Qc z)); [apply mag_int| | |vm_compute; discriminate].
  { split; [exists z, 0; split; [lia|]; split; [lia|]; rewrite this_Z2Qc; change (qpow2 0) with 1%Q; ring|]. rewrite this_Z2Qc. change (Qabs (inject_Z z)) with (inject_Z (Z.abs z)). apply Qle_lt_trans with (inject_Z 999); [rewrite <- Zle_Qle; exact H|reflexivity]. }
  rewrite this_Z2Qc. change (Qabs (inject_Z z)) with (inject_Z (Z.abs z)). change 1%Q with (inject_Z 1). rewrite <- inject_Z_plus. change 1000%Q with (inject_Z 1000). rewrite <- Zle_Qle. lia.
Qed.
Lemma half_plain d : plain_length d 1000 half_px.
Proof.
  apply (C138_pixel_lengths d 1000 (PF (Fin (qfrac 1 2))) (qfrac 1 2)); [apply mag_float| |vm_compute; discriminate|vm_compute; discriminate].
  split; [exists 1, (-1); split; [vm_compute; discriminate|]; split; [vm_compute; discriminate|reflexivity]|reflexivity].
Qed.
Lemma plain_node (s : style) i b (ks : list (node style)) : plain_style screen 1000 s -> plain_size 1000 i -> (forall k, In k ks -> plain_doc idsty screen 1000 k) -> plain_doc idsty screen 1000 (Node s i b ks).
Proof.
  intros P I K [|j p] m H; cbn [get_path n_kids] in H; [injection H as <-; split; assumption|].
  destruct (nth_error ks j) as [k|] eqn:E; [|discriminate H]. apply nth_error_In in E. exact (K k E p m H).
Qed.
Ltac plain_tac := split; [|split; [vm_compute; discriminate|split; [vm_compute; discriminate|split; vm_compute; discriminate]]]; let u := fresh in let H := fresh in intros u H; cbv -[half_px zero_px pxu] in H;
  repeat match type of H with _ \/ _ => destruct H as [<-|H] end; try contradiction; lazymatch goal with |- plain_length _ _ half_px => apply half_plain | _ => apply px_plain; vm_compute; discriminate end.
Lemma f_plain : plain_doc idsty screen 1000 f_doc.
Proof.
  assert (Z0 : plain_size 1000 size0) by (repeat split; discriminate).
  assert (Lf : plain_doc idsty screen 1000 f_leaf) by (apply plain_node; [plain_tac|exact Z0|intros k []]).
  apply plain_node; [plain_tac|exact Z0|]. intros k [<-|[<-|[]]]; [|exact Lf]. apply plain_node; [plain_tac|exact Z0|]. intros k [<-|[]]. exact Lf.
Qed.
Lemma f_measured : gtree f_doc.
Proof.
  assert (Z0 : gsize size0) by (repeat split; discriminate).
  assert (B0 : forall b, Some box0 = Some b -> gbox b) by (intros b E; injection E as <-; apply gbox0).
  assert (Lf : gtree f_leaf) by (constructor; [exact Z0|exact B0|intros k []]).
  constructor; [exact Z0|exact B0|]. intros k [<-|[<-|[]]]; [|exact Lf]. constructor; [exact Z0|exact B0|]. intros k [<-|[]]. exact Lf.
Qed.
Lemma all_boxes_no_stale (n : doc) : (forall p m, get_path p n = Some m -> n_box m <> None) -> no_stale_boxes n.
Proof. intros H p q m k P B. exfalso. exact (H p m P B). Qed.
Lemma f_stale : no_stale_boxes f_doc.
Proof.
  apply all_boxes_no_stale. intros p m. 
  assert (Lf : forall p m, get_path p f_leaf = Some m -> n_box m <> None) by (intros [|[] q] x E; cbn in E; try discriminate; injection E as <-; discriminate).
  destruct p as [|[|[|j]] q]; cbn; intros E; try (injection E as <-; discriminate); try (exact (Lf q m E)); [|destruct j; discriminate].
  destruct q as [|[|j] q]; cbn in E; [injection E as <-; discriminate|exact (Lf q m E)|destruct j; discriminate].
Qed.
Example C138_example : measured_display screen /\ measured_sizes f_doc /\ measured f_doc /\ plain_display 1000 screen
  /\ plain_doc idsty screen 1000 f_doc /\ no_stale_boxes f_doc /\ room 1000 f_doc
  /\ lq (content_height (bx (fst (layoutA float_arith idsty screen false f_doc)))) = Some (155 # 2)%Q.
Proof.
  pose proof (proj1 (gtree_measured f_doc) f_measured) as [M Z].
  split; [exact g_screen|]. split; [exact Z|]. split; [exact M|]. split.
  { split; [vm_compute; discriminate|]. split; [vm_compute; discriminate|]. intros []; vm_compute; discriminate. }
  split; [exact f_plain|]. split; [exact f_stale|]. split; vm_compute; [discriminate|reflexivity].
Qed.

Print Assumptions C137_float_layout.
Print Assumptions C137_same_engine.
Print Assumptions C137_float_units.
Print Assumptions C138_plain_documents.
Print Assumptions C138_never_stops.
Print Assumptions C138_pixel_lengths.
