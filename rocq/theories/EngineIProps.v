(** * Properties C51-C53, C79: invariants of layout, also when it raises *)
From Coq Require Import ZArith QArith Qcanon Lia Bool List.
From Verif Require Import PyNum NumFacts Units BoxModel BoxSpec BoxFacts Engine EnginePure EngineFacts EngineSpec
  EngineTree EngineInv EngineExamples.
Import ListNotations.
Open Scope Qc_scope.

Section Props.
Context {S : Type} (sty : S -> style).
Notation node := (node S).

Lemma path_positions (n : node) p k : ready sty n -> consistent n -> displayed_path sty p n -> get_path p n = Some k ->
  forall b0, n_box n = Some b0 ->
  exists b top left, n_box k = Some b /\ path_sum content_top p n top /\ path_sum content_left p n left
    /\ nval (absolute_content_top b) = nval (origin_top b0) + top
    /\ nval (absolute_content_left b) = nval (origin_left b0) + left.
Proof.
  intros R C D. revert R C. induction D as [n D|j p n k' D E D' IH]; intros R C G b0 Eb.
  - cbn in G. injection G as <-. exists b0. do 2 eexists. split; [exact Eb|]. split; [constructor; exact Eb|].
    split; [constructor; exact Eb|]. unfold absolute_content_top, absolute_content_left. rewrite !nval_add. auto.
  - cbn in G. rewrite E in G. pose proof (nth_error_In _ _ E) as I.
    inversion R as [? H|s i b ks Hk]; subst; [contradiction|]. cbn in Eb, E, I. injection Eb as <-.
    destruct (consistent_iff s i (Some b) ks) as [CI _]. destruct (CI C) as [C1 C2].
    assert (exists kb, n_box k' = Some kb) as (kb & Ek).
    { pose proof (Hk _ I) as Rk. inversion Rk as [? H|]; subst; [|eexists; reflexivity].
      inversion D'; contradiction. }
    destruct (IH (Hk _ I) (C1 _ I) G kb Ek) as (b' & top & left & E1 & P1 & P2 & A1 & A2).
    destruct (C2 b k' kb eq_refl I Ek) as [L1 L2].
    exists b', (nval (content_top b) + top), (nval (content_left b) + left). split; [exact E1|].
    split; [econstructor; cbn; eauto|]. split; [econstructor; cbn; eauto|].
    unfold absolute_content_top, absolute_content_left in L1, L2. rewrite !nval_add in L1, L2.
    split.
    + rewrite A1, L1. ring.
    + rewrite A2, L2. ring.
Qed.

(** C51.  After layout of a document whose nodes all have boxes, each node
    reached through displayed nodes has a box whose absolute position is the sum
    of the relative positions along the path -- even if layout raised. *)
Theorem C51_absolute_positions : forall d h5 (n n' : node) r p k,
  layout sty d h5 n = (n', r) -> boxed n -> displayed_path sty p n' -> get_path p n' = Some k ->
  exists b top left, n_box k = Some b
    /\ path_sum content_top p n' top /\ path_sum content_left p n' left
    /\ nval (absolute_content_top b) = top /\ nval (absolute_content_left b) = left.
Proof.
  intros d h5 n n' r p k H B D G. pose proof (layout_step sty d h5 n) as St. rewrite H in St. cbn [fst] in St.
  destruct St as [_ St]. destruct (St (reset_ready sty n (boxed_ready' sty n B))) as (R' & O & C & Bx).
  specialize (C (boxed_consistent n B)).
  assert (exists b0, n_box n' = Some b0) as (b0 & E0).
  { inversion D as [? X|? ? ? ? X]; subst; inversion R' as [? Y|]; subst; try contradiction; eexists; reflexivity. }
  destruct (path_positions n' p k R' C D G b0 E0) as (b & top & left & E1 & P1 & P2 & A1 & A2).
  exists b, top, left. split; [exact E1|]. split; [exact P1|]. split; [exact P2|].
  unfold keeps_origin in O. rewrite n_box_reset, E0 in O. destruct B as [s i bb ks Hk]. cbn in O. destruct O as [O1 O2].
  rewrite A1, A2, O1, O2. split; cbn; change (Z2Qc 0) with 0; ring.
Qed.

(** The same for documents in which hidden nodes have lost their boxes,
    provided positions were consistent before. *)
Theorem C51_positions_preserved : forall d h5 (n n' : node) r,
  layout sty d h5 n = (n', r) -> ready sty n -> consistent n -> ready sty n' /\ consistent n'.
Proof.
  intros d h5 n n' r H R C. change n' with (fst (n', r)). rewrite <- H. split.
  - apply layout_keeps_ready, R.
  - apply layout_cons; [exact R|]. apply consistent_reset, C.
Qed.

(** C53.  Styles, intrinsic sizes and structure never change. *)
Theorem C53_inputs_unchanged : forall d h5 (n n' : node) r,
  layout sty d h5 n = (n', r) -> inputs n' = inputs n.
Proof. intros d h5 n n' r H. change n' with (fst (n', r)). rewrite <- H. apply layout_inputs. Qed.

(** C79 (and the true part of C52).  When every node has a box, outcome and
    resulting boxes depend only on the inputs. *)
Theorem C79_history_independent : forall d h5 (n m : node),
  boxed n -> boxed m -> inputs n = inputs m -> layout sty d h5 n = layout sty d h5 m.
Proof. intros. apply layout_boxed; assumption. Qed.

(** Laying out again after any number of successful or failed layouts (with any
    displays and modes) of a document without hidden nodes. *)
Fixpoint layouts (h : list (display_t * bool)) (n : node) : node :=
  match h with [] => n | (d, h5) :: h' => layouts h' (fst (layout sty d h5 n)) end.
Theorem C79_repeated_layout : forall h d h5 (n : node),
  boxed n -> all_displayed sty n ->
  layout sty d h5 (layouts h n) = layout sty d h5 n.
Proof.
  intros h d h5 n B A.
  assert (forall h m, boxed m -> inputs m = inputs n -> boxed (layouts h m) /\ inputs (layouts h m) = inputs n) as P.
  { clear h. induction h as [|[d0 h0] h IH]; intros m Bm Em; [auto|]. cbn [layouts]. apply IH.
    - eapply ready_displayed_boxed; [apply layout_keeps_ready, boxed_ready', Bm|].
      eapply all_displayed_inputs; [exact A|]. rewrite layout_inputs. symmetry. exact Em.
    - rewrite layout_inputs. exact Em. }
  destruct (P h n B eq_refl) as [B' E]. apply layout_boxed; assumption.
Qed.
Theorem C52_idempotent_partial : forall d h5 (n n' : node) r,
  layout sty d h5 n = (n', r) -> boxed n -> all_displayed sty n -> layout sty d h5 n' = (n', r).
Proof.
  intros d h5 n n' r H B A. pose proof (C79_repeated_layout [(d, h5)] d h5 n B A) as E. cbn [layouts] in E.
  rewrite H in E. exact E.
Qed.
End Props.

(** ** A document with three levels, relative and static nodes *)
Definition box_style := s_padding (pxu 1) (pxu 2) (pxu 3) (pxu 4) (s_margin (Len (pxu 10)) Auto (Len (pxu 6)) (Len (pxu 20)) block_style).
Definition moved_style := s_offsets (OLen (pxu 7)) OAuto OAuto (OLen (pxu 9)) (s_position PRelative box_style).
Definition inv_doc : doc := el box_style [el moved_style [el box_style []; el (s_size (Len (pxu 50)) (Len (pxu 40)) box_style) []]; el box_style []].
Example inv_doc_boxed : boxed inv_doc /\ all_displayed idsty inv_doc.
Proof.
  split; repeat first [constructor | intros k [<-|I]; [|] | intros k [] | destruct I as [<-|I] | discriminate | destruct I ].
Qed.
Example inv_doc_ok : ok true inv_doc = true /\ ok false inv_doc = true. Proof. vm_compute. auto. Qed.
(** The deepest node's absolute position really is a sum of three non-zero parts. *)
Example inv_doc_path : let n' := out false inv_doc in
  let k := kid 1 (kid 0 n') in
  get_path [0%nat; 1%nat] n' = Some k
  /\ List.map (fun b => (this (nval (content_top b)), this (nval (content_left b)))) [bx n'; bx (kid 0 n'); bx k]
     = [(11, 24); (9, 33); (15, 24)]%Q
  /\ this (nval (absolute_content_top (bx k))) = 35%Q /\ this (nval (absolute_content_left (bx k))) = 81%Q.
Proof. vm_compute. auto. Qed.
Example inv_doc_displayed : displayed_path idsty [0%nat; 1%nat] (out false inv_doc).
Proof.
  eapply dp_kid with (k := kid 0 (out false inv_doc)); [vm_compute; discriminate|vm_compute; reflexivity|].
  eapply dp_kid with (k := kid 1 (kid 0 (out false inv_doc))); [vm_compute; discriminate|vm_compute; reflexivity|].
  apply dp_here. vm_compute. discriminate.
Qed.
(** A layout that raises half-way, so that the claims about failures are not void. *)
Definition fail_doc : doc := el box_style [el box_style []; el (s_float (Some FLeft) box_style) []].
Example fail_doc_raises : ok false fail_doc = false /\ inputs (out false fail_doc) = inputs fail_doc
  /\ out false fail_doc <> fail_doc.
Proof. split; [vm_compute; reflexivity|]. split; [vm_compute; reflexivity|]. intros E. apply (f_equal (fun n => content_left (bx n))) in E. vm_compute in E. discriminate. Qed.

(** C52 as stated is false: a node that is hidden, laid out and shown again
    starts with origin 0, and keeps it although its parent does not move. *)
Definition hist_doc (hidden : bool) : doc :=
  el (s_size Auto (Len (pxu 100)) box_style)
     [el (if hidden then s_display None box_style else s_size Auto (Len (pxu 10)) block_style) []].
Definition show_again (n : doc) : doc :=
  at_path [0%nat] (fun k => Node (s_size Auto (Len (pxu 10)) block_style) (n_intr k) (n_box k) (n_kids k)) n.
Theorem C52_history_refuted : exists (n m n' m' : doc),
  inputs n = inputs m /\ boxed n /\ m = show_again (fst (layout idsty screen false (hist_doc true)))
  /\ layout idsty screen false n = (n', Ok tt) /\ layout idsty screen false m = (m', Ok tt)
  /\ nval (absolute_content_left (bx (kid 0 n'))) <> nval (absolute_content_left (bx (kid 0 m'))).
Proof.
  exists (hist_doc false), (show_again (out false (hist_doc true))), (out false (hist_doc false)),
    (out false (show_again (out false (hist_doc true)))).
  split; [vm_compute; reflexivity|]. split; [repeat first [constructor | intros k [<-|[]]; [] | intros k []]|].
  split; [reflexivity|]. split; [apply ok_layout; vm_compute; reflexivity|]. split; [apply ok_layout; vm_compute; reflexivity|].
  intros E. apply (f_equal this) in E. vm_compute in E. discriminate.
Qed.

Print Assumptions C51_absolute_positions.
Print Assumptions C51_positions_preserved.
Print Assumptions C53_inputs_unchanged.
Print Assumptions C79_history_independent.
Print Assumptions C79_repeated_layout.
Print Assumptions C52_idempotent_partial.
Print Assumptions C52_history_refuted.

(** ** The hypotheses of each theorem, for [inv_doc] and [fail_doc] *)
Example C51_example : layout idsty screen false inv_doc = (out false inv_doc, Ok tt) /\ boxed inv_doc
  /\ displayed_path idsty [0%nat; 1%nat] (out false inv_doc) /\ get_path [0%nat; 1%nat] (out false inv_doc) = Some (kid 1 (kid 0 (out false inv_doc)))
  /\ this (nval (absolute_content_top (bx (kid 1 (kid 0 (out false inv_doc)))))) = 35%Q.
Proof. split; [apply ok_layout, inv_doc_ok|]. split; [apply inv_doc_boxed|]. split; [apply inv_doc_displayed|]. split; apply inv_doc_path. Qed.
(** A layout that fails half-way. *)
Example C53_example : exists e, layout idsty screen false fail_doc = (out false fail_doc, Err e) /\ out false fail_doc <> fail_doc.
Proof.
  destruct (layout idsty screen false fail_doc) as [n' [[]|e]] eqn:E.
  - destruct fail_doc_raises as [F _]. unfold ok in F. rewrite E in F. discriminate F.
  - exists e. split; [unfold out; rewrite E; reflexivity|apply fail_doc_raises].
Qed.
(** Two documents with equal inputs and different boxes. *)
Example C79_example : boxed inv_doc /\ boxed (out true inv_doc) /\ all_displayed idsty inv_doc /\ inputs inv_doc = inputs (out true inv_doc) /\ inv_doc <> out true inv_doc.
Proof.
  split; [apply inv_doc_boxed|]. split; [let x := eval vm_compute in (out true inv_doc) in replace (out true inv_doc) with x by (vm_compute; reflexivity); solve_boxed|].
  split; [apply inv_doc_boxed|]. split; [vm_compute; reflexivity|].
  intros E. apply (f_equal (fun n => content_left (bx n))) in E. vm_compute in E. discriminate E.
Qed.
Example C52_example : layout idsty screen false inv_doc = (out false inv_doc, Ok tt) /\ boxed inv_doc /\ all_displayed idsty inv_doc.
Proof. split; [apply ok_layout, inv_doc_ok|apply inv_doc_boxed]. Qed.
