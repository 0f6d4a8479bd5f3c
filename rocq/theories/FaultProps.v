(** * C135, C136: which exception a failing layout raises *)
From Coq Require Import ZArith QArith Qcanon Lia Bool List String.
From Verif Require Import PyNum NumFacts Units BoxModel BoxSpec BoxFacts Engine EnginePure EngineFacts EngineSpec
  EngineTree EngineInv EngineFuel EngineExamples RefLayout RefFacts RefProps HistSpec HistProps OkSpec OkFacts OkProps FaultSpec FaultFacts.
Import ListNotations.

Section Fault.
Context {S : Type} (sty : S -> style).
Notation node := (node S).

(** ** Obstacles do not see the contents of boxes *)
Lemma in_node_same n : forall m a, same_boxes n m -> in_node sty a m = in_node sty a n.
Proof.
  induction n as [s i bx ks IH] using node_ind'. intros m a H. inversion H as [? ? ? bx' ? ks' Eb F]; subst. cbn [in_node].
  destruct (st_display (sty s)) as [dk|]; [|reflexivity]. destruct (kind_of (sty s) i) as [kd|]; [|reflexivity].
  pose proof (same_alike _ _ F) as Fa. rewrite (exists_alike sty _ _ Fa).
  assert (L1 : last_before ks' = last_before ks).
  { unfold last_before. apply Forall2_rev_ in F. inversion F as [|k k' r r' Hk]; [reflexivity|]. apply same_style in Hk. destruct Hk as (_ & _ & ->). reflexivity. }
  assert (L2 : forall st, last_after sty st ks' = last_after sty st ks).
  { intros st. unfold last_after. apply Forall2_rev_ in F. inversion F as [|k k' r r' Hk]; [reflexivity|]. unfold block_child. apply same_style in Hk. destruct Hk as (-> & -> & ->). reflexivity. }
  rewrite L1, L2.
  assert (G : forall inner, map (in_node sty inner) ks' = map (in_node sty inner) ks
    /\ forall p, in_stack sty (in_node sty inner) p ks' = in_stack sty (in_node sty inner) p ks).
  { intros inner. clear L1 L2 H. induction F as [|k k' ks ks' Hk F IHf]; [split; reflexivity|]. inversion Fa; subst. destruct IHf as [I1 I2]; [intros; apply IH; [right|]; assumption|assumption|].
    cbn [map in_stack]. rewrite I1. rewrite (block_child_alike sty k k') by assumption. rewrite (IH k (or_introl eq_refl) k' inner Hk). split; [reflexivity|].
    intros p. rewrite !I2. reflexivity. }
  destruct (G (mkAround (width_known kd i) (if relative (sty s) then height_known kd i else true) false (match st_height (sty s) with Auto => None | Len u => Some u end))) as [-> I2].
  rewrite I2. reflexivity.
Qed.

(** C135. *)
Theorem C135_first_obstacle : forall d h5 (n : node), history sty n ->
  match snd (layout sty d h5 n), in_document sty n with
  | Ok _, None => True
  | Err e, Some o => reported_as o e
  | _, _ => False
  end.
Proof.
  intros d h5 n H. unfold in_document. destruct (n_box n) as [b|] eqn:B.
  2: { unfold layout. rewrite B. reflexivity. }
  cbn [some]. pose proof (layout_strip sty d h5 n b B) as E.
  assert (Fr : fresh sty (strip (reset n))) by (apply clean_fresh, reset_clean, (history_sound sty), H).
  pose proof (plb_agrees sty _ d CBView _ _ (le_n _) Fr (view_around sty d)) as A.
  rewrite (in_node_same (reset n) _ _ (same_strip _)), (in_node_same n _ _ (same_reset _)) in A.
  destruct (plb_root sty d n H) as [_ L]. destruct (strip_reset_node n) as [Es Ei].
  assert (Z : agrees (playout sty d h5 (strip (reset n))) (first (in_node sty (mkAround true true true None) n) (unless (some (st_display (sty (n_style n)))) NoBox))).
  { unfold playout. apply agrees_bind; [exact A|]. intros n1 E1. specialize (L n1 E1). unfold was_laid in L. rewrite Es, Ei in L.
    destruct (st_display (sty (n_style n))) as [dk|]; cbn [some unless].
    - destruct L as (kd & b1 & _ & Hb & _). destruct n1 as [s1 i1 bx1 ks1]. cbn in Hb. subst bx1. exact I.
    - destruct n1 as [s1 i1 bx1 ks1]. cbn in L. subst bx1. reflexivity. }
  rewrite E in Z. destruct (layout sty d h5 n) as [n' [[]|e]]; exact Z.
Qed.

(** C136. *)
Theorem C136_same_error : forall d h5 d' h5' (n n1 n2 : node) e e', history sty n ->
  layout sty d h5 n = (n1, Err e) -> layout sty d' h5' n = (n2, Err e') ->
  e = e' \/ (In e [OverflowError; ValueError] /\ In e' [OverflowError; ValueError]).
Proof.
  intros d h5 d' h5' n n1 n2 e e' H L L'. pose proof (C135_first_obstacle d h5 n H) as A. pose proof (C135_first_obstacle d' h5' n H) as A'.
  rewrite L in A. rewrite L' in A'. cbn [snd] in *. destruct (in_document sty n) as [[]|]; try contradiction; cbn in A, A'; try (left; congruence).
  right. cbn. intuition auto.
Qed.
End Fault.
Print Assumptions C135_first_obstacle.
Print Assumptions C136_same_error.

(** ** Examples *)
(** The documents of OkProps.v that cannot be laid out. *)
Example C135_examples : map (in_document idsty) failures
  = [Some UnknownSize; Some NothingToInherit; Some AutoMargin; Some NoBox; Some BlockAfterInline; Some NotSupported; Some UnknownSize].
Proof. vm_compute. reflexivity. Qed.
Definition angle : unit_ := mkU (KAngle "deg" 1) (PI 90).
Definition endless : unit_ := mkU KPx (PF (Inf false)).
(** More: an angle as a width, an infinite padding, a flexible box, a hidden root. *)
Definition more_failures : list doc :=
  [ el block_style [el (s_size (Len angle) Auto block_style) []];
    el (s_padding zero_px endless zero_px zero_px block_style) [];
    el block_style [el (s_display (Some DFlex) block_style) []];
    el (s_display None block_style) [] ].
Example C135_more : map (in_document idsty) more_failures = [Some NotALength; Some NotFinite; Some NoSuchDisplay; Some NoBox]
  /\ Forall (history idsty) (failures ++ more_failures)
  /\ map (fun n => snd (layout idsty screen false n)) (failures ++ more_failures)
     = map Err [TypeError; AttributeError; TypeError; AttributeError; AttributeError; NotImplementedError; TypeError;
                AttributeError; OverflowError; PlainException; AttributeError].
Proof. split; [vm_compute; reflexivity|]. split; [repeat (constructor; [apply history_new; solve_new|]); constructor|vm_compute; reflexivity]. Qed.
(** Of several obstacles the first is reported: an infinite margin above comes
    before an angle as the width, the child's display before a later float. *)
Example C135_order :
  in_document idsty (el (s_margin (Len endless) (Len zero_px) (Len zero_px) (Len zero_px) (s_size (Len angle) Auto block_style)) []) = Some NotFinite
  /\ in_document idsty (el block_style [el block_style [el (s_display (Some DGrid) block_style) []]; el (s_float (Some FLeft) block_style) []]) = Some NoSuchDisplay.
Proof. split; vm_compute; reflexivity. Qed.
(** The exception for an infinite amount depends on the display. *)
Definition flat : display_t := mkDisp (NI 96) (NI 1000) (NI 0) (fun _ => NI 1).
Example C136_displays : let n := el (s_padding (mkU (KVp "vh" ScaleVh) (PF (Inf false))) zero_px zero_px zero_px block_style) [] in
  history idsty n /\ snd (layout idsty screen false n) = Err OverflowError /\ snd (layout idsty flat false n) = Err ValueError.
Proof. split; [apply history_new; solve_new|]. split; vm_compute; reflexivity. Qed.
