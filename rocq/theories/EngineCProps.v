(** * Property C64: pixel documents do not depend on the resolution *)
From Coq Require Import ZArith QArith Qcanon Lia Bool String List.
From Verif Require Import PyNum NumFacts Units BoxModel BoxSpec BoxFacts Engine EnginePure EngineFacts EngineSpec
  EngineTree EngineInv EngineCong EngineExamples.
Import ListNotations.
Open Scope Z_scope.

Section Props.
Context {S : Type} (sty : S -> style).
Notation node := (node S).

(** C64.  A document all of whose lengths are in px is laid out identically on
    all displays of the same width (and the same thin/medium/thick borders),
    whatever their resolution; in HTML5 mode the displays must also have the
    same height, in HTML4 mode not even that.  Identically: the same tree with
    the same boxes, or the same exception after the same partial effects. *)
Theorem C64_pixel_documents : forall d d' h5 (n : node),
  every_node (fun s _ => px_style (sty s)) n ->
  disp_width d = disp_width d' -> (forall k, fixed_size d k = fixed_size d' k) ->
  (h5 = true -> disp_height d = disp_height d') ->
  layout sty d h5 n = layout sty d' h5 n.
Proof.
  intros d d' h5 n P Ew Ef Eh. unfold layout. destruct (n_box n); [|reflexivity].
  unfold mbind at 1 3, mmod. unfold mbind.
  rewrite (layout_box_kpx sty (height n) d d' dummy_font dummy_font CBView (reset n) Ew Ef); [| |exact I].
  2:{ eapply every_inputs; [exact P|]. symmetry. apply inputs_reset. }
  destruct (layout_box sty (height n) d' dummy_font CBView (reset n)) as [n1 [u|e]]; [|reflexivity].
  unfold finish_root. destruct (n_box n1); [|reflexivity]. destruct h5; [rewrite (Eh eq_refl)|]; reflexivity.
Qed.

(** C64, the font part.  The engine lays out every document with one dummy font
    ([dummy_font]); the layout of a node does not depend on it. *)
Theorem C64_any_font : forall fuel d d' f f' (n : node),
  every_node (fun s _ => px_style (sty s)) n ->
  disp_width d = disp_width d' -> (forall k, fixed_size d k = fixed_size d' k) ->
  layout_box sty fuel d f CBView n = layout_box sty fuel d' f' CBView n.
Proof. intros fuel d d' f f' n P Ew Ef. apply (layout_box_kpx sty fuel d d' f f' CBView n Ew Ef P I). Qed.
End Props.

(** ** Examples *)
Definition px_doc : doc :=
  el (s_padding (pxu 1) (pxu 2) (pxu 3) (pxu 4) block_style)
     [el (s_size (Len (pxu 200)) (Len (pxu 50)) (s_margin Auto Auto (Len (pxu 7)) Auto block_style)) [];
      el (s_border (BKw Thin) (BKw Medium) (BLen (pxu 2)) (BKw Thick) (s_offsets (OLen (pxu 3)) OAuto OAuto (OLen (pxu 4)) (s_position PRelative block_style))) []].
Definition retina : display_t :=
  mkDisp (NI 300) (NI 1000) (NI 2000) (fun k => match k with Thin => NI 1 | Medium => NI 3 | Thick => NI 5 end).
Lemma px_style_dec s : forallb (fun u => match u_kind u with KPx => true | _ => false end) (style_units s) = true -> px_style s.
Proof.
  intros H u I. rewrite forallb_forall in H. specialize (H u I). destruct (u_kind u); congruence.
Qed.
Lemma px_doc_px : every_node (fun s _ => px_style (idsty s)) px_doc.
Proof.
  assert (E : forall s, px_style s -> every_node (fun s _ => px_style (idsty s)) (el s [])).
  { intros s H. constructor; [exact H|]. intros k []. }
  unfold px_doc, el at 1. constructor; [apply px_style_dec; reflexivity|].
  intros k [<-|[<-|[]]]; apply E, px_style_dec; reflexivity.
Qed.
Example C64_pixel_documents_example : layout idsty screen false px_doc = layout idsty retina false px_doc.
Proof. apply C64_pixel_documents; [apply px_doc_px|reflexivity|reflexivity|discriminate]. Qed.
(** The layout succeeds, and the resolution does matter in other documents. *)
Example C64_nontrivial : ok false px_doc = true /\
  let d := el (s_padding (mkU (KAbs "pt" (Z2Qc 1)) (PI 7)) (pxu 1) (pxu 1) (pxu 1) block_style) [] in
  match n_box (fst (layout idsty screen false d)), n_box (fst (layout idsty retina false d)) with
  | Some b, Some b' => neqb (padding_top b) (padding_top b') = false
  | _, _ => False
  end.
Proof. split; vm_compute; reflexivity. Qed.

Print Assumptions C64_pixel_documents.
Print Assumptions C64_any_font.
