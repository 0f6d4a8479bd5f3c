(** * What C205 says: width and height do not apply to inline text *)
From Coq Require Import Bool List.
From Verif Require Import PyNum Units BoxModel Engine PinSpec.
Import ListNotations.

(** A block-level element with a declared height. *)
Definition tall_block (s : style) : Prop :=
  match st_display s with Some (DBlock | DListItem | DTable) => st_height s <> Auto | _ => False end.

Section Word.
Context {S : Type} (sty sty' : S -> style).
(** Under the two readings of the declarations all elements are the same, except that inline elements which are not replaced may have another width, and also
    another height if no child of theirs is a block with a declared height. *)
Inductive resized_words : node S -> Prop :=
| resized_node s i b ks :
    sty' s = sty s
    \/ st_display (sty s) = Some DInline /\ s_replaced i = false
       /\ (exists w h, sty' s = with_size w h (sty s) /\ (h = st_height (sty s) \/ forall k, In k ks -> ~ tall_block (sty (n_style k)))) ->
    (forall k, In k ks -> resized_words k) -> resized_words (Node s i b ks).
End Word.
