(** * Specification: documents with hidden nodes *)
From Coq Require Import ZArith Bool List.
From Verif Require Import PyNum Units BoxModel Engine EngineSpec.
Import ListNotations.

Section Spec.
Context {S : Type} (sty : S -> style).
Notation node := (node S).
(** display: none *)
Definition hides (n : node) : bool := match st_display (sty (n_style n)) with None => true | Some _ => false end.
(** The document without its hidden nodes. *)
Fixpoint prune (n : node) : node :=
  let 'Node s i bx ks := n in Node s i bx (flat_map (fun k => if hides k then [] else [prune k]) ks).
(** [harmless n]: no hidden node of the document comes before a block-level
    sibling in a block formatting context, and none is the last child of a
    block of auto height.  (What is below a hidden node does not matter.) *)
Inductive harmless : node -> Prop :=
| harmless_hidden n : hides n = true -> harmless n
| harmless_node s i bx ks :
    (forall k, In k ks -> harmless k) ->
    (forall pre h post k, establishes_inline sty (Node s i bx ks) = false -> ks = pre ++ h :: post -> hides h = true ->
       In k post -> is_block_level (sty (n_style k)) = false) ->
    (forall pre k, is_block_level (sty s) = true -> st_height (sty s) = Auto -> ks = pre ++ [k] -> hides k = false) ->
    harmless (Node s i bx ks).
End Spec.
