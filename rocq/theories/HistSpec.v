(** * Specification for C122: documents as programs make them *)
From Coq Require Import List Permutation.
From Verif Require Import PyNum Units BoxModel Engine.
Import ListNotations.

Section Hist.
Context {S : Type} (sty : S -> style).
Notation node := (node S).

(** A new document: every node has a newly created box. *)
Inductive brand_new : node -> Prop :=
| brand_new_node s i ks : (forall k, In k ks -> brand_new k) -> brand_new (Node s i (Some box0) ks).
(** Edits between two layouts: any styles and intrinsic sizes, anywhere (so
    nodes can be hidden and shown again); children removed, added (new ones) and
    put into another order.  Boxes are left alone. *)
Inductive edited : node -> node -> Prop :=
| edited_node s i s' i' bx ks ks' : kids_edited ks ks' -> edited (Node s i bx ks) (Node s' i' bx ks')
with kids_edited : list node -> list node -> Prop :=
| edited_end : kids_edited [] []
| edited_keep k k' ks ks' : edited k k' -> kids_edited ks ks' -> kids_edited (k :: ks) (k' :: ks')
| edited_drop k ks ks' : kids_edited ks ks' -> kids_edited (k :: ks) ks'
| edited_add k ks ks' : brand_new k -> kids_edited ks ks' -> kids_edited ks (k :: ks')
| edited_order ks ks' ks'' : kids_edited ks ks' -> Permutation ks' ks'' -> kids_edited ks ks''.
(** The documents that any sequence of edits and layouts (on any displays,
    successful or not) makes from a new document. *)
Inductive history : node -> Prop :=
| history_new n : brand_new n -> history n
| history_edit n m : history n -> edited n m -> history m
| history_layout d h5 n : history n -> history (fst (layout sty d h5 n)).
End Hist.
