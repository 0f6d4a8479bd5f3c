(** * Specification for C183: what anonymize() returns *)
From Coq Require Import List.
From Verif Require Import PyNum Units BoxModel Engine RefLayout Anonymize.
Import ListNotations.

Section Anon.
Context {S : Type} (sty : S -> style).
Notation node := (node S).
Notation container := (@container S).
(** The node is displayed as a block, a list item or a table. *)
Definition in_blocks (k : node) : Prop := block_level (sty (n_style k)) = true.
(** [grouped ks cs]: each maximal run of other nodes before a block is in an
    anonymous box of its own, the blocks stand for themselves, and the nodes
    after the last block are in no container. *)
Inductive grouped : list node -> list container -> Prop :=
| grouped_end tail : Forall (fun k => ~ in_blocks k) tail -> grouped tail []
| grouped_block k ks cs : in_blocks k -> grouped ks cs -> grouped (k :: ks) (Block k :: cs)
| grouped_run l k ks cs : l <> [] -> Forall (fun k => ~ in_blocks k) l -> in_blocks k -> grouped ks cs ->
    grouped (l ++ k :: ks) (Anon l :: Block k :: cs).
(** The nodes in a container. *)
Definition members (c : container) : list node := match c with Anon l => l | Block k => [k] end.
End Anon.
