(** * Elements that make layout() go through everything inside them *)
From Coq Require Import ZArith QArith Qcanon Bool List.
From Verif Require Import PyNum Units BoxModel BoxSpec Engine EngineSpec RefLayout.
Import ListNotations.
Open Scope Qc_scope.

Section Spec.
Context {S : Type} (sty : S -> style).
Notation node := (node S).
(** The number of boxes in a document: nodes with a layout, below nodes that all have one. *)
Fixpoint boxes (n : node) : nat :=
  match n with
  | Node _ _ None _ => 0%nat
  | Node _ _ (Some _) ks => Datatypes.S (fold_right Nat.add 0%nat (map boxes ks))
  end.
(** The content of the box starts below its margin box by more or less than the margin: the top
    border and the top padding do not add up to zero. *)
Definition inset (b : box) : bool := if Qc_eq_dec (nval (border_top_width b) + nval (padding_top b)) 0 then false else true.
(** The boxes in the block-level elements that are inset, one element after the other: boxes
    inside several of them count several times. *)
Fixpoint inset_boxes (n : node) : nat :=
  match n with
  | Node _ _ None _ => 0%nat
  | Node s _ (Some b) ks =>
      ((if is_block_level (sty s) && inset b then boxes n else 0) + fold_right Nat.add 0%nat (map inset_boxes ks))%nat
  end.
(** The levels of the nodes, added up: [k] for the node, one more for each step down.  From
    [k = 1], every node counts once for itself and once for every element around it. *)
Fixpoint levels (k : nat) (n : node) : nat :=
  let 'Node _ _ _ ks := n in (k + fold_right Nat.add 0%nat (map (levels (Datatypes.S k)) ks))%nat.
(** On the display [d], the top border and the top padding of every element take up space, for
    whatever width percentages refer to. *)
Definition inset_everywhere (d : display_t) (n : node) : Prop :=
  forall p m, get_path p n = Some m ->
  forall W, border_len d W (st_border_top (sty (n_style m))) + len d W (st_padding_top (sty (n_style m))) <> 0.
End Spec.
