(** * What counting the work of layout() means *)
From Coq Require Import ZArith Bool List.
From Verif Require Import PyNum Units BoxModel BoxSpec Engine Cost EngineFSpec.
Import ListNotations.

(** The result of a counted computation, and its count. *)
Definition result {A} (x : A * nat) : A := fst x.
Definition price {A} (x : A * nat) : nat := snd x.
(** The number of layout_box() calls of layout(display, node, standard). *)
Definition calls {S} (sty : S -> style) d h5 (n : node S) : nat := price (layoutC sty 1 0 d h5 n).
(** The number of executions of the setters that go through the children. *)
Definition turns {S} (sty : S -> style) d h5 (n : node S) : nat := price (layoutC sty 0 1 d h5 n).
(** Every node of the document is displayed as a block-level element. *)
Definition all_block {S} (sty : S -> style) (n : node S) : Prop :=
  forall p m, get_path p n = Some m -> is_block_level (sty (n_style m)) = true.
