(** * What C197 says: percentages of percentages *)
From Coq Require Import ZArith QArith Qcanon Bool List.
From Verif Require Import PyNum Units UnitsSpec BoxModel BoxSpec Engine EngineSpec RefLayout DisplaySpec.
Import ListNotations.
Open Scope Qc_scope.

Section Nest.
Context {S : Type} (sty : S -> style).
Notation node := (node S).
(** A block whose width is [v] percent, between 0% and 100%, without limits. *)
Definition percent_block (k : node) (v : Qc) : Prop :=
  block_level (sty (n_style k)) = true /\ (exists p, st_width (sty (n_style k)) = Len (mkU KPct p) /\ magnitude p v) /\ 0 <= v /\ v <= Z2Qc 100
  /\ st_min_width (sty (n_style k)) = Auto /\ st_max_width (sty (n_style k)) = None.
(** [nested root D op k w m]: [k] and all nodes around it are such blocks or
    blocks of auto width.  On a display of width [D], [k] would be [w] px wide
    without rounding.  [m] widths on the way are percentages. *)
Inductive nested (root : node) (D : Qc) : option node -> node -> Qc -> nat -> Prop :=
| nested_percent_root v : laid sty root None root -> percent_block root v -> nested root D None root (v * D / Z2Qc 100) 1
| nested_auto_root b l r : laid sty root None root -> auto_block sty root -> n_box root = Some b -> left_edges b l -> right_edges b r ->
    nested root D None root (D - l - r) 0
| nested_percent op p k w m v : nested root D op p w m -> laid sty root (Some p) k -> In k (n_kids p) -> percent_block k v ->
    nested root D (Some p) k (v * w / Z2Qc 100) (Datatypes.S m)
| nested_auto op p k b w m l r : nested root D op p w m -> laid sty root (Some p) k -> In k (n_kids p) -> auto_block sty k ->
    n_box k = Some b -> left_edges b l -> right_edges b r -> nested root D (Some p) k (w - l - r) m.
End Nest.
