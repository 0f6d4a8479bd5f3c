(** * Reordering blocks: a reader's specification

    C174: blocks without vertical margins can be put in another order; each of
    them looks the same, the blocks touch each other, and nothing around them
    changes.  The height of a block that contains only such blocks is the sum of
    their heights. *)
From Coq Require Import ZArith QArith Qcanon Bool List Permutation.
From Verif Require Import PyNum Units BoxModel Engine EngineSpec RefLayout WrapSpec.
Import ListNotations.
Open Scope Qc_scope.

(** A laid out subtree without its vertical position. *)
Definition unplaced (t : utree) : utree := match t with UNode u us => UNode (move_down (- u_top u) u) us | t => t end.
(** [touching y l z]: the boxes [l] follow each other without gaps, border edge to
    border edge, from [y] to [z] (px below the upper edge of the content box of
    the parent). *)
Inductive touching : Qc -> list utree -> Qc -> Prop :=
| touching_none y : touching y [] y
| touching_next y u us l z : u_top u - u_pt u - u_bt u = y -> touching (y + border_height u) l z -> touching y (UNode u us :: l) z.
(** The sum of the heights of boxes, from border edge to border edge. *)
Fixpoint heights (l : list utree) : Qc :=
  match l with [] => 0 | UNode u _ :: r => border_height u + heights r | _ :: r => heights r end.

(** [rearranged p c t t']: below the node at the path [p] without its last step,
    [c] boxes, the first of them with the last step as its number, are the same
    boxes in another order at the same place; everything else is the same. *)
Inductive rearranged : list nat -> nat -> utree -> utree -> Prop :=
| rearranged_here u before group group' rest y z :
    Permutation (map unplaced group) (map unplaced group') -> touching y group z -> touching y group' z ->
    rearranged [length before] (length group) (UNode u (before ++ group ++ rest)) (UNode u (before ++ group' ++ rest))
| rearranged_below p c u before t t' rest : rearranged p c t t' ->
    rearranged (length before :: p) c (UNode u (before ++ t :: rest)) (UNode u (before ++ t' :: rest))
| rearranged_away p c t : t = UHidden \/ t = USkipped -> rearranged p c t t.

Section Order.
Context {S : Type} (sty : S -> style).
Notation node := (node S).

(** No vertical margins in the whole subtree. *)
Inductive marginless : node -> Prop :=
| marginless_node s i b ks : nothing_or_auto (st_margin_top (sty s)) = true -> nothing_or_auto (st_margin_bottom (sty s)) = true ->
    Forall marginless ks -> marginless (Node s i b ks).
(** A block without vertical margins in normal position. *)
Definition stackable (k : node) : Prop :=
  block_level (sty (n_style k)) = true /\ st_position (sty (n_style k)) <> PRelative /\ marginless k.

(** [reordered p c n m]: the documents (whatever their boxes) differ in the order
    of [c] consecutive children of a block. *)
Inductive reordered : list nat -> nat -> node -> node -> Prop :=
| reordered_here s i b b' before before' group group' rest rest' :
    map inputs before = map inputs before' -> Permutation (map inputs group) (map inputs group') -> map inputs rest = map inputs rest' ->
    st_display (sty s) = Some DBlock \/ st_display (sty s) = Some DListItem -> Forall stackable group ->
    reordered [length before] (length group) (Node s i b (before ++ group ++ rest)) (Node s i b' (before' ++ group' ++ rest'))
| reordered_below p c s i b b' before before' k k' rest rest' :
    map inputs before = map inputs before' -> reordered p c k k' -> map inputs rest = map inputs rest' ->
    reordered (length before :: p) c (Node s i b (before ++ k :: rest)) (Node s i b' (before' ++ k' :: rest')).

(** [place n t k x]: the element [k] of the document [n] is laid out as [x] in the
    layout [t] of [n]. *)
Inductive place : node -> utree -> node -> utree -> Prop :=
| place_here n t : place n t n t
| place_below s i b ks u us j k0 x0 k x : nth_error ks j = Some k0 -> nth_error us j = Some x0 -> place k0 x0 k x ->
    place (Node s i b ks) (UNode u us) k x.
(** A block of automatic height that contains blocks without vertical margins only. *)
Definition pile (k : node) : Prop :=
  (st_display (sty (n_style k)) = Some DBlock \/ st_display (sty (n_style k)) = Some DListItem)
  /\ st_height (sty (n_style k)) = Auto /\ n_kids k <> [] /\ Forall stackable (n_kids k).
End Order.
