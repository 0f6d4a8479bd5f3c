(** * An empty block between two blocks: a reader's specification

    C175: an empty block between two adjacent blocks keeps their margins from
    collapsing: what comes after moves down by the overlap of the two margins. *)
From Coq Require Import ZArith QArith Qcanon Bool List.
From Verif Require Import PyNum Units BoxModel Engine EngineSpec RefLayout OkSpec LocalSpec PushSpec WrapSpec.
Import ListNotations.
Open Scope Qc_scope.

(** The overlap of the bottom margin (with what collapses with it) of a box and
    the top margin of the next: the smaller of the two, and 0 if the latter is
    negative. *)
Definition overlap (u v : used) : Qc := qc_min (Z2Qc (u_cb u)) (qc_max 0 (u_mt v)).

Section Spacer.
Context {S : Type} (sty : S -> style).
Notation node := (node S).

(** An empty block: plain, no children, no minimal height, not an image. *)
Definition blank (k : node) : Prop := plain (sty (n_style k)) /\ st_min_height (sty (n_style k)) = Auto /\ n_kids k = [] /\ s_replaced (n_intr k) = false.
(** [spaced p n m]: [m] is the document [n] (whatever its boxes) with an empty
    block between two adjacent blocks; [p] is the path of the first of these.  It
    is not relatively positioned, and all above are blocks. *)
Inductive spaced : list nat -> node -> node -> Prop :=
| spaced_here s i b b' before before' k l k' l' e rest rest' :
    st_display (sty s) = Some DBlock \/ st_display (sty s) = Some DListItem ->
    map inputs before = map inputs before' -> inputs k = inputs k' -> inputs l = inputs l' -> map inputs rest = map inputs rest' ->
    block_level (sty (n_style k)) = true -> st_position (sty (n_style k)) <> PRelative -> block_level (sty (n_style l)) = true -> blank e ->
    spaced [length before] (Node s i b (before ++ k :: l :: rest)) (Node s i b' (before' ++ k' :: e :: l' :: rest'))
| spaced_below p s i b b' before before' k k' rest rest' :
    st_display (sty s) = Some DBlock \/ st_display (sty s) = Some DListItem ->
    map inputs before = map inputs before' -> spaced p k k' -> map inputs rest = map inputs rest' ->
    spaced (length before :: p) (Node s i b (before ++ k :: rest)) (Node s i b' (before' ++ k' :: rest')).

(** [parted p g n x y]: in [y] there is a box without height below the box at
    [p], its whole bottom margin away from it; what comes after moves down by the
    overlap of the margins of its two neighbours; the blocks above grow as far as
    their heights follow from their last children, and push what comes after
    them.  [g] is the growth of the root. *)
Inductive parted : list nat -> Qc -> node -> utree -> utree -> Prop :=
| parted_here n u v before k ks e l ls rest :
    length (n_kids n) = length (before ++ UNode k ks :: UNode l ls :: rest) ->
    border_height e = 0 -> u_top e = border_bottom k + Z2Qc (u_cb k) -> grown (if from_last sty n then overlap k l else 0) u v -> u_ct v = u_ct u ->
    parted [length before] (if from_last sty n then overlap k l else 0) n
      (UNode u (before ++ UNode k ks :: UNode l ls :: rest))
      (UNode v (before ++ UNode k ks :: UNode e [] :: map (slide (overlap k l)) (UNode l ls :: rest)))
| parted_below p g n k u v before x y rest :
    nth_error (n_kids n) (length before) = Some k -> length (n_kids n) = length (before ++ x :: rest) ->
    parted p g k x y -> grown (if from_last sty n then g else 0) u v -> u_ct v = u_ct u ->
    parted (length before :: p) (if from_last sty n then g else 0) n
      (UNode u (before ++ x :: rest)) (UNode v (before ++ y :: map (slide g) rest)).
End Spacer.
