(** * What C206 says: where intrinsic sizes matter *)
From Coq Require Import Bool List.
From Verif Require Import PyNum Units BoxModel Engine.
Import ListNotations.

(** Two intrinsic sizes of an element with these declarations agree where they are used.  Whether an element is replaced always is.  Text has its width
    and height.  A replaced inline element uses its width if no width is declared, and its height and ratio if no height is declared.
    A block uses none of them, and nothing uses the exactness of widths and heights. *)
Definition same_where_used (s : style) (i j : size) : Prop :=
  s_replaced j = s_replaced i
  /\ (st_display s = Some DInline -> s_replaced i = false -> s_width j = s_width i /\ s_height j = s_height i)
  /\ (st_display s = Some DInline -> s_replaced i = true -> st_width s = Auto -> s_width j = s_width i)
  /\ (st_display s = Some DInline -> s_replaced i = true -> st_height s = Auto -> s_height j = s_height i /\ s_ratio j = s_ratio i).
(** The same declarations everywhere, with intrinsic sizes that agree where they are used. *)
Inductive same_intrinsics {S : Type} (sty : S -> style) : node S -> node S -> Prop :=
| same_intrinsics_node s i j b b' ks ks' : same_where_used (sty s) i j -> Forall2 (same_intrinsics sty) ks ks' ->
    same_intrinsics sty (Node s i b ks) (Node s j b' ks').
