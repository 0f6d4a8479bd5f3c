(** * What C199 says: horizontal margins of elements with a declared width *)
From Coq Require Import ZArith QArith Qcanon Bool List.
From Verif Require Import PyNum Units BoxModel Engine RefLayout OkSpec.
Import ListNotations.
Open Scope Qc_scope.

(** The same declarations, except that the direction may differ and that the margins on the left
    and on the right may differ if the element is not inline and has a declared width.  The
    offsets left and right are not `inherit'. *)
Definition sideways (s t : style) : Prop :=
  (st_display s, st_position s) = (st_display t, st_position t)
  /\ (st_width s, st_min_width s, st_max_width s) = (st_width t, st_min_width t, st_max_width t)
  /\ (st_height s, st_min_height s, st_max_height s) = (st_height t, st_min_height t, st_max_height t)
  /\ (st_margin_top s, st_margin_bottom s) = (st_margin_top t, st_margin_bottom t)
  /\ (st_border_top s, st_border_right s, st_border_bottom s, st_border_left s) = (st_border_top t, st_border_right t, st_border_bottom t, st_border_left t)
  /\ (st_padding_top s, st_padding_right s, st_padding_bottom s, st_padding_left s) = (st_padding_top t, st_padding_right t, st_padding_bottom t, st_padding_left t)
  /\ (st_top s, st_right s, st_bottom s, st_left s) = (st_top t, st_right t, st_bottom t, st_left t)
  /\ ((st_margin_left s, st_margin_right s) = (st_margin_left t, st_margin_right t) \/ (st_display s <> Some DInline /\ st_width s <> Auto))
  /\ st_left s <> OInherit /\ st_right s <> OInherit.
(** Margins that can be computed without a containing block: `auto' or a finite length, but not
    a percentage. *)
Definition plain_margins (s : style) : Prop := forallb (measurable_or_auto false) [st_margin_left s; st_margin_right s] = true.
Definition plainly_sideways (s t : style) : Prop := sideways s t /\ st_float s = st_float t /\ plain_margins s /\ plain_margins t.
(** All used values of a box except for its margins on the left and on the right; of its position in the
    horizontal direction, the distance to the used left margin: top margin, borders, paddings,
    distance, vertical position; bottom margin and size; collapsed extents. *)
Definition but_aside (u : used) : list Qc * list (option Qc) * list Z :=
  ([u_mt u; u_bt u; u_br u; u_bb u; u_bl u; u_pt u; u_pr u; u_pb u; u_pl u; u_left u - u_ml u; u_top u],
   [u_mb u; u_w u; u_h u], [u_ct u; u_cb u]).
