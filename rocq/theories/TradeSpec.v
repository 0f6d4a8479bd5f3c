(** * What C190 says: borders exchanged for paddings *)
From Coq Require Import ZArith QArith Qcanon Bool List.
From Verif Require Import PyNum Units BoxModel Engine RefLayout OkSpec.
Import ListNotations.
Open Scope Qc_scope.

(** On the display [d], the styles have the same declarations except for borders and paddings, and
    on every side the border and the padding together take up the same space, whatever
    percentages refer to. *)
Definition traded (d : display_t) (s t : style) : Prop :=
  (st_display s, st_position s, st_direction s) = (st_display t, st_position t, st_direction t)
  /\ (st_width s, st_min_width s, st_max_width s) = (st_width t, st_min_width t, st_max_width t)
  /\ (st_height s, st_min_height s, st_max_height s) = (st_height t, st_min_height t, st_max_height t)
  /\ (st_margin_top s, st_margin_right s, st_margin_bottom s, st_margin_left s) = (st_margin_top t, st_margin_right t, st_margin_bottom t, st_margin_left t)
  /\ (st_top s, st_right s, st_bottom s, st_left s) = (st_top t, st_right t, st_bottom t, st_left t)
  /\ forall P,
     border_len d P (st_border_top s) + len d P (st_padding_top s) = border_len d P (st_border_top t) + len d P (st_padding_top t)
     /\ border_len d P (st_border_right s) + len d P (st_padding_right s) = border_len d P (st_border_right t) + len d P (st_padding_right t)
     /\ border_len d P (st_border_bottom s) + len d P (st_padding_bottom s) = border_len d P (st_border_bottom t) + len d P (st_padding_bottom t)
     /\ border_len d P (st_border_left s) + len d P (st_padding_left s) = border_len d P (st_border_left t) + len d P (st_padding_left t).
(** Documents of the same shape, with the same intrinsic sizes and with related styles. *)
Inductive everywhere {S : Type} (sty : S -> style) (R : style -> style -> Prop) : node S -> node S -> Prop :=
| everywhere_node s s' i b b' ks ks' : R (sty s) (sty s') ->
    Forall2 (everywhere sty R) ks ks' -> everywhere sty R (Node s i b ks) (Node s' i b' ks').
(** Borders and paddings are keywords or finite lengths, but not percentages. *)
Definition plain_edges (s : style) : Prop :=
  forallb (measurable_border false) [st_border_top s; st_border_right s; st_border_bottom s; st_border_left s] = true
  /\ forallb (measurable false) [st_padding_top s; st_padding_right s; st_padding_bottom s; st_padding_left s] = true.
Definition plainly_traded (d : display_t) (s t : style) : Prop :=
  traded d s t /\ st_float s = st_float t /\ plain_edges s /\ plain_edges t.
(** All used values of a box, but of the border and padding on a side only the
    sum: margins, the borders with the paddings, position; bottom margin and size; collapsed
    extents. *)
Definition but_edges (u : used) : list Qc * list (option Qc) * list Z :=
  ([u_mt u; u_mr u; u_ml u; u_bt u + u_pt u; u_br u + u_pr u; u_bb u + u_pb u; u_bl u + u_pl u; u_left u; u_top u],
   [u_mb u; u_w u; u_h u], [u_ct u; u_cb u]).
