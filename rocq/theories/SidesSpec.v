(** * What C209 says: the left and right sides of inline text *)
From Coq Require Import ZArith QArith Qcanon Bool List.
From Verif Require Import PyNum Units BoxModel Engine RefLayout OkSpec.
Import ListNotations.
Open Scope Qc_scope.

(** Other margins, paddings and borders on the left and right. *)
Definition with_sides (ml mr : lenauto) (pl pr : unit_) (bl br : bwidth) (s : style) : style :=
  mkStyle (st_display s) (st_position s) (st_float s) (st_direction s) (st_width s) (st_height s)
    (st_min_width s) (st_min_height s) (st_max_width s) (st_max_height s)
    (st_margin_top s) mr (st_margin_bottom s) ml
    (st_padding_top s) pr (st_padding_bottom s) pl
    (st_border_top s) br (st_border_bottom s) bl
    (st_top s) (st_right s) (st_bottom s) (st_left s)
    (st_border_top_style s) (st_border_right_style s) (st_border_bottom_style s) (st_border_left_style s).
(** The same declarations, except for the sides of inline elements that are not replaced. *)
Definition other_sides (i : size) (s t : style) : Prop :=
  t = s \/ st_display s = Some DInline /\ s_replaced i = false /\ exists ml mr pl pr bl br, t = with_sides ml mr pl pr bl br s.
(** Sides that can be computed without a containing block. *)
Definition plain_sides (s : style) : Prop :=
  forallb (measurable_or_auto false) [st_margin_left s; st_margin_right s] && forallb (measurable_border false) [st_border_left s; st_border_right s]
  && forallb (measurable false) [st_padding_left s; st_padding_right s] = true.
Definition other_plain_sides (i : size) (s t : style) : Prop := t = s \/ other_sides i s t /\ plain_sides s /\ plain_sides t.
Inductive sides_changed {S : Type} (sty : S -> style) (R : size -> style -> style -> Prop) : node S -> node S -> Prop :=
| sides_changed_node s s' i b b' ks ks' : R i (sty s) (sty s') -> Forall2 (sides_changed sty R) ks ks' ->
    sides_changed sty R (Node s i b ks) (Node s' i b' ks').
(** All used values but the margins, borders and paddings on the left and right. *)
Definition but_sides (u : used) : list Qc * list (option Qc) * list Z :=
  ([u_mt u; u_bt u; u_bb u; u_pt u; u_pb u; u_left u; u_top u], [u_mb u; u_w u; u_h u], [u_ct u; u_cb u]).
