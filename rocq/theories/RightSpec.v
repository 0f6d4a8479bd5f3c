(** * What C211 says: the right side of inline images *)
From Coq Require Import ZArith QArith Qcanon Bool List.
From Verif Require Import PyNum Units BoxModel Engine RefLayout OkSpec SidesSpec.
Import ListNotations.
Open Scope Qc_scope.

(** The width of a replaced inline element follows from the space around it: neither a width nor a height is declared, and there is a ratio but no
    intrinsic width or height. *)
Definition fills (i : size) (s : style) : Prop :=
  st_width s = Auto /\ st_height s = Auto /\ s_width i = None /\ s_height i = None /\ s_ratio i <> None.
(** The same declarations, except for the right margin, padding and border of replaced inline elements that do not fill the space. *)
Definition other_right (i : size) (s t : style) : Prop :=
  t = s \/ st_display s = Some DInline /\ s_replaced i = true /\ ~ fills i s
    /\ exists mr pr br, t = with_sides (st_margin_left s) mr (st_padding_left s) pr (st_border_left s) br s.
(** All used values but the margin, border and padding on the right. *)
Definition but_right (u : used) : list Qc * list (option Qc) * list Z :=
  ([u_mt u; u_ml u; u_bt u; u_bb u; u_bl u; u_pt u; u_pb u; u_pl u; u_left u; u_top u], [u_mb u; u_w u; u_h u], [u_ct u; u_cb u]).
(** Both computable without a containing block. *)
Definition other_plain_right (i : size) (s t : style) : Prop := t = s \/ other_right i s t /\ plain_sides s /\ plain_sides t.
