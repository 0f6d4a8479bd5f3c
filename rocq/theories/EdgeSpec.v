(** * Specification for C128 and C129: percentages and signs of used values *)
From Coq Require Import ZArith QArith Qcanon Bool List.
From Verif Require Import PyNum Units BoxModel Engine RefLayout.
Import ListNotations.
Open Scope Qc_scope.

(** ** C128 *)
(** [u] is a percentage. *)
Definition is_percentage (u : unit_) : bool := match u_kind u with KPct => true | _ => false end.
(** [u] percent of [x], on the grid of 1/64 px. *)
Definition percent (u : unit_) (x : Qc) : Qc := to_grid (amount (u_val u) * x / Z2Qc 100).

Section Refs.
Context {S : Type} (sty : S -> style).
(** The width of the containing block: the display or the parent [op]; 0 if unknown. *)
Definition width_around (d : display_t) (op : option (node S)) : Qc :=
  match op with
  | None => nval (disp_width d)
  | Some p => match n_box p with Some b => match content_width b with LNum x => nval x | _ => 0 end | None => 0 end
  end.
(** What stands in for its height: 0 below the root. *)
Definition height_around (d : display_t) (op : option (node S)) : Qc :=
  match op with None => nval (disp_height d) | Some _ => 0 end.
(** The containing block is not relatively positioned. *)
Definition static_around (op : option (node S)) : Prop :=
  match op with None => True | Some p => st_position (sty (n_style p)) <> PRelative end.
End Refs.

(** ** C129 *)
(** Pixels, absolute lengths and viewport percentages. *)
Definition absolute (u : unit_) : Prop :=
  match u_kind u with KPx | KVp _ _ => True | KAbs _ points => 0 <= points | _ => False end.
Definition font_relative (u : unit_) : Prop := match u_kind u with KFont _ => True | _ => False end.
(** The lengths that a style gives for edges and vertical margins, with the used values. *)
Inductive edge_of (s : style) (b : box) : unit_ -> Qc -> Prop :=
| edge_pt : edge_of s b (st_padding_top s) (nval (padding_top b))
| edge_pr : edge_of s b (st_padding_right s) (nval (padding_right b))
| edge_pb : edge_of s b (st_padding_bottom s) (nval (padding_bottom b))
| edge_pl : edge_of s b (st_padding_left s) (nval (padding_left b))
| edge_bt u : st_border_top s = BLen u -> edge_of s b u (nval (border_top_width b))
| edge_br u : st_border_right s = BLen u -> edge_of s b u (nval (border_right_width b))
| edge_bb u : st_border_bottom s = BLen u -> edge_of s b u (nval (border_bottom_width b))
| edge_bl u : st_border_left s = BLen u -> edge_of s b u (nval (border_left_width b))
| edge_mt u x : st_margin_top s = Len u -> margin_top b = LNum x -> edge_of s b u (nval x)
| edge_mb u x : st_margin_bottom s = Len u -> margin_bottom b = LNum x -> edge_of s b u (nval x).

(** Lengths that cannot be negative; [size_length] if they may refer to a height. *)
Definition plain_length (u : unit_) : Prop := 0 <= amount (u_val u) /\ absolute u.
Definition size_length (u : unit_) : Prop := 0 <= amount (u_val u) /\ (absolute u \/ is_percentage u = true).
Definition size_or_auto (v : lenauto) : Prop := match v with Auto => True | Len u => size_length u end.
Definition plain_border (v : bwidth) : Prop := match v with BKw _ => True | BLen u => plain_length u end.
Definition nonneg_num (o : option num) : Prop := match o with Some x => 0 <= nval x | None => True end.

(** Styles with non-negative heights, upper and lower edges and margins, not
    relatively positioned.  Nothing is said about widths, except
    for images without a specified height: those need a non-negative width,
    either specified or intrinsic. *)
Record nonneg_heights (s : style) (i : size) : Prop := {
  nh_static : st_position s <> PRelative;
  nh_height : size_or_auto (st_height s); nh_min : size_or_auto (st_min_height s);
  nh_max : match st_max_height s with None => True | Some u => size_length u end;
  nh_mt : size_or_auto (st_margin_top s); nh_mb : size_or_auto (st_margin_bottom s);
  nh_bt : plain_border (st_border_top s); nh_bb : plain_border (st_border_bottom s);
  nh_pt : plain_length (st_padding_top s); nh_pb : plain_length (st_padding_bottom s);
  nh_ih : nonneg_num (s_height i); nh_ir : nonneg_num (s_ratio i);
  nh_image : st_display s = Some DInline -> s_replaced i = true -> st_height s = Auto ->
    match st_width s with Len u => plain_length u | Auto => exists w, s_width i = Some w /\ 0 <= nval w end }.
