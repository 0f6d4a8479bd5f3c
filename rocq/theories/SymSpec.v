(** * What C144 and C145 say: zooming and mirroring a document *)
From Coq Require Import ZArith QArith Qcanon Bool List.
From Verif Require Import PyNum Units UnitsSpec BoxModel Engine EngineSpec RefLayout OkSpec.
Import ListNotations.
Open Scope Qc_scope.

(** ** C144: everything [k] times as large *)
Section Zoom.
Context (k : Qc).
(** A block with a width is not centred: centring gives whole pixels. *)
Definition not_centred (s : style) : Prop := st_width s = Auto \/ st_margin_left s <> Auto \/ st_margin_right s <> Auto.
Definition zoomed_num (x y : option num) : Prop :=
  match x, y with None, None => True | Some a, Some b => nval b = k * nval a | _, _ => False end.
(** Images have an intrinsic width and an intrinsic height other than 0. *)
Definition zoomed_size (i j : size) : Prop :=
  zoomed_num (s_width i) (s_width j) /\ zoomed_num (s_height i) (s_height j)
  /\ s_ratio i = s_ratio j /\ s_replaced i = s_replaced j
  /\ (s_replaced i = true -> s_width i <> None /\ exists h, s_height i = Some h /\ nval h <> 0).
Definition zoomed_display (d d' : display_t) : Prop :=
  nval (disp_width d') = k * nval (disp_width d) /\ nval (disp_height d') = k * nval (disp_height d)
  /\ forall kw, nval (fixed_size d' kw) = k * nval (fixed_size d kw).
(** Used values, [k] times as large. *)
Definition times (o : option Qc) : option Qc := option_map (fun x => k * x) o.
Definition zoomed_used (u v : used) : Prop :=
  (u_mt v, u_mr v, u_mb v, u_ml v) = (k * u_mt u, k * u_mr u, times (u_mb u), k * u_ml u)
  /\ (u_bt v, u_br v, u_bb v, u_bl v) = (k * u_bt u, k * u_br u, k * u_bb u, k * u_bl u)
  /\ (u_pt v, u_pr v, u_pb v, u_pl v) = (k * u_pt u, k * u_pr u, k * u_pb u, k * u_pl u)
  /\ (u_w v, u_h v, u_left v, u_top v) = (times (u_w u), times (u_h u), k * u_left u, k * u_top u)
  /\ Z2Qc (u_ct v) = k * Z2Qc (u_ct u) /\ Z2Qc (u_cb v) = k * Z2Qc (u_cb u).
Inductive zoomed_tree : utree -> utree -> Prop :=
| zoomed_box u v us vs : zoomed_used u v -> Forall2 zoomed_tree us vs -> zoomed_tree (UNode u us) (UNode v vs)
| zoomed_hidden : zoomed_tree UHidden UHidden
| zoomed_skipped : zoomed_tree USkipped USkipped.
Context (d d' : display_t).
(** Lengths other than percentages, of the first document on [d] and of the
    second on [d'], that come to multiples of 1/64 px. *)
Definition zoomed_len (u v : unit_) : Prop :=
  u_kind u <> KPct /\ u_kind v <> KPct /\ on_grid (exact_len d 0 u) /\ on_grid (exact_len d' 0 v)
  /\ exact_len d' 0 v = k * exact_len d 0 u /\ measurable true v = measurable true u.
Definition zoomed_auto (x y : lenauto) : Prop :=
  match x, y with Auto, Auto => True | Len u, Len v => zoomed_len u v | _, _ => False end.
Definition zoomed_opt (x y : option unit_) : Prop :=
  match x, y with None, None => True | Some u, Some v => zoomed_len u v | _, _ => False end.
Definition zoomed_border (x y : bwidth) : Prop :=
  match x, y with BKw a, BKw b => a = b | BLen u, BLen v => zoomed_len u v | _, _ => False end.
Definition zoomed_offset (x y : offset) : Prop :=
  match x, y with OAuto, OAuto | OInherit, OInherit => True | OLen u, OLen v => zoomed_len u v | _, _ => False end.
(** Vertical margins are whole pixels: others do not collapse. *)
Definition whole_amount (d : display_t) (x : lenauto) : Prop :=
  match x with Auto => True | Len u => exists z, exact_len d 0 u = Z2Qc z end.
Definition zoomed_style (s t : style) : Prop :=
  st_display s = st_display t /\ st_position s = st_position t /\ st_direction s = st_direction t
  /\ zoomed_auto (st_width s) (st_width t) /\ zoomed_auto (st_height s) (st_height t)
  /\ zoomed_auto (st_min_width s) (st_min_width t) /\ zoomed_auto (st_min_height s) (st_min_height t)
  /\ zoomed_opt (st_max_width s) (st_max_width t) /\ zoomed_opt (st_max_height s) (st_max_height t)
  /\ (zoomed_auto (st_margin_top s) (st_margin_top t) /\ whole_amount d (st_margin_top s) /\ whole_amount d' (st_margin_top t))
  /\ zoomed_auto (st_margin_right s) (st_margin_right t)
  /\ (zoomed_auto (st_margin_bottom s) (st_margin_bottom t) /\ whole_amount d (st_margin_bottom s) /\ whole_amount d' (st_margin_bottom t))
  /\ zoomed_auto (st_margin_left s) (st_margin_left t)
  /\ (zoomed_len (st_padding_top s) (st_padding_top t) /\ zoomed_len (st_padding_right s) (st_padding_right t)
      /\ zoomed_len (st_padding_bottom s) (st_padding_bottom t) /\ zoomed_len (st_padding_left s) (st_padding_left t))
  /\ (zoomed_border (st_border_top s) (st_border_top t) /\ zoomed_border (st_border_right s) (st_border_right t)
      /\ zoomed_border (st_border_bottom s) (st_border_bottom t) /\ zoomed_border (st_border_left s) (st_border_left t))
  /\ (zoomed_offset (st_top s) (st_top t) /\ zoomed_offset (st_right s) (st_right t)
      /\ zoomed_offset (st_bottom s) (st_bottom t) /\ zoomed_offset (st_left s) (st_left t))
  /\ st_float s = st_float t.
Inductive zoomed {S : Type} (sty : S -> style) : node S -> node S -> Prop :=
| zoomed_node s s' i i' b b' ks ks' :
    zoomed_style (sty s) (sty s') -> not_centred (sty s) -> zoomed_size i i' -> Forall2 (zoomed sty) ks ks' ->
    zoomed sty (Node s i b ks) (Node s' i' b' ks').
End Zoom.

(** ** C145: left and right exchanged *)
Definition other_way (d : direction_k) : direction_k := match d with LTR => RTL | RTL => LTR end.
Definition mirror_style (s : style) : style :=
  mkStyle (st_display s) (st_position s) (st_float s) (other_way (st_direction s)) (st_width s) (st_height s)
    (st_min_width s) (st_min_height s) (st_max_width s) (st_max_height s)
    (st_margin_top s) (st_margin_left s) (st_margin_bottom s) (st_margin_right s)
    (st_padding_top s) (st_padding_left s) (st_padding_bottom s) (st_padding_right s)
    (st_border_top s) (st_border_left s) (st_border_bottom s) (st_border_right s)
    (st_top s) (st_left s) (st_bottom s) (st_right s)
    (st_border_top_style s) (st_border_left_style s) (st_border_bottom_style s) (st_border_right_style s).
(** A relatively positioned box is shifted from the left or from the right, by a length. *)
Definition one_sided (s : style) : Prop :=
  st_position s = PRelative -> (st_left s = OAuto \/ st_right s = OAuto) /\ st_left s <> OInherit /\ st_right s <> OInherit.
(** Documents of blocks, none of them centred. *)
Inductive mirrored {S : Type} (sty : S -> style) : node S -> node S -> Prop :=
| mirrored_node s s' i i' b b' ks ks' :
    sty s' = mirror_style (sty s) -> one_sided (sty s) -> st_display (sty s) = None \/ block_level (sty s) = true ->
    not_centred (sty s) -> s_replaced i' = s_replaced i -> Forall2 (mirrored sty) ks ks' -> mirrored sty (Node s i b ks) (Node s' i' b' ks').
(** The same vertically; horizontally, what was left is right.  [w] is the width
    of the content box around. *)
Definition mirrored_used (w : Qc) (u v : used) : Prop :=
  (u_mt v, u_mr v, u_mb v, u_ml v) = (u_mt u, u_ml u, u_mb u, u_mr u)
  /\ (u_bt v, u_br v, u_bb v, u_bl v) = (u_bt u, u_bl u, u_bb u, u_br u)
  /\ (u_pt v, u_pr v, u_pb v, u_pl v) = (u_pt u, u_pl u, u_pb u, u_pr u)
  /\ (u_w v, u_h v, u_top v, u_ct v, u_cb v) = (u_w u, u_h u, u_top u, u_ct u, u_cb u)
  /\ u_left v = w - (u_left u + or0 (u_w u)).
Inductive mirrored_tree (w : Qc) : utree -> utree -> Prop :=
| mirrored_box u v us vs : mirrored_used w u v -> Forall2 (mirrored_tree (or0 (u_w u))) us vs -> mirrored_tree w (UNode u us) (UNode v vs)
| mirrored_hidden : mirrored_tree w UHidden UHidden
| mirrored_skipped : mirrored_tree w USkipped USkipped.
