(** * What C153 and C154 say: the two axes, and the width of the display *)
From Coq Require Import ZArith QArith Qcanon Bool List.
From Verif Require Import PyNum Units BoxModel Engine EngineSpec RefLayout MoveSpec PixelSpec.
Import ListNotations.
Open Scope Qc_scope.

(** ** C153: the axes are independent *)
(** The same declarations for the horizontal axis.  Percentages of horizontal
    borders and paddings refer to a height (C128), so there are none. *)
Definition same_across (s t : style) : Prop :=
  (st_display s, st_position s, st_direction s) = (st_display t, st_position t, st_direction t)
  /\ (st_width s, st_min_width s, st_max_width s) = (st_width t, st_min_width t, st_max_width t)
  /\ (st_margin_left s, st_margin_right s) = (st_margin_left t, st_margin_right t)
  /\ (st_padding_left s, st_padding_right s) = (st_padding_left t, st_padding_right t)
  /\ (st_border_left s, st_border_right s) = (st_border_left t, st_border_right t)
  /\ (st_left s, st_right s) = (st_left t, st_right t)
  /\ forallb no_pct [st_padding_left s; st_padding_right s] = true
  /\ forallb no_pct_border [st_border_left s; st_border_right s] = true.
(** Images have a width, given or intrinsic. *)
Definition same_across_size (s : style) (i j : size) : Prop :=
  s_replaced i = s_replaced j /\ s_width i = s_width j
  /\ (s_replaced i = true -> st_width s <> Auto \/ s_width i <> None).
(** The same declarations for the vertical axis.  Percentages of vertical
    borders and paddings refer to a width. *)
Definition same_along (s t : style) : Prop :=
  (st_display s, st_position s) = (st_display t, st_position t)
  /\ (st_height s, st_min_height s, st_max_height s) = (st_height t, st_min_height t, st_max_height t)
  /\ (st_margin_top s, st_margin_bottom s) = (st_margin_top t, st_margin_bottom t)
  /\ (st_padding_top s, st_padding_bottom s) = (st_padding_top t, st_padding_bottom t)
  /\ (st_border_top s, st_border_bottom s) = (st_border_top t, st_border_bottom t)
  /\ (st_top s, st_bottom s) = (st_top t, st_bottom t)
  /\ forallb no_pct [st_padding_top s; st_padding_bottom s] = true
  /\ forallb no_pct_border [st_border_top s; st_border_bottom s] = true.
(** Images have a given height, or an intrinsic one and no given width. *)
Definition same_along_size (s t : style) (i j : size) : Prop :=
  s_replaced i = s_replaced j /\ s_height i = s_height j
  /\ (s_replaced i = true -> st_height s <> Auto \/ (st_width s = Auto /\ st_width t = Auto /\ s_height i <> None)).
Section Docs.
Context {S : Type} (sty : S -> style).
(** Documents of the same shape. *)
Inductive alike_across : node S -> node S -> Prop :=
| alike_across_node s s' i i' b b' ks ks' : same_across (sty s) (sty s') -> same_across_size (sty s) i i' ->
    Forall2 alike_across ks ks' -> alike_across (Node s i b ks) (Node s' i' b' ks').
Inductive alike_along : node S -> node S -> Prop :=
| alike_along_node s s' i i' b b' ks ks' : same_along (sty s) (sty s') -> same_along_size (sty s) (sty s') i i' ->
    Forall2 alike_along ks ks' -> alike_along (Node s i b ks) (Node s' i' b' ks').
End Docs.
(** The same used values on one axis, all over the tree. *)
Definition across_used (u : used) : list Qc * option Qc :=
  ([u_ml u; u_mr u; u_bl u; u_br u; u_pl u; u_pr u; u_left u], u_w u).
Definition along_used (u : used) : list Qc * list (option Qc) * list Z :=
  ([u_mt u; u_bt u; u_bb u; u_pt u; u_pb u; u_top u], [u_mb u; u_h u], [u_ct u; u_cb u]).
Inductive same_on {A : Type} (f : used -> A) : utree -> utree -> Prop :=
| same_on_box u v us vs : f u = f v -> Forall2 (same_on f) us vs -> same_on f (UNode u us) (UNode v vs)
| same_on_hidden : same_on f UHidden UHidden
| same_on_skipped : same_on f USkipped USkipped.

(** ** C154: a wider display *)
Definition wider_display (t : Qc) (d d' : display_t) : Prop :=
  nval (disp_width d') = nval (disp_width d) + t /\ nval (disp_height d') = nval (disp_height d)
  /\ nval (dpi d') = nval (dpi d) /\ forall k, nval (fixed_size d' k) = nval (fixed_size d k).
(** Lengths that refer neither to the containing block nor to the width of the
    display. *)
Definition rigid (u : unit_) : bool :=
  match u_kind u with KPct | KVp _ (ScaleVw | ScaleVmin | ScaleVmax) => false | _ => true end.
Definition rigid_auto (v : lenauto) : bool := match v with Auto => true | Len u => rigid u end.
Definition rigid_border (v : bwidth) : bool := match v with BKw _ => true | BLen u => rigid u end.
Definition rigid_opt (v : option unit_) : bool := match v with None => true | Some u => rigid u end.
Definition rigid_offset (v : offset) : bool := match v with OAuto => true | OInherit => false | OLen u => rigid u end.
(** Only these displays can be laid out. *)
Definition plain_display (s : style) : bool :=
  match st_display s with None | Some DInline => true | _ => block_level s end.
Definition rigid_style (s : style) : bool :=
  plain_display s && forallb rigid_auto [st_width s; st_height s; st_min_width s; st_min_height s; st_margin_top s; st_margin_right s; st_margin_bottom s; st_margin_left s]
  && forallb rigid_opt [st_max_width s; st_max_height s]
  && forallb rigid [st_padding_top s; st_padding_right s; st_padding_bottom s; st_padding_left s]
  && forallb rigid_border [st_border_top s; st_border_right s; st_border_bottom s; st_border_left s]
  && forallb rigid_offset [st_top s; st_right s; st_bottom s; st_left s].
(** No image takes its width from the containing block. *)
Definition rigid_image (s : style) (i : size) : bool :=
  negb (s_replaced i) || match st_width s, s_width i, st_height s, s_height i, s_ratio i with
                         | Auto, None, Auto, None, Some _ => false
                         | _, _, _, _, _ => true
                         end.
Inductive rigid_doc {S : Type} (sty : S -> style) : node S -> Prop :=
| rigid_node s i b ks : rigid_style (sty s) = true -> rigid_image (sty s) i = true ->
    (forall k, In k ks -> rigid_doc sty k) -> rigid_doc sty (Node s i b ks).

(** The vertical values, borders and paddings of a box, and its width and
    position. *)
Definition upright (u : used) :=
  (u_mt u, u_mb u, (u_bt u, u_br u, u_bb u, u_bl u), (u_pt u, u_pr u, u_pb u, u_pl u), (u_h u, u_top u, u_ct u, u_cb u)).
Definition across (u : used) : option Qc * Qc * Qc * Qc := (u_w u, u_left u, u_ml u, u_mr u).
(** What becomes of a box whose containing block is [t] px wider. *)
Definition widened (t : Qc) (s : style) (u v : used) : Prop :=
  upright v = upright u /\
  if block_level s then
    match st_width s, st_direction s, st_margin_left s, st_margin_right s with
    (* a block without a width fills the containing block *)
    | Auto, _, _, _ => across v = (Some (or0 (u_w u) + t), u_left u, u_ml u, u_mr u)
    (* a block with a width and a margin on the side where text starts stays there *)
    | Len _, LTR, Len _, _ => across v = (u_w u, u_left u, u_ml u, u_mr u + t)
    | Len _, RTL, _, Len _ => across v = (u_w u, u_left u + t, u_ml u + t, u_mr u)
    (* a centred block stays in the middle, up to 1 px, if it fits before and after *)
    | Len _, _, Auto, Auto => exists x, u_w v = u_w u /\ u_left v = u_left u + x /\ u_ml v = u_ml u + x
        /\ (0 <= u_ml u -> 0 <= u_mr u -> 0 <= u_ml v -> 0 <= u_mr v ->
            u_mr v = u_mr u + x /\ t < Z2Qc 2 * x + Z2Qc 2 /\ Z2Qc 2 * x < t + Z2Qc 2)
    (* a block kept on the other side by its only margin, if it fits *)
    | Len _, LTR, Auto, Len _ | Len _, RTL, Len _, Auto => exists x, u_w v = u_w u /\ u_left v = u_left u + x /\ u_ml v = u_ml u + x
        /\ u_mr v = u_mr u + (t - x) /\ (0 <= t -> 0 <= x /\ x <= t)
    end
  else across v = across u.
Section Wide.
Context {S : Type} (sty : S -> style).
(** The children of a block without a width are affected in turn, all others
    not at all. *)
Inductive widened_tree (t : Qc) : node S -> utree -> utree -> Prop :=
| widened_filling s i b ks u v us vs : block_level (sty s) = true -> st_width (sty s) = Auto -> widened t (sty s) u v ->
    all3 (widened_tree t) ks us vs -> widened_tree t (Node s i b ks) (UNode u us) (UNode v vs)
| widened_other s i b ks u v us : block_level (sty s) = false \/ st_width (sty s) <> Auto -> widened t (sty s) u v ->
    widened_tree t (Node s i b ks) (UNode u us) (UNode v us)
| widened_hidden n : widened_tree t n UHidden UHidden
| widened_skipped n : widened_tree t n USkipped USkipped.
End Wide.
