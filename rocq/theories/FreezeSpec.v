(** * What C194 says: used margins, borders and paddings written down *)
From Coq Require Import ZArith QArith Qcanon Bool List.
From Verif Require Import PyNum Units UnitsSpec BoxModel BoxSpec Engine RefLayout PixelSpec.
Import ListNotations.

Definition with_edges (mt mr mb ml : lenauto) (pt pr pb pl : unit_) (bt br bb bl : bwidth) (s : style) : style :=
  mkStyle (st_display s) (st_position s) (st_float s) (st_direction s) (st_width s) (st_height s)
    (st_min_width s) (st_min_height s) (st_max_width s) (st_max_height s)
    mt mr mb ml pt pr pb pl bt br bb bl
    (st_top s) (st_right s) (st_bottom s) (st_left s)
    (st_border_top_style s) (st_border_right_style s) (st_border_bottom_style s) (st_border_left_style s).
(** [v] is the declared value, or it is the used one in px. *)
Definition margin_written (used : lval) (declared v : lenauto) : Prop :=
  v = declared \/ exists x, used = LNum x /\ on_grid (nval x) /\ v = Len (pixels x).
Definition padding_written (used : num) (declared v : unit_) : Prop :=
  v = declared \/ (on_grid (nval used) /\ v = pixels used).
Definition border_written (used : num) (declared v : bwidth) : Prop :=
  v = declared \/ (on_grid (nval used) /\ v = BLen (pixels used)).
(** A declared width between two auto margins. *)
Definition centred (s : style) : Prop := st_width s <> Auto /\ st_margin_left s = Auto /\ st_margin_right s = Auto.
(** [t] is the style [s], but edges may be those of the box [b] in px.  The left and right margins of centred blocks stay. *)
Definition edges_written (b : box) (s t : style) : Prop :=
  exists mt mr mb ml pt pr pb pl bt br bb bl, t = with_edges mt mr mb ml pt pr pb pl bt br bb bl s
  /\ (margin_written (margin_top b) (st_margin_top s) mt /\ margin_written (margin_right b) (st_margin_right s) mr
      /\ margin_written (margin_bottom b) (st_margin_bottom s) mb /\ margin_written (margin_left b) (st_margin_left s) ml)
  /\ (padding_written (padding_top b) (st_padding_top s) pt /\ padding_written (padding_right b) (st_padding_right s) pr
      /\ padding_written (padding_bottom b) (st_padding_bottom s) pb /\ padding_written (padding_left b) (st_padding_left s) pl)
  /\ (border_written (border_top_width b) (st_border_top s) bt /\ border_written (border_right_width b) (st_border_right s) br
      /\ border_written (border_bottom_width b) (st_border_bottom s) bb /\ border_written (border_left_width b) (st_border_left s) bl)
  /\ (centred s -> ml = Auto /\ mr = Auto).
(** The document [m] is [n], but blocks may have the edges they have in [out] written down. *)
Definition edges_down {S} (sty : S -> style) (n out m : node S) : Prop :=
  forall p a, get_path p n = Some a -> exists o c, get_path p out = Some o /\ get_path p m = Some c
    /\ n_intr c = n_intr a /\ length (n_kids c) = length (n_kids a) /\ length (n_kids o) = length (n_kids a)
    /\ (sty (n_style c) = sty (n_style a)
        \/ exists b, n_box o = Some b /\ block_level (sty (n_style a)) = true /\ edges_written b (sty (n_style a)) (sty (n_style c))).
