(** * What C192 says: used sizes written down *)
From Coq Require Import ZArith QArith Qcanon Bool List.
From Verif Require Import PyNum Units UnitsSpec BoxModel BoxSpec Engine RefLayout OkSpec MoveSpec PixelSpec.
Import ListNotations.

Definition with_size (w h : lenauto) (s : style) : style :=
  mkStyle (st_display s) (st_position s) (st_float s) (st_direction s) w h
    (st_min_width s) (st_min_height s) (st_max_width s) (st_max_height s)
    (st_margin_top s) (st_margin_right s) (st_margin_bottom s) (st_margin_left s)
    (st_padding_top s) (st_padding_right s) (st_padding_bottom s) (st_padding_left s)
    (st_border_top s) (st_border_right s) (st_border_bottom s) (st_border_left s)
    (st_top s) (st_right s) (st_bottom s) (st_left s)
    (st_border_top_style s) (st_border_right_style s) (st_border_bottom_style s) (st_border_left_style s).
(** [v] is the width of the style [s], or was auto and is now the width that the box [b] shows, in px.  No limits are declared. *)
Definition width_written (b : box) (s : style) (v : lenauto) : Prop :=
  v = st_width s
  \/ (st_width s = Auto /\ st_min_width s = Auto /\ st_max_width s = None
      /\ exists x, content_width b = LNum x /\ on_grid (nval x) /\ v = Len (pixels x)).
(** The same for the height of a block with the children [ks].  Its last child's bottom margin does not reach below its own, and no child
    has a declaration that refers to the height. *)
Definition height_written {S} (sty : S -> style) (b : box) (s : style) (ks : list (node S)) (v : lenauto) : Prop :=
  v = st_height s
  \/ (st_height s = Auto /\ st_max_height s = None
      /\ (exists m, margin_bottom b = LNum m /\ collapse_bottom b = whole_px (nval m))
      /\ forallb (fun k => no_height_reference (sty (n_style k))) ks = true
      /\ exists x, content_height b = LNum x /\ on_grid (nval x) /\ v = Len (pixels x)).
(** The document [m] is [n], but blocks may have the sizes they have in [out] written down. *)
Definition written_down {S} (sty : S -> style) (n out m : node S) : Prop :=
  forall p a, get_path p n = Some a -> exists o c, get_path p out = Some o /\ get_path p m = Some c
    /\ n_intr c = n_intr a /\ length (n_kids c) = length (n_kids a) /\ length (n_kids o) = length (n_kids a)
    /\ (sty (n_style c) = sty (n_style a)
        \/ exists b w h, n_box o = Some b /\ block_level (sty (n_style a)) = true
           /\ width_written b (sty (n_style a)) w /\ height_written sty b (sty (n_style a)) (n_kids a) h
           /\ sty (n_style c) = with_size w h (sty (n_style a))).
(** A height declared on text, where it has no effect, is a finite length and no percentage. *)
Definition idle_heights_plain {S} (sty : S -> style) (n : node S) : Prop :=
  forall p a u, get_path p n = Some a -> st_display (sty (n_style a)) = Some DInline -> s_replaced (n_intr a) = false ->
    st_height (sty (n_style a)) = Len u -> measurable false u = true.
