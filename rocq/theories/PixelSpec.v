(** * What C139 and C140 say: documents whose lengths are replaced by pixels *)
From Coq Require Import ZArith QArith Qcanon Bool List.
From Verif Require Import PyNum Units FloatUnits BoxModel Engine EngineSpec.
Import ListNotations.
Open Scope Z_scope.

(** A conversion of lengths to pixels: [px] (exact) or [px_f] (binary64). *)
Definition conversion := ctx -> unit_ -> res num.
(** [x] px as a length. *)
Definition pixels (x : num) : unit_ := mkU KPx (py_of_num x).
(** The length in pixels; 0px if it has no pixel value. *)
Definition in_px (P : conversion) (c : ctx) (u : unit_) : unit_ :=
  match P c u with Ok x => pixels x | Err _ => pixels (NI 0) end.
Definition in_lenauto P c (v : lenauto) : lenauto := match v with Auto => Auto | Len u => Len (in_px P c u) end.
Definition in_option P c (v : option unit_) : option unit_ := option_map (in_px P c) v.
Definition in_border P c (v : bwidth) : bwidth := match v with BKw k => BKw k | BLen u => BLen (in_px P c u) end.
Definition in_offset P c (v : offset) : offset := match v with OLen u => OLen (in_px P c u) | o => o end.
(** The style with every length in pixels.  [hz] gives the width lengths refer
    to, [vt] the height, [hh] what the property height refers to.  As
    engine.py:192-208 has it, top and bottom borders and paddings refer to the
    width, right and left ones to the height. *)
Definition style_in_px (P : conversion) (hz vt hh : ctx) (s : style) : style :=
  mkStyle (st_display s) (st_position s) (st_float s) (st_direction s)
    (in_lenauto P hz (st_width s)) (in_lenauto P hh (st_height s))
    (in_lenauto P hz (st_min_width s)) (in_lenauto P vt (st_min_height s))
    (in_option P hz (st_max_width s)) (in_option P vt (st_max_height s))
    (in_lenauto P vt (st_margin_top s)) (in_lenauto P hz (st_margin_right s))
    (in_lenauto P vt (st_margin_bottom s)) (in_lenauto P hz (st_margin_left s))
    (in_px P hz (st_padding_top s)) (in_px P vt (st_padding_right s))
    (in_px P hz (st_padding_bottom s)) (in_px P vt (st_padding_left s))
    (in_border P hz (st_border_top s)) (in_border P vt (st_border_right s))
    (in_border P hz (st_border_bottom s)) (in_border P vt (st_border_left s))
    (in_offset P vt (st_top s)) (in_offset P hz (st_right s)) (in_offset P vt (st_bottom s)) (in_offset P hz (st_left s))
    (st_border_top_style s) (st_border_right_style s) (st_border_bottom_style s) (st_border_left_style s).

(** A relation between the members of three lists of the same length. *)
Inductive all3 {X Y Z} (R : X -> Y -> Z -> Prop) : list X -> list Y -> list Z -> Prop :=
| all3_nil : all3 R [] [] []
| all3_cons : forall x y z xs ys zs, R x y z -> all3 R xs ys zs -> all3 R (x :: xs) (y :: ys) (z :: zs).
(** What the height of a node refers to: the height its parent declares (in
    pixels), for a block, else the height [h] of the containing block. *)
Definition height_base (P : conversion) (d : display_t) (parent : option unit_) (h : lval) (s : style) : lval :=
  if is_block_level s then
    match parent with
    | Some pu => match P (mkCtx d dummy_font h) pu with Ok x => LNum x | Err _ => h end
    | None => h
    end
  else h.
(** [m] is the document [n] with every length replaced by pixels, [out] being
    [n] after layout and [op] the parent of [out] after layout.  The boxes of
    [n] and [m] do not matter here. *)
Inductive in_pixels (P : conversion) (d : display_t) {S} (sty : S -> style)
    : option (node S) -> node S -> node S -> node style -> Prop :=
| InPixels : forall op s i b ks out b' ks',
    all3 (in_pixels P d sty (Some out)) ks (n_kids out) ks' ->
    in_pixels P d sty op (Node s i b ks) out
      (Node (style_in_px P (width_ctx d op) (height_ctx sty d op)
               (mkCtx d dummy_font (height_base P d (parent_height sty op) (height_ref sty d op) (sty s))) (sty s)) i b' ks').

(** The tree without its styles: intrinsic sizes and boxes. *)
Fixpoint forget {S} (n : node S) : node unit :=
  let 'Node _ i b ks := n in Node tt i b (map forget ks).
