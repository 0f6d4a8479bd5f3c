(** * From the written length to the laid-out box: a reader's specification

    C151: a length assigned to a property as a text is the size of that part of
    the box, up to the rounding to 1/64 px and that of the written number to a
    binary64 number. *)
From Coq Require Import ZArith QArith Qcanon Qabs Qminmax Bool String List.
From Verif Require Import PyNum Units BoxModel Engine Float64 PyStr Colors Values Parser Choices Shorthand Decl.
Import ListNotations.
Open Scope string_scope.
Open Scope Q_scope.

(** Pixels per unit.  A centimetre is the library's 28.3465 points. *)
Definition pixels_per (d : display_t) : list (string * Q) :=
  let inch := this (nval (dpi d)) in
  let w := this (nval (disp_width d)) in
  let h := this (nval (disp_height d)) in
  [("", 1); ("px", 1); ("in", inch); ("pc", inch / 6); ("pt", inch / 72); ("cm", inch * (283465 # 720000)); ("mm", inch * (283465 # 7200000));
   ("vw", w / 100); ("vh", h / 100); ("vmax", Qmax w h / 100); ("vmin", Qmin w h / 100)].

(** The part of the box that a property sets. *)
Definition part (p : longhand) (b : box) : option lval :=
  match p with
  | L_width => Some (content_width b) | L_height => Some (content_height b)
  | L_margin STop => Some (margin_top b) | L_margin SBottom => Some (margin_bottom b)
  | L_padding STop => Some (LNum (padding_top b)) | L_padding SRight => Some (LNum (padding_right b))
  | L_padding SBottom => Some (LNum (padding_bottom b)) | L_padding SLeft => Some (LNum (padding_left b))
  | L_border_width STop => Some (LNum (border_top_width b)) | L_border_width SRight => Some (LNum (border_right_width b))
  | L_border_width SBottom => Some (LNum (border_bottom_width b)) | L_border_width SLeft => Some (LNum (border_left_width b))
  | _ => None
  end.

(** Reading the property [p] shows [v]. *)
Definition reads (ho : hash_order) (c : css) (p : longhand) (v : pyval) : Prop := get_prop ho c (Long p) = Ok (RValue v).
Definition reads_block (ho : hash_order) (c : css) : Prop :=
  reads ho c L_display (VStr "block") \/ reads ho c L_display (VStr "list-item") \/ reads ho c L_display (VStr "table").
(** When the property alone decides: widths and heights of blocks without
    limits (in HTML5 mode the root's height is set by the display; [root] tells whether the box is the root). *)
Definition decides (ho : hash_order) (c : css) (root html5 : bool) (p : longhand) : Prop :=
  match p with
  | L_width => reads_block ho c /\ reads ho c L_min_width (VStr "auto") /\ reads ho c L_max_width VNone
  | L_height => reads_block ho c /\ reads ho c L_max_height VNone /\ (root && html5)%bool = false
  | _ => True
  end.
