(** * Specification: documents measured in layout units of 1/64 px *)
From Coq Require Import ZArith QArith Qcanon List.
From Verif Require Import PyNum Units UnitsSpec BoxModel BoxSpec.
Import ListNotations.

(** The numbers a box holds (a width, height or margin may also be AUTO or None). *)
Definition lnums (v : lval) : list num := match v with LNum x => [x] | _ => [] end.
Definition numbers (b : box) : list num :=
  lnums (content_width b) ++ lnums (content_height b) ++ [content_top b; content_left b; origin_top b; origin_left b]
  ++ lnums (margin_top b) ++ lnums (margin_right b) ++ lnums (margin_bottom b) ++ lnums (margin_left b)
  ++ [border_top_width b; border_right_width b; border_bottom_width b; border_left_width b;
      padding_top b; padding_right b; padding_bottom b; padding_left b].
(** Everything that can be read from a box: the numbers above and the derived
    coordinates of its border, padding and content boxes (dimensions.py:373-534). *)
Definition coordinates (b : box) : list (res num) :=
  map Ok (numbers b) ++
  [Ok (border_box_top b); border_box_right b; border_box_bottom b; Ok (border_box_left b); border_box_width b; border_box_height b;
   Ok (absolute_border_box_top b); absolute_border_box_right b; absolute_border_box_bottom b; Ok (absolute_border_box_left b);
   Ok (padding_box_top b); padding_box_right b; padding_box_bottom b; Ok (padding_box_left b); padding_box_width b; padding_box_height b;
   Ok (absolute_padding_box_top b); absolute_padding_box_right b; absolute_padding_box_bottom b; Ok (absolute_padding_box_left b);
   content_bottom b; content_right b; Ok (absolute_content_top b); absolute_content_right b; absolute_content_bottom b; Ok (absolute_content_left b)].

(** Every box of the document holds multiples of 1/64 px only. *)
Definition measured {S} (n : node S) : Prop :=
  forall p m b x, get_path p n = Some m -> n_box m = Some b -> In x (numbers b) -> on_grid (nval x).
(** The document's intrinsic sizes are multiples of 1/64 px, its ratios whole. *)
Definition measured_sizes {S} (n : node S) : Prop :=
  forall p m, get_path p n = Some m ->
    (forall x, s_width (n_intr m) = Some x -> on_grid (nval x)) /\ (forall x, s_height (n_intr m) = Some x -> on_grid (nval x))
    /\ (forall x, s_ratio (n_intr m) = Some x -> exists z, nval x = Z2Qc z).
Definition measured_display (d : display_t) : Prop :=
  on_grid (nval (disp_width d)) /\ on_grid (nval (disp_height d)) /\ (forall k, on_grid (nval (fixed_size d k))).
