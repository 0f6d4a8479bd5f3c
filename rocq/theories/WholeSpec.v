(** * What C193 says: documents of whole pixels *)
From Coq Require Import ZArith QArith Qcanon List.
From Verif Require Import PyNum Units UnitsSpec BoxModel BoxSpec Engine EngineSpec EngineGSpec.
Import ListNotations.

(** Python's int, not float. *)
Definition py_int (x : num) : Prop := match x with NI _ => True | NF _ => False end.
(** On the display [d], the length is a whole number of px (if it has a value at all) whenever the size it may refer to is an int. *)
Definition whole_length (d : display_t) (u : unit_) : Prop :=
  forall c q, c_disp c = d -> (forall y, c_size c = LNum y -> py_int y) -> exact_px c u q -> exists z, q = Z2Qc z.
(** The display, the intrinsic sizes, the lengths of the declarations and the boxes of a document. *)
Definition whole_display (d : display_t) : Prop := py_int (disp_width d) /\ py_int (disp_height d) /\ forall k, py_int (fixed_size d k).
Definition whole_sizes {S} (n : node S) : Prop := forall p m, get_path p n = Some m ->
  (forall x, s_width (n_intr m) = Some x -> py_int x) /\ (forall x, s_height (n_intr m) = Some x -> py_int x)
  /\ (forall x, s_ratio (n_intr m) = Some x -> py_int x).
Definition whole_lengths {S} (d : display_t) (sty : S -> style) (n : node S) : Prop :=
  forall p m u, get_path p n = Some m -> In u (style_units (sty (n_style m))) -> whole_length d u.
Definition whole_boxes {S} (n : node S) : Prop :=
  forall p m b x, get_path p n = Some m -> n_box m = Some b -> In x (numbers b) -> py_int x.
