(** * What C191 says: documents whose lengths all convert, in Python's floats *)
From Coq Require Import ZArith QArith Qcanon Bool List.
From Verif Require Import PyNum Units FloatUnits BoxModel BoxSpec Engine EngineFSpec PixelSpec AbsDocSpec.
Import ListNotations.

(** units.py converts every length of the document in floats: none is infinite, NaN, an angle or in
    an unknown unit. *)
Definition converts {S} (sty : S -> style) (d : display_t) (n : node S) : Prop :=
  forall p m u, get_path p n = Some m -> In u (lengths_of (sty (n_style m))) -> exists x, px_f (somewhere d) u = Ok x.
