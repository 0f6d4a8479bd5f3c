(** * Colour conversion with binary64 arithmetic -- /repo/src/colosseum/colors.py

    Colors.v models hsl.rgb with exact rational arithmetic.  This file models
    the same lines with Python's arithmetic: every intermediate result is
    rounded to binary64, infinities and NaN included. *)
From Coq Require Import ZArith QArith Qcanon Bool List.
From Verif Require Import PyNum Float64 Units FloatUnits Colors.
Open Scope Z_scope.

(** A float literal (colors.py:36-49). *)
Definition lit (q : Qc) : pynum := PF (Fin q).
(** Python [abs(a)] (colors.py:36, 38). *)
Definition py_abs (a : pynum) : pynum :=
  match a with PI z => PI (Z.abs z) | PF (Fin q) => PF (Fin (qabs q)) | PF (Inf _) => PF (Inf false) | PF Nan => PF Nan end.
(** Python [x % 2] for a float (colors.py:38): the exact remainder of the
    truncated quotient; if it is negative, 2 is added, which rounds.  The
    remainder of an infinity is NaN. *)
Definition x_mod2 (x : xq) : xq :=
  match x with
  | Fin q =>
      let r := (q - Z2Qc 2 * Z2Qc (trunc_q (this (q / Z2Qc 2)%Qc)))%Qc in
      if qc_ltb r 0 then rnd (xadd (Fin r) (Fin (Z2Qc 2))) else Fin r
  | _ => Nan
  end.
(** The same for a Python number that is a float (colors.py:38: h is a quotient). *)
Definition py_mod2 (a : pynum) : pynum := PF (x_mod2 (pval a)).
(** Python [a < q] for a float literal q (colors.py:41-49). *)
Definition py_below (a : pynum) (q : Qc) : bool := xltb (pval a) (Fin q).

(** colors.py:36-39: chroma, hue in sixths of the circle, second component, offset. *)
Definition hsl_parts (h s l : pynum) : res (pynum * pynum * pynum * pynum) :=
  l2 <-r fmul (lit (Z2Qc 2)) l ;;
  l21 <-r fsub l2 (lit 1) ;;
  k <-r fsub (lit 1) (py_abs l21) ;;
  c <-r fmul k s ;;
  h <-r fdiv_float h 60 ;;
  h1 <-r fsub (py_mod2 h) (lit 1) ;;
  t <-r fsub (lit 1) (py_abs h1) ;;
  x <-r fmul c t ;;
  half <-r fmul (lit (qfrac 1 2)) c ;;
  m <-r fsub l half ;;
  Ok (c, h, x, m).
(** colors.py:41-52.  Simplification: both sums are formed before the choice (sums
    of floats do not raise). *)
Definition hsl_choice (c h x m : pynum) : res (pynum * pynum * pynum) :=
  cm <-r fadd c m ;;
  xm <-r fadd x m ;;
  Ok (if py_below h 1 then (cm, xm, m)
      else if py_below h (Z2Qc 2) then (xm, cm, m)
      else if py_below h (Z2Qc 3) then (m, cm, xm)
      else if py_below h (Z2Qc 4) then (m, xm, cm)
      else if py_below h (Z2Qc 5) then (m, xm, cm)
      else (cm, m, xm)).
(** round(r * 0xFF) (colors.py:54). *)
Definition to_byte_f (r : pynum) : res Z := v <-r fmul r (PI 255) ;; fround v.
(** hsl.rgb (colors.py:34-54) of a colour, and rgb.rgb (colors.py:17-19). *)
Definition color_rgb_f (c : color_t) : res color_t :=
  match c with
  | Rgb _ _ _ _ => Ok c
  | Hsl h s l a =>
      p <-r hsl_parts h s l ;;
      let '(c, h, x, m) := p in
      f <-r hsl_choice c h x m ;;
      let '(r, g, b) := f in
      r <-r to_byte_f r ;; g <-r to_byte_f g ;; b <-r to_byte_f b ;;
      Ok (Rgb (PI r) (PI g) (PI b) a)
  end.
