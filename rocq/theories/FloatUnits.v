(** * Length conversion with binary64 arithmetic -- /repo/src/colosseum/units.py

    Units.v models [lu] and [px] with exact rational arithmetic.  This file
    models the same lines with every intermediate result rounded to binary64 as
    Python does; FloatProps.v relates the two. *)
From Coq Require Import ZArith QArith Qcanon Bool List String.
From Verif Require Import PyNum Float64 Units.
Open Scope Z_scope.

(** Rounding of a finite float result (Python float arithmetic, IEEE 754). *)
Definition rnd (x : xq) : xq := match x with Fin q => b64 (this q) | y => y end.
(** The float an operand is converted to in mixed arithmetic. *)
Definition to_float (p : pynum) : res xq := match p with PI z => float_of_int z | PF x => Ok x end.
(** Python [a * b]: int * int is exact, otherwise both become floats. *)
Definition fmul (a b : pynum) : res pynum :=
  match a, b with
  | PI x, PI y => Ok (PI (x * y))
  | _, _ => x <-r to_float a ;; y <-r to_float b ;; Ok (PF (rnd (xmul x y)))
  end.
(** The quotient by an int literal before rounding (units.py:60, 102, 120, 137, 153). *)
Definition xdiv (x : xq) (d : positive) : xq :=
  match x with Fin q => Fin (q / Z2Qc (Zpos d))%Qc | y => y end.
(** Python [a / d] for the int literals 72, 100 and 64 (units.py:60,102,120,137):
    int / int is the correctly rounded quotient. *)
Definition fdiv_int (a : pynum) (d : positive) : res pynum :=
  match a with
  | PI z => match int_div z d with Inf _ => Err OverflowError | x => Ok (PF x) end
  | PF x => Ok (PF (rnd (xdiv x d)))
  end.
(** Python [a / 100.0] (units.py:153). *)
Definition fdiv_float (a : pynum) (d : positive) : res pynum :=
  x <-r to_float a ;; Ok (PF (rnd (xdiv x d))).
(** Python [round(a)]. *)
Definition fround (a : pynum) : res Z := match a with PI z => Ok z | PF x => xround x end.
(** A layout number as a Python number. *)
Definition py_of_num (n : num) : pynum := match n with NI z => PI z | NF q => PF (Fin q) end.
(** The scale of an AbsoluteUnit (units.py:173-177): an int (1, 12, 72) or a
    float literal (28.3465, 2.83465). *)
Definition py_scale (q : Qc) : pynum :=
  match Qden (this q) with xH => PI (Qnum (this q)) | _ => PF (b64 (this q)) end.

(** engine.py:94-104, with float arithmetic. *)
Definition font_attr_f (f : font_t) (suffix : string) : res pynum :=
  if String.eqb suffix "em" then Ok (py_of_num (f_size f))
  else if String.eqb suffix "ex" then fmul (PF (b64 (65 # 100))) (py_of_num (f_size f))
  else if String.eqb suffix "ch" then fmul (PF (b64 (71 # 100))) (py_of_num (f_size f))
  else Err AttributeError.

(** units.py:55-56, 100-103, 119-120, 136-137, 152-153 with float arithmetic. *)
Definition lu_f (c : ctx) (u : unit_) : res Z :=
  match u_kind u with
  | KAngle _ _ => Err AttributeError
  | k =>
      a <-r fmul (PI LU_PER_PIXEL) (u_val u) ;;
      match k with
      | KPx => fround a
      | KFont s =>
          f <-r font_attr_f (c_font c) s ;; g <-r fdiv_int f 72 ;;
          b <-r fmul a g ;; r <-r fmul b (py_of_num (dpi (c_disp c))) ;; fround r
      | KAbs _ scale =>
          g <-r fdiv_int (py_scale scale) 72 ;;
          b <-r fmul a g ;; r <-r fmul b (py_of_num (dpi (c_disp c))) ;; fround r
      | KVp _ sc =>
          b <-r fmul a (py_of_num (vp_extent sc (c_disp c))) ;; r <-r fdiv_int b 100 ;; fround r
      | KPct =>
          b <-r fdiv_float a 100 ;; s <-r as_num (c_size c) ;; r <-r fmul b (py_of_num s) ;; fround r
      | KAngle _ _ => Err AttributeError
      end
  end.

(** units.py:58-62 with float arithmetic: the quotient by 64 is a float, and is
    replaced by an int when integral. *)
Definition px_f (c : ctx) (u : unit_) : res num :=
  k <-r lu_f c u ;;
  value <-r fdiv_int (PI k) 64 ;;
  match value with
  | PF (Fin v) => Ok (let i := trunc_q (this v) in if qc_eqb v (Z2Qc i) then NI i else NF v)
  | _ => Err OverflowError    (* not reached: the quotient of an int is finite or overflows *)
  end.

(** ** Sums and differences of layout numbers with binary64 arithmetic
    (dimensions.py:373-534, engine.py:116-703) *)
Definition xneg (x : xq) : xq := match x with Fin q => Fin (- q)%Qc | Inf s => Inf (negb s) | Nan => Nan end.
(** The sum of two floats before rounding. *)
Definition xadd (a b : xq) : xq :=
  match a, b with
  | Fin x, Fin y => Fin (x + y)%Qc
  | Nan, _ | _, Nan => Nan
  | Inf s, Inf t => if Bool.eqb s t then Inf s else Nan
  | Inf s, Fin _ => Inf s
  | Fin _, Inf t => Inf t
  end.
(** Python [a + b]. *)
Definition fadd (a b : pynum) : res pynum :=
  match a, b with
  | PI x, PI y => Ok (PI (x + y))
  | _, _ => x <-r to_float a ;; y <-r to_float b ;; Ok (PF (rnd (xadd x y)))
  end.
(** Python [a - b]. *)
Definition fsub (a b : pynum) : res pynum :=
  match a, b with
  | PI x, PI y => Ok (PI (x - y))
  | _, _ => x <-r to_float a ;; y <-r to_float b ;; Ok (PF (rnd (xadd x (xneg y))))
  end.
(** Python [a // 2] (engine.py:529,534).  For a float: the floor of the exact
    quotient, as a float. *)
Definition fhalf (a : pynum) : pynum :=
  match a with
  | PI x => PI (x / 2)
  | PF (Fin q) => PF (rnd (Fin (Z2Qc (Qround.Qfloor (this (q / Z2Qc 2)%Qc)))))
  | PF x => PF x
  end.
