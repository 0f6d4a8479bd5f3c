(** * Python numbers and exceptions

    Models the fragment of Python's [int]/[float] arithmetic used by
    /repo/src/colosseum/units.py, dimensions.py and engine.py.

    Simplification: a finite Python float is modelled by its exact rational
    value ([Qc], canonical rationals, Leibniz equality); the rounding of
    intermediate binary64 results is not modelled here (FloatUnits.v models it
    for the conversions and EngineArith.v for layout; FloatProps.v and
    EngineFProps.v prove what the difference amounts to).  Infinities and NaN exist at the level of
    unit magnitudes ([xq]); [round] rejects them as Python does, so layout
    numbers ([num]) are always finite. *)

From Coq Require Import ZArith QArith Qcanon Qround Lqa Lia Bool List String.
Import ListNotations.
Open Scope Z_scope.

(** Python exception classes that occur in the modelled code.
    [OutOfFuel] is the model's own marker for exhausted recursion fuel; the
    proofs show that it never occurs with the fuel used by [layout].
    [Unmodelled] is the model's own marker for inputs whose outcome the model
    does not decide (some string literals of the quotes property). *)
Inductive exn :=
| TypeError | ValueError | ValidationError | AttributeError | IndexError
| KeyError | NameError | OverflowError | NotImplementedError
| PlainException | OutOfFuel | Unmodelled.

(** /repo/src/colosseum/exceptions.py:4 -- [ValidationError] is a subclass of
    [ValueError]; this is "isinstance(e, ValueError)". *)
Definition is_value_error (e : exn) : bool :=
  match e with ValueError | ValidationError => true | _ => false end.

(** Result of evaluating a Python expression. *)
Inductive res (A : Type) := Ok (a : A) | Err (e : exn).
Arguments Ok {A} a.
Arguments Err {A} e.

(** Evaluation order: the rest is evaluated only if [m] did not raise. *)
Definition bindr {A B} (m : res A) (f : A -> res B) : res B :=
  match m with Ok a => f a | Err e => Err e end.
Declare Scope res_scope.
(** Notation for [bindr]. *)
Notation "x <-r m ;; k" := (bindr m (fun x => k))
  (at level 61, m at next level, right associativity) : res_scope.
Open Scope res_scope.

(** No exception was raised (used in statements only). *)
Definition is_ok {A} (r : res A) : bool := match r with Ok _ => true | Err _ => false end.

(** ** Exact rationals *)
Definition Z2Qc (z : Z) : Qc := Q2Qc (inject_Z z).
(** A rational constant; used for the decimal literals of units.py:176-188 and engine.py:100-104. *)
Definition qfrac (n : Z) (d : positive) : Qc := Q2Qc (n # d).

(** Python [round(x)] for a float: nearest integer, ties to even. *)
Definition round_half_even (q : Q) : Z :=
  let f := Qfloor q in
  match ((q - inject_Z f) ?= (1 # 2))%Q with
  | Lt => f
  | Gt => f + 1
  | Eq => if Z.even f then f else f + 1
  end.

(** Python [int(x)] for a float: truncation towards zero. *)
Definition trunc_q (q : Q) : Z := Z.quot (Qnum q) (Zpos (Qden q)).

(** [<] on exact numbers (units.py:164, engine.py:416-420, dimensions.py:339). *)
Definition qc_ltb (a b : Qc) : bool := match (a ?= b)%Qc with Lt => true | _ => false end.
(** [<=] on exact numbers (used in proofs and statements). *)
Definition qc_leb (a b : Qc) : bool := match (a ?= b)%Qc with Gt => false | _ => true end.
(** [==] on exact numbers (units.py:37, 62, 73; dimensions.py:248-299). *)
Definition qc_eqb (a b : Qc) : bool := Qc_eq_bool a b.

(** ** Extended values: finite, infinities, NaN (magnitudes only) *)
Inductive xq := Fin (q : Qc) | Inf (neg : bool) | Nan.

(** float multiplication, IEEE rules for the special values *)
Definition xmul (a b : xq) : xq :=
  match a, b with
  | Fin x, Fin y => Fin (x * y)%Qc
  | Nan, _ | _, Nan => Nan
  | Inf s, Inf t => Inf (xorb s t)
  | Inf s, Fin y => if qc_eqb y 0 then Nan else Inf (xorb s (qc_ltb y 0))
  | Fin x, Inf t => if qc_eqb x 0 then Nan else Inf (xorb (qc_ltb x 0) t)
  end.

(** [==] on numbers: NaN differs from everything, itself included. *)
Definition xeqb (a b : xq) : bool :=
  match a, b with
  | Fin x, Fin y => qc_eqb x y
  | Inf s, Inf t => Bool.eqb s t
  | _, _ => false
  end.

(** [<] on numbers. *)
Definition xltb (a b : xq) : bool :=
  match a, b with
  | Fin x, Fin y => qc_ltb x y
  | Inf true, Fin _ | Inf true, Inf false | Fin _, Inf false => true
  | _, _ => false
  end.

(** Python [round(x)] of a float: OverflowError for infinities,
    ValueError for NaN. *)
Definition xround (a : xq) : res Z :=
  match a with
  | Fin q => Ok (round_half_even (this q))
  | Inf _ => Err OverflowError
  | Nan => Err ValueError
  end.

(** Python [int(x)] of a float. *)
Definition xtrunc (a : xq) : res Z :=
  match a with
  | Fin q => Ok (trunc_q (this q))
  | Inf _ => Err OverflowError
  | Nan => Err ValueError
  end.

(** A Python number object: [int] or [float] (the tag is observable through
    [isinstance]).  Simplification: [bool] (a subclass of [int]) is not a
    separate tag. *)
Inductive pynum := PI (z : Z) | PF (x : xq).
(** The value of a Python number. *)
Definition pval (p : pynum) : xq := match p with PI z => Fin (Z2Qc z) | PF x => x end.
(** [==] between Python numbers (units.py:37, 80-160). *)
Definition py_num_eqb (a b : pynum) : bool := xeqb (pval a) (pval b).
(** [<] between Python numbers (units.py:164). *)
Definition py_num_ltb (a b : pynum) : bool := xltb (pval a) (pval b).

(** Python [a * b] on numbers: int*int is int, anything else is float. *)
Definition pmul (a b : pynum) : pynum :=
  match a, b with
  | PI x, PI y => PI (x * y)
  | _, _ => PF (xmul (pval a) (pval b))
  end.

(** ** Layout numbers: finite ints and floats *)
Inductive num := NI (z : Z) | NF (q : Qc).
(** The value of a layout number. *)
Definition nval (n : num) : Qc := match n with NI z => Z2Qc z | NF q => q end.
(** A layout number as an operand of the conversions of units.py:55-153. *)
Definition nx (n : num) : xq := Fin (nval n).

(** [a + b]: an int if both are ints, otherwise a float (dimensions.py:372-534, engine.py:403-430). *)
Definition nadd (a b : num) : num :=
  match a, b with NI x, NI y => NI (x + y) | _, _ => NF (nval a + nval b)%Qc end.
(** [a - b] (dimensions.py:374-396, engine.py:385-534). *)
Definition nsub (a b : num) : num :=
  match a, b with NI x, NI y => NI (x - y) | _, _ => NF (nval a - nval b)%Qc end.
(** [a * b] (engine.py:382, 648). *)
Definition nmul (a b : num) : num :=
  match a, b with NI x, NI y => NI (x * y) | _, _ => NF (nval a * nval b)%Qc end.
(** [-a] (engine.py:271-291). *)
Definition nneg (a : num) : num :=
  match a with NI x => NI (- x) | NF q => NF (- q)%Qc end.
(** Python [a // 2] (floor division; a float stays a float). *)
Definition nhalf (a : num) : num :=
  match a with
  | NI x => NI (x / 2)
  | NF q => NF (Z2Qc (Qfloor (this (q / Z2Qc 2)%Qc)))
  end.
(** Python [round(a)]. *)
Definition nround (a : num) : Z :=
  match a with NI x => x | NF q => round_half_even (this q) end.
(** [a < b] between layout numbers (engine.py:416, 420, 433, 699). *)
Definition nltb (a b : num) : bool := qc_ltb (nval a) (nval b).
(** [a == b] between layout numbers (dimensions.py:40-90, 248-299). *)
Definition neqb (a b : num) : bool := qc_eqb (nval a) (nval b).
(** Python [max(a, b)] and [min(a, b)]: the first argument wins ties. *)
Definition nmax (a b : num) : num := if nltb a b then b else a.
(** min(a, b): the first argument unless the second is smaller (engine.py:652, units.py:181). *)
Definition nmin (a b : num) : num := if nltb b a then b else a.
(** The int 0. *)
Definition n0 : num := NI 0.
(** isinstance(a, int) (dimensions.py:339-366). *)
Definition is_int (a : num) : bool := match a with NI _ => true | NF _ => false end.

(** ** Layout values: a number, the keyword AUTO, or None *)
Inductive lval := LNum (n : num) | LAuto | LNone.

(** Arithmetic on a layout value that is not a number raises TypeError. *)
Definition as_num (v : lval) : res num :=
  match v with LNum n => Ok n | _ => Err TypeError end.
(** Python [==] on layout values ([str], [None] and numbers). *)
Definition leqb (a b : lval) : bool :=
  match a, b with
  | LNum x, LNum y => neqb x y
  | LAuto, LAuto | LNone, LNone => true
  | _, _ => false
  end.
(** The int 0 as an attribute value (dimensions.py:189-205). *)
Definition l0 : lval := LNum n0.
(** value is AUTO (engine.py:306, 356-526, 635-667). *)
Definition is_auto (v : lval) : bool := match v with LAuto => true | _ => false end.
(** An optional number stored in an attribute (engine.py:363, 627). *)
Definition lopt (o : option num) : lval := match o with Some n => LNum n | None => LNone end.
