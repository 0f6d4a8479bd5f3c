(** * IEEE binary64 rounding of rationals

    The value Python's [float(s)], [int / int] and [int / float] return: the
    correctly rounded (nearest, ties to even) binary64 number, or an infinity
    on overflow.  Used where /repo/src/colosseum/parser.py:29,34,69,87-89,
    99-101,135,148 and validators.py:13 turn text or integers into floats.
    Simplification: the sign of zero is not represented. *)
From Coq Require Import ZArith QArith Qcanon Qabs Bool.
From Verif Require Import PyNum.
Open Scope Z_scope.

(** floor(log2 q) for q > 0. *)
Definition ilog2 (q : Q) : Z :=
  let e := Z.log2 (Qnum q) - Z.log2 (Zpos (Qden q)) in
  (* 2^(e-1) < q < 2^(e+1) *)
  if (0 <=? e) then (if (Zpos (Qden q) * 2 ^ e <=? Qnum q) then e else e - 1)
  else (if (Zpos (Qden q) <=? Qnum q * 2 ^ (- e)) then e else e - 1).

(** 2^e as a rational. *)
Definition qpow2 (e : Z) : Q :=
  if (0 <=? e) then inject_Z (2 ^ e) else (1 # Z.to_pos (2 ^ (- e))).

(** The binary64 number nearest to q: 53 bits of precision, exponents down to
    -1074; magnitudes that round to 2^1024 or more overflow. *)
Definition b64 (q : Q) : xq :=
  if Qeq_bool q 0 then Fin 0%Qc
  else
    let a := Qabs q in
    let ex := Z.max (ilog2 a - 52) (-1074) in
    let m := round_half_even (q * qpow2 (- ex))%Q in
    if (2 ^ 1024 <=? Z.abs m * 2 ^ (Z.max ex 0)) then Inf (m <? 0)
    else Fin (Q2Qc (inject_Z m * qpow2 ex)%Q).

(** Python [float(z)] for an int: OverflowError when too large. *)
Definition float_of_int (z : Z) : res xq :=
  match b64 (inject_Z z) with Inf _ => Err OverflowError | x => Ok x end.

(** Python [z / d] for ints (d > 0): the correctly rounded quotient. *)
Definition int_div (z : Z) (d : positive) : xq := b64 (z # d).
(** Python [z / d] for an int z and a float d that is a small whole number:
    z is converted to float first. *)
Definition int_fdiv (z : Z) (d : positive) : res xq :=
  x <-r float_of_int z ;;
  Ok (match x with Fin q => b64 (this q / inject_Z (Zpos d))%Q | x => x end).
