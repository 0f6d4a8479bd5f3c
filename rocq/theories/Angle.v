(** * Degrees of an angle -- /repo/src/colosseum/units.py:65-81 *)
From Coq Require Import ZArith QArith Qcanon Bool List String.
From Verif Require Import PyNum Float64 Units FloatUnits.
Open Scope Z_scope.

(** Python [int(a)] (units.py:72). *)
Definition py_trunc (a : pynum) : res Z := match a with PI z => Ok z | PF x => xtrunc x end.
(** AngleUnit.deg (units.py:70-73): val * scale with Python's arithmetic, an int
    if the product is whole.  Only an AngleUnit has the method. *)
Definition deg (u : unit_) : res pynum :=
  match u_kind u with
  | KAngle _ scale =>
      value <-r fmul (u_val u) (py_scale scale) ;;
      value_int <-r py_trunc value ;;
      Ok (if py_num_eqb value (PI value_int) then PI value_int else value)
  | _ => Err AttributeError
  end.
