(** * What C168 says: angles in degrees *)
From Coq Require Import ZArith QArith Qcanon Bool String List.
From Verif Require Import PyNum Units ParseSpec.
Open Scope Z_scope.

(** One unit in degrees: 1deg, 1grad, 1rad, 1turn.  That of a radian uses the
    double nearest to pi (math.pi). *)
Definition pi_double : Q := 884279719003555 # 281474976710656.
Inductive factor : string -> Q -> Prop :=
| deg_factor : factor "deg" 1
| grad_factor : factor "grad" (9 # 10)
| rad_factor : factor "rad" (180 / pi_double)
| turn_factor : factor "turn" 360.
Definition in_degrees (u : unit_) (f : Q) : Prop := exists t, In (t, u_kind u) css_units /\ factor t f.
(** The number a Python number stands for. *)
Inductive stands_for : pynum -> Q -> Prop :=
| stands_int z : stands_for (PI z) (inject_Z z)
| stands_float q : stands_for (PF (Fin q)) (this q).
(** Two ints or two floats. *)
Definition same_type (a b : pynum) : Prop :=
  match a, b with PI _, PI _ | PF _, PF _ => True | _, _ => False end.
Definition opposite (a : pynum) : pynum :=
  match a with PI z => PI (- z) | PF (Fin q) => PF (Fin (- q)%Qc) | PF (Inf s) => PF (Inf (negb s)) | PF Nan => PF Nan end.
