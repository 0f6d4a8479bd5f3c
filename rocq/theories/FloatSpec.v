(** * Specifications for the binary64 properties *)
From Coq Require Import ZArith QArith Qcanon Qabs.
From Verif Require Import PyNum Float64 Units UnitsSpec.
Open Scope Z_scope.

(** Zero, or between 2^-100 and 2^100 in magnitude. *)
Definition ordinary (q : Qc) : Prop :=
  q = 0%Qc \/ ((qpow2 (-100) <= Qabs (this q))%Q /\ (Qabs (this q) <= qpow2 100)%Q).

(** All the numbers that enter a conversion are ordinary. *)
Record ordinary_inputs (c : ctx) (u : unit_) : Prop := {
  oi_value : forall v, magnitude (u_val u) v -> ordinary v;
  oi_scale : forall s k, u_kind u = KAbs s k -> ordinary k;
  oi_dpi : ordinary (nval (dpi (c_disp c)));
  oi_width : ordinary (nval (disp_width (c_disp c)));
  oi_height : ordinary (nval (disp_height (c_disp c)));
  oi_font : ordinary (nval (f_size (c_font c)));
  oi_size : forall n, c_size c = LNum n -> ordinary (nval n) }.

(** The rationals that are binary64 numbers: an integer of at most 53 bits
    times a power of two, in the range of exponents. *)
Definition binary64 (q : Qc) : Prop :=
  (exists m e, Z.abs m <= 2 ^ 53 /\ -1074 <= e /\ (this q == inject_Z m * qpow2 e)%Q) /\ (Qabs (this q) < qpow2 1022)%Q.

(** [r] is the binary64 number nearest to [q]; of two equally near neighbours
    [r = 2m * 2^e] and [(2m +- 1) * 2^e], the one with the even significand. *)
Definition nearest_double (q : Q) (r : Qc) : Prop :=
  binary64 r /\
  forall r', binary64 r' ->
    (Qabs (this r - q) <= Qabs (this r' - q))%Q
    /\ ((Qabs (this r - q) == Qabs (this r' - q))%Q -> r' <> r ->
        exists m e, (this r == inject_Z (2 * m) * qpow2 e)%Q
          /\ ((this r' == inject_Z (2 * m + 1) * qpow2 e)%Q \/ (this r' == inject_Z (2 * m - 1) * qpow2 e)%Q)).
