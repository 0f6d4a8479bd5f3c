(** * Specifications for the parser properties *)
From Coq Require Import ZArith QArith Qcanon Bool String Ascii List.
From Verif Require Import PyNum Units Float64 PyStr Colors Values Parser Wrappers.
Import ListNotations.
Open Scope string_scope.
Open Scope Z_scope.

(** ** Lengths *)
(** [created reg]: the registry of units after some program created lengths by
    multiplying, negating and parsing. *)
Inductive created : registry -> Prop :=
| created_none : created base_registry
| created_mul reg n u : created reg -> In (reg_entry u) reg -> created (reg ++ [reg_entry (rmul n u)])%list
| created_neg reg u : created reg -> In (reg_entry u) reg -> created (reg ++ [reg_entry (uneg u)])%list
| created_parse reg v u reg' : created reg -> units_in reg v = Ok (u, reg') -> created reg'.
(** What parsing returns or raises. *)
Definition outcome_of {A B} (r : res (A * B)) : res A := match r with Ok (a, _) => Ok a | Err e => Err e end.

(** The units: CSS 2.1 section 4.3.2 and css-values (ch, viewport units,
    angles).  Absolute units carry their size in points; 1cm and 1mm are the
    library's 28.3465pt and 2.83465pt.  Angles carry their size in degrees. *)
Definition css_units : list (string * ukind) :=
  [("px", KPx); ("em", KFont "em"); ("ex", KFont "ex"); ("ch", KFont "ch");
   ("pt", KAbs "pt" (Z2Qc 1)); ("pc", KAbs "pc" (Z2Qc 12)); ("in", KAbs "in" (Z2Qc 72));
   ("cm", KAbs "cm" (qfrac 283465 10000)); ("mm", KAbs "mm" (qfrac 283465 100000));
   ("vh", KVp "vh" ScaleVh); ("vmax", KVp "vmax" ScaleVmax); ("vmin", KVp "vmin" ScaleVmin); ("vw", KVp "vw" ScaleVw);
   ("%", KPct); ("deg", KAngle "deg" (Z2Qc 1)); ("grad", KAngle "grad" (qfrac 9 10));
   ("rad", KAngle "rad" (qfrac (180 * 281474976710656) 884279719003555)); ("turn", KAngle "turn" (Z2Qc 360))].

(** The whole numbers that a binary64 float represents exactly. *)
Definition whole_double (z : Z) : Prop := exists m e, Z.abs m <= 2 ^ 53 /\ 0 <= e <= 970 /\ z = m * 2 ^ e.
Definition finite (p : pynum) : Prop := exists q, pval p = Fin q.
Definition is_angle (u : unit_) : Prop := exists s k, u_kind u = KAngle s k.
(** Texts and numbers, as opposed to ready-made unit objects. *)
Definition written (v : pyval) : Prop := (exists s, v = VStr s) \/ (exists z, v = VInt z) \/ (exists x, v = VFloat x).
