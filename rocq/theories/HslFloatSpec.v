(** * What C173 says: colour conversion with Python's arithmetic *)
From Coq Require Import ZArith QArith Qcanon Qabs Bool String List.
From Verif Require Import PyNum Colors ColorSpec ReadSpec.
Open Scope Z_scope.

(** A Python number and the rational it stands for; a finite float is a double. *)
Inductive is_number : pynum -> Qc -> Prop :=
| int_number z : is_number (PI z) (Z2Qc z)
| float_number q : double (this q) -> is_number (PF (Fin q)) q.
(** The numbers Python can make a float of (all finite floats, and ints below
    half a unit above the largest float). *)
Definition float_sized (q : Qc) : Prop := (Qabs (this q) < 2 ^ 1024 - 2 ^ 970)%Q.
(** n is a rounding of 255 times the fraction x, ties aside, with a tolerance. *)
Definition byte_of (tolerance : Q) (x : Qc) (n : Z) : Prop := (Qabs (inject_Z n - 255 * this x) <= (1 # 2) + tolerance)%Q.
(** The components of the CSS conversion, with red and green exchanged for hues
    strictly between 240 and 300 degrees (C90). *)
Definition css_fractions (hue s l : Qc) : Qc * Qc * Qc :=
  let '(r, g, b) := css_hsl hue s l in
  if (qc_ltb (Z2Qc 240) hue && qc_ltb hue (Z2Qc 300))%bool then (g, r, b) else (r, g, b).
Definition byte (n : Z) : Prop := 0 <= n <= 255.
