(** * What C147 says: the numbers float() and int() read *)
From Coq Require Import ZArith QArith Qcanon Qabs Bool String Ascii List.
From Verif Require Import PyNum PyStr Float64 Colors ColorSpec.
Import ListNotations.
Open Scope string_scope.
Open Scope Z_scope.

(** Decimal digits, with single underscores between them: what is written and
    the digits alone. *)
Inductive run : string -> string -> Prop :=
| run_last c : dec_digit c = true -> run (String c "") (String c "")
| run_next c w ds : dec_digit c = true -> run w ds -> run (String c w) (String c ds)
| run_under c w ds : dec_digit c = true -> run w ds -> run (String c (String "_" w)) (String c ds).
Definition opt_run (w ds : string) : Prop := (w = "" /\ ds = "") \/ run w ds.
(** A sign: whether it is a minus. *)
Definition sign_text (s : string) (neg : bool) : Prop := ((s = "" \/ s = "+") /\ neg = false) \/ (s = "-" /\ neg = true).
Definition signed (neg : bool) (z : Z) : Z := if neg then - z else z.
(** Digits before and after a point, at least one of them. *)
Definition mantissa (w ip fp : string) : Prop :=
  (run w ip /\ fp = "") \/ exists a b, w = a ++ "." ++ b /\ opt_run a ip /\ opt_run b fp /\ ip ++ fp <> "".
Definition exponent (w : string) (e : Z) : Prop :=
  (w = "" /\ e = 0)
  \/ exists m s neg d ds, (m = "e" \/ m = "E") /\ sign_text s neg /\ run d ds /\ w = m ++ s ++ d /\ e = signed neg (dec_value 0 ds).

(** The binary64 numbers. *)
Definition double (r : Q) : Prop :=
  (exists m e, Z.abs m <= 2 ^ 53 /\ -1074 <= e /\ (r == inject_Z m * 2 ^ e)%Q) /\ (Qabs r < 2 ^ 1024)%Q.
(** Rounding to nearest, ties to even; from half a unit above the largest
    number on, infinity. *)
Definition rounded (q : Q) (x : xq) : Prop :=
  match x with
  | Fin r => (Qabs q < 2 ^ 1024 - 2 ^ 970)%Q /\ double (this r) /\
      forall r', double r' -> (Qabs (this r - q) <= Qabs (r' - q))%Q
        /\ ((Qabs (this r - q) == Qabs (r' - q))%Q -> ~ (r' == this r)%Q ->
            exists m e, (this r == inject_Z (2 * m) * 2 ^ e)%Q
              /\ ((r' == inject_Z (2 * m + 1) * 2 ^ e)%Q \/ (r' == inject_Z (2 * m - 1) * 2 ^ e)%Q))
  | Inf neg => (2 ^ 1024 - 2 ^ 970 <= Qabs q)%Q /\ (neg = true <-> (q < 0)%Q)
  | Nan => False
  end.
(** The word, each letter small (as in the word) or capital. *)
Definition same_letter (a b : ascii) : Prop := b = a \/ N_of_ascii b = (N_of_ascii a - 32)%N.
Definition spelled (word s : string) : Prop := Forall2 same_letter (list_ascii_of_string word) (list_ascii_of_string s).
(** A text float() reads, and its value. *)
Inductive float_body : string -> bool -> xq -> Prop :=
| body_decimal w ip fp e x neg v : mantissa w ip fp -> exponent e x ->
    rounded (inject_Z (signed neg (dec_value 0 (ip ++ fp))) * 10 ^ (x - Z.of_nat (String.length fp)))%Q v -> float_body (w ++ e) neg v
| body_inf s neg : spelled "inf" s \/ spelled "infinity" s -> float_body s neg (Inf neg)
| body_nan s neg : spelled "nan" s -> float_body s neg Nan.
Definition float_text (s : string) (x : xq) : Prop :=
  exists p sg neg b q, blanks p /\ blanks q /\ sign_text sg neg /\ float_body b neg x /\ s = p ++ sg ++ b ++ q.
(** A text int() reads, and its value. *)
Definition int_text (s : string) (z : Z) : Prop :=
  exists p sg neg w ds q, blanks p /\ blanks q /\ sign_text sg neg /\ run w ds /\ s = p ++ sg ++ w ++ q /\ z = signed neg (dec_value 0 ds).
(** A text that denotes the number q: blanks, sign, digits with an optional point
    and an optional exponent. *)
Definition decimal_text (s : string) (q : Q) : Prop :=
  exists p sg neg w ip fp e x r, blanks p /\ blanks r /\ sign_text sg neg /\ mantissa w ip fp /\ exponent e x /\ s = p ++ sg ++ (w ++ e) ++ r
    /\ (q == inject_Z (signed neg (dec_value 0 (ip ++ fp))) * 10 ^ (x - Z.of_nat (String.length fp)))%Q.
