(** * What C161 says: which exception an assignment raises, other than ValueError *)
From Coq Require Import ZArith Bool String Ascii List.
From Verif Require Import PyNum PyStr Values Choices ColorProps FuncSpec Decl.
Import ListNotations.
Open Scope string_scope.

(** The properties that take a colour. *)
Definition colored (p : longhand) : Prop :=
  In p [L_color; L_background_color; L_outline_color] \/ exists s, p = L_border_color s.
(** The properties that take a whole number. *)
Definition whole_numbered (p : longhand) : Prop := In p [L_z_index; L_orphans; L_widows].
(** The values Python can iterate over here: text, tuples and lists. *)
Inductive iterable : pyval -> Prop :=
| it_text s : iterable (VStr s)
| it_tuple l : iterable (VTuple l)
| it_list l : iterable (VList l)
| it_cursor l : iterable (VCursor l).

(** [raises p v e]: assigning v to p raises e, which is not a ValueError. *)
Inductive raises : longhand -> pyval -> exn -> Prop :=
| raises_empty p : colored p -> raises p (VStr "") IndexError
| raises_overflow p name x ts y : colored p -> opened name x -> commas_ok ts -> overflows name ts ->
    raises p (VStr (applied name x ts y)) OverflowError
| raises_infinite p neg : whole_numbered p -> raises p (VFloat (Inf neg)) OverflowError
| raises_clip v : (forall s, v <> VStr s) -> raises L_clip v AttributeError
| raises_spacing v : ~ iterable v -> (forall z, v <> VInt z) -> (forall x, v <> VFloat x) -> raises L_border_spacing v AttributeError
| raises_cursor v : ~ iterable v -> raises L_cursor v TypeError.
