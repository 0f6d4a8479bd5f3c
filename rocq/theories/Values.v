(** * Python values handled by the style code *)
From Coq Require Import ZArith QArith Qcanon Bool String Ascii List.
From Verif Require Import PyNum Units Float64 PyStr Colors.
Import ListNotations.
Open Scope string_scope.
Open Scope Z_scope.

(** Identity of an object whose class does not define [__eq__] (Python [==] is
    then identity): the colour objects of NAMED_COLOR (colors.py:207) are
    created once; every other object has a number. *)
Inductive oid := ONamed (key : string) | OId (n : nat).
(** Identity of objects: [is]. *)
Definition oid_eqb (a b : oid) : bool :=
  match a, b with
  | ONamed s, ONamed t => String.eqb s t
  | OId m, OId n => Nat.eqb m n
  | _, _ => false
  end.

(** Values a program may assign to a style property, or read from one.
    Simplifications: [bool] is [VInt] 0 or 1; BorderSpacing (wrappers.py:4) and
    Rect (shapes.py:4) hold units; Quotes (wrappers.py:43) holds pairs of
    strings; [VObject] is any object that is neither a number, a string, a
    sequence nor one of the library's classes and that inherits [object]'s
    methods.  Other Python values (bytes, dict, range, generators, classes with
    their own operators) are not represented. *)
Inductive pyval :=
| VNone
| VInt (z : Z)
| VFloat (x : xq)
| VStr (s : string)
| VUnit (u : unit_)
| VColor (o : oid) (c : color_t)
| VTuple (l : list pyval)
| VList (l : list pyval)
| VSpacing (o : oid) (horizontal : unit_) (vertical : option unit_)
| VRect (top right left bottom : unit_)
| VQuotes (l : list (string * string))
| VUri (o : oid) (url : string)
| VCursor (l : list pyval)
| VDefault
| VObject (o : oid).

(** [a == b].  Numbers by value (a PixelUnit also equals its magnitude as an
    int, units.py:92-93); strings, tuples, lists (a Cursor is a list) and
    Quotes (wrappers.py:70-71) by contents; Rect (shapes.py:10-17) by its four
    units; the rest by identity.  Simplification: Python compares the members
    of sequences by identity first, which only matters for NaN members. *)
Definition eq_list (eq : pyval -> pyval -> bool) : list pyval -> list pyval -> bool :=
  fix go l m := match l, m with
    | [], [] => true
    | x :: l', y :: m' => eq x y && go l' m'
    | _, _ => false
    end.
(** == on the lists of pairs of two Quotes (wrappers.py:70-71). *)
Fixpoint eq_pairs (l m : list (string * string)) : bool :=
  match l, m with
  | [], [] => true
  | (a, b) :: l', (c, d) :: m' => String.eqb a c && String.eqb b d && eq_pairs l' m'
  | _, _ => false
  end.
(** a == b (units.py:78-161, shapes.py:10-17, wrappers.py:70-71; identity for the other classes), as used by constants.py:31-40 and declaration.py:205. *)
Fixpoint py_eqb (a b : pyval) : bool :=
  match a, b with
  | VNone, VNone => true
  | VInt x, VInt y => x =? y
  | VInt x, VFloat y => xeqb (Fin (Z2Qc x)) y
  | VFloat x, VInt y => xeqb x (Fin (Z2Qc y))
  | VFloat x, VFloat y => xeqb x y
  | VStr s, VStr t => String.eqb s t
  | VUnit u, VUnit v => u_eqb u v
  | VUnit u, VInt z | VInt z, VUnit u => u_eq_int u z
  | VColor o _, VColor p _ => oid_eqb o p
  | VTuple l, VTuple m => eq_list py_eqb l m
  | VList l, VList m | VList l, VCursor m | VCursor l, VList m | VCursor l, VCursor m => eq_list py_eqb l m
  | VSpacing o _ _, VSpacing p _ _ => oid_eqb o p
  | VRect t r l b, VRect t' r' l' b' => u_eqb t t' && u_eqb r r' && u_eqb l l' && u_eqb b b'
  | VQuotes l, VQuotes m => eq_pairs l m
  | VUri o _, VUri p _ => oid_eqb o p
  | VDefault, VDefault => true
  | VObject o, VObject p => oid_eqb o p
  | _, _ => false
  end.

(** [bool(v)]: empty and zero values are false (Quotes has __len__,
    wrappers.py:67-68). *)
Definition truthy (v : pyval) : bool :=
  match v with
  | VNone => false
  | VInt z => negb (z =? 0)
  | VFloat x => negb (xeqb x (Fin 0%Qc))
  | VStr s => negb (is_empty s)
  | VTuple l | VList l | VCursor l => match l with [] => false | _ => true end
  | VQuotes l => match l with [] => false | _ => true end
  | _ => true
  end.

(** [for x in v]: TypeError for values that are not iterable. *)
Definition iterate (v : pyval) : res (list pyval) :=
  match v with
  | VStr s => Ok (map VStr (chars s))
  | VTuple l | VList l | VCursor l => Ok l
  | _ => Err TypeError
  end.

(** [isinstance(v, Sequence) and not isinstance(v, str)]: the members. *)
Definition sequence (v : pyval) : option (list pyval) :=
  match v with VTuple l | VList l | VCursor l => Some l | _ => None end.
