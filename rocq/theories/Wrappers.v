(** * Text of values and immutable lists -- /repo/src/colosseum/units.py:35-41,
      wrappers.py, shapes.py *)
From Coq Require Import ZArith QArith Qcanon Bool String Ascii List.
From Verif Require Import PyNum Units Float64 PyStr Colors Values Parser.
Import ListNotations.
Open Scope string_scope.
Open Scope Z_scope.

(** [str] of a length (units.py:35-41).  [show_float] is Python's repr of a
    float that is not a whole number, which the model leaves open. *)
Definition unit_str (show_float : Qc -> string) (u : unit_) : res string :=
  i <-r xtrunc (pval (u_val u)) ;;
  match pval (u_val u) with
  | Fin q => Ok ((if qc_eqb q (Z2Qc i) then show_Z i else show_float q) ++ suffix_of (u_kind u))
  | _ => Err Unmodelled (* not reached: xtrunc has failed *)
  end.

(** BorderSpacing (wrappers.py:32-40): the two properties. *)
Definition spacing_horizontal (v : pyval) : res unit_ :=
  match v with VSpacing _ h _ => Ok h | _ => Err AttributeError end.
(** wrappers.py:37-40 *)
Definition spacing_vertical (v : pyval) : res unit_ :=
  match v with VSpacing _ h None => Ok h | VSpacing _ _ (Some w) => Ok w | _ => Err AttributeError end.
(** BorderSpacing.__str__ (wrappers.py:24-30) *)
Definition spacing_str (show_float : Qc -> string) (v : pyval) : res string :=
  match v with
  | VSpacing _ h None => unit_str show_float h
  | VSpacing _ h (Some w) => a <-r unit_str show_float h ;; b <-r unit_str show_float w ;; Ok (a ++ " " ++ b)
  | _ => Err AttributeError
  end.

(** Rect (shapes.py:19-39): repr/str and the four properties. *)
Definition rect_top (v : pyval) : res unit_ := match v with VRect t _ _ _ => Ok t | _ => Err AttributeError end.
(** shapes.py:29-31 *)
Definition rect_right (v : pyval) : res unit_ := match v with VRect _ r _ _ => Ok r | _ => Err AttributeError end.
(** shapes.py:33-35 *)
Definition rect_left (v : pyval) : res unit_ := match v with VRect _ _ l _ => Ok l | _ => Err AttributeError end.
(** shapes.py:37-39 *)
Definition rect_bottom (v : pyval) : res unit_ := match v with VRect _ _ _ b => Ok b | _ => Err AttributeError end.
(** shapes.py:19-23 *)
Definition rect_str (show_float : Qc -> string) (v : pyval) : res string :=
  match v with
  | VRect t r l b =>
      t <-r unit_str show_float t ;; r <-r unit_str show_float r ;;
      l <-r unit_str show_float l ;; b <-r unit_str show_float b ;;
      Ok ("rect(" ++ t ++ ", " ++ r ++ ", " ++ l ++ ", " ++ b ++ ")")
  | _ => Err AttributeError
  end.

(** Quotes (wrappers.py:59-85).  [level] may be negative, as list indices. *)
Definition quotes_str (v : pyval) : res string :=
  match v with
  | VQuotes l => Ok (join " " (flat_map (fun p => [repr_str (fst p); repr_str (snd p)]) l))
  | _ => Err AttributeError
  end.
(** l[i] with Python's negative indices (wrappers.py:76, 83). *)
Definition list_index {A} (l : list A) (i : Z) : res A :=
  let k := if i <? 0 then i + Z.of_nat (List.length l) else i in
  if k <? 0 then Err IndexError else match nth_error l (Z.to_nat k) with Some x => Ok x | None => Err IndexError end.
(** wrappers.py:73-78 *)
Definition quotes_opening (v : pyval) (level : Z) : res string :=
  match v with VQuotes l => p <-r list_index l level ;; Ok (fst p) | _ => Err AttributeError end.
(** wrappers.py:80-85 *)
Definition quotes_closing (v : pyval) (level : Z) : res string :=
  match v with VQuotes l => p <-r list_index l level ;; Ok (snd p) | _ => Err AttributeError end.
(** wrappers.py:67-68 *)
Definition quotes_len (v : pyval) : res Z :=
  match v with VQuotes l => Ok (Z.of_nat (List.length l)) | _ => Err TypeError end.

(** Uri (wrappers.py:158-172). *)
Definition uri_url (v : pyval) : res string := match v with VUri _ s => Ok s | _ => Err AttributeError end.
(** wrappers.py:164-168 *)
Definition uri_str (v : pyval) : res string :=
  match v with VUri _ s => Ok ("url(" ++ String dquote (s ++ String dquote ")")) | _ => Err AttributeError end.
(** Cursor.__str__ = ImmutableList.__str__ (wrappers.py:209-210), for members
    that are strings or Uri objects (the members of a parsed cursor). *)
Definition cursor_item_str (v : pyval) : res string :=
  match v with VStr s => Ok s | VUri _ _ => uri_str v | _ => Err Unmodelled end.
(** wrappers.py:209-210 *)
Definition cursor_str (v : pyval) : res string :=
  match v with
  | VCursor l => xs <-r map_res cursor_item_str l ;; Ok (join ", " xs)
  | _ => Err AttributeError
  end.

(** ** ImmutableList (wrappers.py:175-235)
    The methods of [list] as seen through the class.  [append], [extend],
    [insert], [pop], [remove], [reverse], [sort] and [__setitem__] are
    overridden and raise TypeError (194-195, 216-235); [__delitem__],
    [__iadd__], [__imul__] and [clear] are inherited from [list].
    Simplification: indices are single integers (no slices). *)
Inductive list_op :=
| Append (v : pyval) | Extend (l : list pyval) | Insert (i : Z) (v : pyval) | Pop (i : option Z) | Remove (v : pyval)
| Reverse | Sort | SetItem (i : Z) (v : pyval) | GetItem (i : Z) | CopyOf
| DelItem (i : Z) | IAdd (l : list pyval) | IMul (n : Z) | Clear.
(** [del l[i]] of list *)
Fixpoint remove_nth {A} (n : nat) (l : list A) : list A :=
  match n, l with O, _ :: r => r | S k, x :: r => x :: remove_nth k r | _, [] => [] end.
(** l * n. *)
Fixpoint repeat_list {A} (n : nat) (l : list A) : list A :=
  match n with O => [] | S k => (l ++ repeat_list k l)%list end.
(** The list after the operation, and whether it raised. *)
Definition list_step (o : list_op) (l : list pyval) : list pyval * res unit :=
  match o with
  | Append _ | Extend _ | Insert _ _ | Pop _ | Remove _ | Reverse | Sort | SetItem _ _ => (l, Err TypeError)
  | GetItem i => (l, x <-r list_index l i ;; Ok tt)
  | CopyOf => (l, Ok tt)
  | DelItem i =>
      match list_index l i with
      | Ok _ => (remove_nth (Z.to_nat (if i <? 0 then i + Z.of_nat (List.length l) else i)) l, Ok tt)
      | Err e => (l, Err e)
      end
  | IAdd m => ((l ++ m)%list, Ok tt)
  | IMul n => (repeat_list (Z.to_nat n) l, Ok tt)
  | Clear => ([], Ok tt)
  end.
(** A sequence of operations on one list. *)
Fixpoint list_steps (os : list list_op) (l : list pyval) : list pyval :=
  match os with [] => l | o :: r => list_steps r (fst (list_step o l)) end.
