(** * The text of values and declarations -- the [__str__] methods of
      colors.py, wrappers.py and declaration.py on top of Wrappers.v *)
From Coq Require Import ZArith QArith Qcanon Bool String Ascii List.
From Verif Require Import PyNum Units Float64 PyStr Colors Values Parser Choices Shorthand Decl Wrappers.
Import ListNotations.
Open Scope string_scope.
Open Scope Z_scope.

Section Show.
(** Python's repr of a float, which the model leaves open. *)
Variable show_float : xq -> string.

(** str of an int or a float. *)
Definition num_str (m : pynum) : string :=
  match m with PI z => show_Z z | PF x => show_float x end.
(** str of a length (units.py:35-41). *)
Definition length_str (u : unit_) : res string := unit_str (fun q => show_float (Fin q)) u.
(** rgb.__repr__ and hsl.__repr__ (colors.py:14-15, 31-32); str falls back to repr. *)
Definition color_str (c : color_t) : string :=
  match c with
  | Rgb r g b a => "rgba(" ++ num_str r ++ ", " ++ num_str g ++ ", " ++ num_str b ++ ", " ++ num_str a ++ ")"
  | Hsl h s l a => "hsla(" ++ num_str h ++ ", " ++ num_str s ++ ", " ++ num_str l ++ ", " ++ num_str a ++ ")"
  end.
(** str of a stored value, as in the f-string at declaration.py:761 and at
    wrappers.py:120.  Simplification: [Unmodelled] for the object [default]
    and other objects (their text contains an address) and for tuples and lists
    (never stored). *)
Definition value_str (v : pyval) : res string :=
  match v with
  | VNone => Ok "None"
  | VInt z => Ok (show_Z z)
  | VFloat x => Ok (show_float x)
  | VStr s => Ok s
  | VUnit u => length_str u
  | VColor _ c => Ok (color_str c)
  | VSpacing _ _ _ => spacing_str (fun q => show_float (Fin q)) v
  | VRect _ _ _ _ => rect_str (fun q => show_float (Fin q)) v
  | VQuotes _ => quotes_str v
  | VUri _ _ => uri_str v
  | VCursor _ => cursor_str v
  | VTuple _ | VList _ | VDefault | VObject _ => Err Unmodelled
  end.
(** CSS.__str__ (declaration.py:753-761): an exception raised by the str of a
    value is raised by the whole. *)
Definition css_str (ho : hash_order) (c : css) : res string :=
  ts <-r map_res (fun nv => t <-r value_str (snd nv) ;; Ok (fst nv ++ ": " ++ t))
           (sort_by_name (map (fun nv => (dashed (fst nv), snd nv)) (items ho c))) ;;
  Ok (join "; " ts).
(** str of what reading a shorthand gives: Shorthand.__str__ (wrappers.py:117-122)
    over to_dict (124-131), which keeps the order of VALID_KEYS; the empty
    string when nothing is stored (declaration.py:109). *)
Definition short_str (c : css) (sh : shorthand) : res string :=
  ts <-r map_res (fun qv => value_str (snd qv)) (get_short c sh) ;; Ok (join " " ts).
End Show.
