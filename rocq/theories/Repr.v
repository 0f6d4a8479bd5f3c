(** * [repr] and [hash] of values -- the [__repr__] methods of units.py,
      colors.py, shapes.py and wrappers.py, and ImmutableList.__hash__ *)
From Coq Require Import ZArith QArith Qcanon Bool String Ascii List.
From Verif Require Import PyNum Units Float64 PyStr Colors Values Parser Choices Shorthand Decl Wrappers Text Classes.
Import ListNotations.
Open Scope string_scope.
Open Scope Z_scope.

Section Repr.
(** Python's repr of a float and of an object that defines none (its text
    contains an address); both are left open. *)
Variable show_float : xq -> string.
Variable show_object : pyval -> string.

(** repr of a list of which the members' reprs are known: [a, b] *)
Definition bracketed (ts : list string) : string := "[" ++ join ", " ts ++ "]".
(** repr of a tuple: (a, b), with a comma when there is one member *)
Definition tuple_text (ts : list string) : string :=
  match ts with [t] => "(" ++ t ++ ",)" | _ => "(" ++ join ", " ts ++ ")" end.
(** repr of the members, in order. *)
Definition repr_all (repr : pyval -> res string) : list pyval -> res (list string) :=
  fix go l := match l with [] => Ok [] | v :: r => t <-r repr v ;; ts <-r go r ;; Ok (t :: ts) end.
(** repr(v): lengths (units.py:35-38), colours (colors.py:14-15, 31-32), Rect
    (shapes.py:19-20), BorderSpacing (wrappers.py:17-22), Quotes (56-57, the
    f-string of a list of pairs of texts), Uri (164-165), ImmutableList (200-207,
    [repr(list(self))[1:-1]]); the other values as Python's built-ins. *)
Fixpoint py_repr (v : pyval) : res string :=
  match v with
  | VNone => Ok "None"
  | VInt z => Ok (show_Z z)
  | VFloat x => Ok (show_float x)
  | VStr s => Ok (repr_str s)
  | VUnit u => length_str show_float u
  | VColor _ c => Ok (color_str show_float c)
  | VTuple l => ts <-r repr_all py_repr l ;; Ok (tuple_text ts)
  | VList l => ts <-r repr_all py_repr l ;; Ok (bracketed ts)
  | VSpacing _ h None => t <-r length_str show_float h ;; Ok ("BorderSpacing(" ++ t ++ ")")
  | VSpacing _ h (Some w) =>
      t <-r length_str show_float h ;; u <-r length_str show_float w ;; Ok ("BorderSpacing(" ++ t ++ ", " ++ u ++ ")")
  | VRect _ _ _ _ => rect_str (fun q => show_float (Fin q)) v
  | VQuotes l => Ok ("Quotes(" ++ bracketed (map (fun p => tuple_text [repr_str (fst p); repr_str (snd p)]) l) ++ ")")
  | VUri _ _ => uri_str v
  | VCursor [] => Ok "Cursor()"
  | VCursor l => ts <-r repr_all py_repr l ;; Ok ("Cursor([" ++ inner 1 (bracketed ts) ++ "])")
  | VDefault | VObject _ => Ok (show_object v)
  end.

(** ** Shorthand.__repr__ (wrappers.py:105-115) *)
(** self.__class__.__name__ (wrappers.py:134-155) *)
Definition class_name (sh : shorthand) : string :=
  match sh with
  | S_outline => "Outline" | S_border => "Border"
  | S_border_side STop => "BorderTop" | S_border_side SRight => "BorderRight"
  | S_border_side SBottom => "BorderBottom" | S_border_side SLeft => "BorderLeft"
  end.
(** properties[name] *)
Fixpoint look_up (name : string) (props : list (string * pyval)) : option pyval :=
  match props with [] => None | (k, v) :: r => if String.eqb k name then Some v else look_up name r end.
(** The text of a replacement field of str.format: an empty or numeric name
    refers to a positional argument, of which there is none (IndexError); a name
    that is no key raises KeyError.  Simplification: attributes, indices,
    conversions and format specifications ([. [ ! :]) are [Unmodelled]. *)
Definition field (props : list (string * pyval)) (name : string) : res string :=
  if existsb (fun c => contains c name) ["."; "["; "!"; ":"]%char then Err Unmodelled
  else if forallb is_digit (list_ascii_of_string name) then Err IndexError
  else match look_up name props with Some v => value_str show_float v | None => Err KeyError end.
(** string.format( **properties) (wrappers.py:115): [name] is the field being
    read, if any.  "{{" and "}}" stand for single braces; a single closing brace
    and an unfinished field raise ValueError.  Simplification: a brace inside a
    field is [Unmodelled]. *)
Fixpoint format_text (props : list (string * pyval)) (name : option string) (s : string) {struct s} : res string :=
  match name, s with
  | None, EmptyString => Ok EmptyString
  | Some _, EmptyString => Err ValueError
  | None, String c r =>
      if Ascii.eqb c "{" then
        match r with
        | String d r' => if Ascii.eqb d "{" then t <-r format_text props None r' ;; Ok (String c t) else format_text props (Some EmptyString) r
        | EmptyString => Err ValueError
        end
      else if Ascii.eqb c "}" then
        match r with
        | String d r' => if Ascii.eqb d "}" then t <-r format_text props None r' ;; Ok (String c t) else Err ValueError
        | EmptyString => Err ValueError
        end
      else t <-r format_text props None r ;; Ok (String c t)
  | Some f, String c r =>
      if Ascii.eqb c "}" then t <-r field props f ;; u <-r format_text props None r ;; Ok (t ++ u)
      else if Ascii.eqb c "{" then Err Unmodelled
      else format_text props (Some (f ++ String c EmptyString)) r
  end.
(** wrappers.py:105-115 *)
Definition wrapper_repr (w : wrapper) : res string :=
  let properties := to_dict w in
  ts <-r map_res (fun kv => t <-r py_repr (snd kv) ;; Ok (fst kv ++ "=" ++ t)) properties ;;
  format_text properties None (class_name (w_class w) ++ "(" ++ join ", " ts ++ ")").
End Repr.

(** ** hash(v)
    Python's hashes of numbers, texts, tuples and objects (by identity) are left
    open; [Err TypeError] is "unhashable type".  A class that defines __eq__ and
    not __hash__ is unhashable: the units (units.py:78-161), Rect (shapes.py:10),
    Quotes (wrappers.py:70); so are lists.  ImmutableList defines __hash__
    (wrappers.py:197-198). *)
Record hashes := mkHashes { hash_none : Z; hash_num : xq -> Z; hash_text : string -> Z; hash_id : pyval -> Z; hash_tuple : list Z -> Z }.
(** hash of the members, in order. *)
Definition hash_all (hash : pyval -> res Z) : list pyval -> res (list Z) :=
  fix go l := match l with [] => Ok [] | v :: r => t <-r hash v ;; ts <-r go r ;; Ok (t :: ts) end.
(** The object without its contents: what its identity is. *)
Definition identity_of (v : pyval) : pyval :=
  match v with
  | VColor o _ | VSpacing o _ _ | VUri o _ => VObject o
  | _ => v
  end.
(** An int and a float of the same value have the same hash. *)
Fixpoint py_hash (h : hashes) (v : pyval) : res Z :=
  match v with
  | VNone => Ok (hash_none h)
  | VInt z => Ok (hash_num h (Fin (Z2Qc z)))
  | VFloat x => Ok (hash_num h x)
  | VStr s => Ok (hash_text h s)
  | VUnit _ | VRect _ _ _ _ | VQuotes _ | VList _ => Err TypeError
  | VColor _ _ | VSpacing _ _ _ | VUri _ _ | VDefault | VObject _ => Ok (hash_id h (identity_of v))
  | VTuple l => ts <-r hash_all (py_hash h) l ;; Ok (hash_tuple h ts)
  | VCursor l => ts <-r hash_all (py_hash h) l ;; Ok (hash_tuple h [hash_text h "Cursor"; hash_tuple h ts])
  end.
(** ImmutableList.__hash__ (wrappers.py:197-198) for an object of the class of
    that name: ImmutableList itself or Cursor. *)
Definition immutable_hash (h : hashes) (class : string) (l : list pyval) : res Z :=
  ts <-r hash_all (py_hash h) l ;; Ok (hash_tuple h [hash_text h class; hash_tuple h ts]).
