(** * Shorthand parsers -- /repo/src/colosseum/parser.py:250-400 *)
From Coq Require Import ZArith QArith Qcanon Bool String Ascii List.
From Verif Require Import PyNum Units Float64 PyStr Colors Values Parser Choices.
Import ListNotations.
Open Scope string_scope.

(** The components of the border and outline shorthands; the dictionaries
    outline_dict and border_dict (parser.py:302, 370). *)
Inductive comp := CWidth | CStyle | CColor.
(** Equality of dictionary keys (parser.py:268, 337). *)
Definition comp_eqb (a b : comp) : bool :=
  match a, b with CWidth, CWidth | CStyle, CStyle | CColor, CColor => true | _, _ => false end.
(** outline_dict and border_dict (parser.py:302, 370). *)
Definition parts := comp -> option pyval.
(** The empty dictionary (parser.py:302, 370). *)
Definition no_parts : parts := fun _ => None.
(** d[k] = v (parser.py:271, 340). *)
Definition set_part (d : parts) (k : comp) (v : pyval) : parts := fun j => if comp_eqb j k then Some v else d j.

Section Order.
Variable order : list pyval -> list pyval.

(** parser.py:258-274 and 331-343: the first choices that accept the part;
    ValueError and ValidationError make the next one run; a component given
    twice is an error. *)
Fixpoint parse_part (l : list (comp * choices)) (next : nat) (d : parts) (v : pyval) : res (parts * nat) :=
  match l with
  | [] => Err ValueError
  | (k, ch) :: r =>
      match validate order ch next v with
      | Ok (w, next') => match d k with Some _ => Err ValueError | None => Ok (set_part d k w, next') end
      | Err e => if is_value_error e then parse_part r next d v else Err e
      end
  end.
(** parser.py:258-262 *)
Definition outline_table : list (comp * choices) :=
  [(CColor, OUTLINE_COLOR_CHOICES); (CStyle, OUTLINE_STYLE_CHOICES); (CWidth, OUTLINE_WIDTH_CHOICES)].
(** parser.py:325-329 *)
Definition border_table : list (comp * choices) :=
  [(CWidth, BORDER_WIDTH_CHOICES); (CStyle, BORDER_STYLE_CHOICES); (CColor, BORDER_COLOR_CHOICES)].

(** parser.py:303-308, 371-378: at most three parts ([room] more). *)
Fixpoint parse_parts (table : list (comp * choices)) (room : nat) (next : nat) (d : parts) (l : list pyval) : res (parts * nat) :=
  match l with
  | [] => Ok (d, next)
  | v :: r =>
      match room with
      | O => Err ValueError
      | S k => x <-r parse_part table next d v ;; parse_parts table k (snd x) (fst x) r
      end
  end.

(** parser.py:287-295, 355-363: the parts of a shorthand value. *)
Definition shorthand_values (v : pyval) : res (list pyval) :=
  if truthy v then
    match v with
    | VStr s => Ok (map (fun x => VStr (strip x)) (split_ws s))
    | _ => match sequence v with Some l => Ok l | None => Err ValueError end
    end
  else Err ValueError.
(** parser.py:277-310 (outline), 346-380 (border), 383-400 (border_right, ...:
    the direction only affects the names of the keys). *)
Definition parse_shorthand (table : list (comp * choices)) (next : nat) (v : pyval) : res (parts * nat) :=
  l <-r shorthand_values v ;; parse_parts table 3 next no_parts l.
End Order.
