(** * Code of the library that nothing else in it uses: unvalidated_property
      (declaration.py), Box.__repr__ (dimensions.py), is_inline_level_element
      (engine.py) and is_uri (validators.py) *)
From Coq Require Import ZArith QArith Qcanon Bool String Ascii List.
From Verif Require Import PyNum PyStr BoxModel Engine Values Parser Choices Shorthand Decl.
Import ListNotations.
Open Scope string_scope.

(** ** declaration.py:143-164 *)
(** The object of a class with one such property: the attribute behind the
    property, and the rest of the declaration. *)
Record plain := mkPlain { p_slot : option pyval; p_css : css }.
(** declaration.py:147-148 *)
Definition plain_get (initial : pyval) (o : plain) : pyval :=
  match p_slot o with Some v => v | None => initial end.
(** declaration.py:150-153; [!=] is the negation of [==]. *)
Definition plain_set (initial v : pyval) (o : plain) : plain * res unit :=
  if py_eqb v (plain_get initial o) then (o, Ok tt)
  else let '(c, r) := mark_dirty (p_css o) in (mkPlain (Some v) c, r).
(** declaration.py:155-161.  The AttributeError of a node without layout is
    swallowed as well. *)
Definition plain_del (o : plain) : plain * res unit :=
  match p_slot o with
  | None => (o, Ok tt)
  | Some _ => (mkPlain None (fst (mark_dirty (p_css o))), Ok tt)
  end.

(** ** dimensions.py:169-170 *)
Section Repr.
(** Python's text of a float, left open. *)
Context (show_float : xq -> string).
(** The text of a number in the f-string. *)
Definition num_text (n : num) : string := match n with NI z => show_Z z | NF q => show_float (Fin q) end.
(** The text of a width or height: a number, the word auto (constants.py) or None. *)
Definition lval_text (v : lval) : string := match v with LNum n => num_text n | LAuto => "auto" | LNone => "None" end.
(** dimensions.py:170 *)
Definition box_repr (b : box) : string :=
  "<Box (" ++ lval_text (content_width b) ++ "x" ++ lval_text (content_height b) ++ " @ "
    ++ num_text (absolute_content_left b) ++ "," ++ num_text (absolute_content_top b) ++ ")>".
End Repr.

(** ** engine.py:44-50 *)
Definition is_inline_level (s : style) : bool :=
  match st_display s with Some (DInline | DInlineTable | DInlineBlock) => true | _ => false end.

(** ** validators.py:176-183: parser.uri with ValueError as ValidationError. *)
Definition is_uri_value (next : nat) (v : pyval) : res (pyval * nat) := as_validation (uri next v).
