(** * Specifications for C118-C121 *)
From Coq Require Import ZArith QArith Qcanon Bool String Ascii List Permutation Sorted.
From Verif Require Import PyNum Units Float64 PyStr Colors Values Parser Choices Shorthand Decl DeclSpec AcceptSpec Classes.
Import ListNotations.
Open Scope string_scope.
Open Scope Z_scope.

(** The order of numbers with infinities; NaN is below and above nothing. *)
Inductive at_most : xq -> xq -> Prop :=
| at_most_fin a b : (a <= b)%Qc -> at_most (Fin a) (Fin b)
| at_most_neg x : x <> Nan -> at_most (Inf true) x
| at_most_pos x : x <> Nan -> at_most x (Inf false).
Definition in_range (lo hi : option pynum) (x : xq) : Prop :=
  (forall m, lo = Some m -> at_most (pval m) x) /\ (forall m, hi = Some m -> at_most x (pval m)).
Definition proper_bounds (lo hi : option pynum) : Prop := lo <> Some (PF Nan) /\ hi <> Some (PF Nan).
(** [float_value v x]: v denotes the number x: a float, an int (rounded to a
    double, if that is finite), or a text (whatever Python's float() reads). *)
Inductive float_value : pyval -> xq -> Prop :=
| float_float x : float_value (VFloat x) x
| float_int z q : b64 (inject_Z z) = Fin q -> float_value (VInt z) (Fin q)
| float_text s x : py_float s = Ok x -> float_value (VStr s) x.

(** The kinds of values of a property, as the error message names them. *)
Definition kind_text (k : kind) : string :=
  match k with
  | LengthK => "<length>" | IntegerK => "<integer>" | ColorK => "<color>" | SpacingK => "<length> <length>?" | RectK => "<rect>"
  | QuotesK => "[<string> <string>]+"
  | CursorK => "[ [<uri> ,]* [ auto | crosshair | default | pointer | move | e-resize | ne-resize | nw-resize | n-resize | se-resize | sw-resize | s-resize | w-resize | text | wait | help | progress ] ]"
  end.
(** Lengths that may be percentages. *)
Definition takes_percentage (p : longhand) : Prop :=
  match p with
  | L_margin _ | L_padding _ | L_offset _ | L_width | L_height | L_min_width | L_min_height | L_max_width | L_max_height | L_text_indent => True
  | _ => False
  end.
(** What the message of property p mentions; [object_text] is the text of the
    object standing for the default colour. *)
Definition mentioned (object_text : string) (p : longhand) (s : string) : Prop :=
  In s (keywords p) \/ (exists k, kind_of p = Some k /\ s = kind_text k) \/ (takes_percentage p /\ s = "<percentage>")
  \/ ((p = L_color \/ p = L_background_color) /\ s = with_dashes (lower object_text)).
Definition text_before (a b : string) : Prop := String.compare a b = Lt.

(** Keyword arguments as Python passes them: no name twice. *)
Definition distinct_names (kw : list (string * pyval)) : Prop := NoDup (map fst kw).
Definition same_entries (d e : list (string * pyval)) : Prop := Forall2 (fun x y => fst x = fst y /\ equals (snd x) (snd y)) d e.

(** The names a shorthand object takes, in the order it keeps them. *)
Definition part_names (sh : shorthand) : list string :=
  match sh with
  | S_outline => ["outline_color"; "outline_style"; "outline_width"]
  | S_border => ["border_width"; "border_style"; "border_color"]
  | S_border_side STop => ["border_top_width"; "border_top_style"; "border_top_color"]
  | S_border_side SRight => ["border_right_width"; "border_right_style"; "border_right_color"]
  | S_border_side SBottom => ["border_bottom_width"; "border_bottom_style"; "border_bottom_color"]
  | S_border_side SLeft => ["border_left_width"; "border_left_style"; "border_left_color"]
  end.
(** [in_order d names]: the names of d come in the order of [names]. *)
Inductive in_order : list (string * pyval) -> list string -> Prop :=
| in_order_nil : in_order [] []
| in_order_skip d k names : in_order d names -> in_order d (k :: names)
| in_order_keep d k v names : in_order d names -> in_order ((k, v) :: d) (k :: names).

(** The module-level constants: one object for each keyword, [table] giving its
    identity. *)
Definition the_object (table : pyval -> nat) (v : pyval) : obj := mkObj (table v) v.
(** The constant a keyword stands for. *)
Definition constant_for (s : string) : pyval := if String.eqb s "none" then VNone else VStr s.
