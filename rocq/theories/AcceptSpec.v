(** * What each property accepts: keywords and kinds of values *)
From Coq Require Import ZArith QArith Qcanon Bool String Ascii List.
From Verif Require Import PyNum Units Float64 PyStr Colors Values Parser Choices Decl DeclSpec ParseSpec ParserSpec.
Import ListNotations.
Open Scope string_scope.

(** The keywords of each property (CSS 2.1 property index, restricted to the
    ones the library supports; the library supports "inherit" for some
    properties only).  The keywords of cursor are values of the kind [CursorK]. *)
Definition line_style_words : list string :=
  ["none"; "hidden"; "dotted"; "dashed"; "solid"; "double"; "groove"; "ridge"; "inset"; "outset"].
Definition keywords (p : longhand) : list string :=
  match p with
  | L_margin _ => ["auto"]
  | L_padding _ => []
  | L_border_width _ => ["thin"; "medium"; "thick"]
  | L_border_color _ => ["transparent"; "initial"; "inherit"; "unset"; "revert"]
  | L_border_style _ => line_style_words
  | L_display => ["inline"; "block"; "list-item"; "inline-block"; "table"; "inline-table"; "table-row-group"; "table-header-group";
      "table-footer-group"; "table-row"; "table-column-group"; "table-column"; "table-cell"; "table-caption"; "none";
      "flex"; "inline-flex"; "grid"; "inline-grid"]
  | L_position => ["static"; "relative"; "absolute"; "fixed"]
  | L_offset _ => ["auto"; "inherit"]
  | L_float => ["left"; "right"; "none"]
  | L_clear => ["none"; "left"; "right"; "both"]
  | L_z_index => ["auto"]
  | L_direction => ["ltr"; "rtl"]
  | L_unicode_bidi => ["normal"; "embed"; "bidi-override"]
  | L_width | L_height | L_min_width | L_min_height => ["auto"]
  | L_max_width | L_max_height => ["none"]
  | L_overflow => ["visible"; "hidden"; "scroll"; "auto"; "inherit"]
  | L_clip => ["auto"; "inherit"]
  | L_visibility => ["visible"; "hidden"; "collapse"]
  | L_quotes => ["none"; "initial"; "inherit"]
  | L_page_break_before | L_page_break_after => ["auto"; "always"; "avoid"; "left"; "right"; "inherit"]
  | L_page_break_inside => ["avoid"; "auto"; "inherit"]
  | L_orphans | L_widows => ["inherit"]
  | L_color => []
  | L_background_color => ["transparent"]
  | L_text_indent => ["inherit"]
  | L_text_align => ["left"; "right"; "center"; "justify"; "inherit"]
  | L_text_decoration => ["none"; "underline"; "overline"; "line-through"; "blink"; "inherit"]
  | L_letter_spacing | L_word_spacing => ["normal"; "inherit"]
  | L_text_transform => ["capitalize"; "uppercase"; "lowercase"; "none"; "inherit"]
  | L_white_space => ["normal"; "pre"; "nowrap"; "pre-wrap"; "pre-line"; "inherit"]
  | L_caption_side => ["top"; "bottom"; "inherit"]
  | L_table_layout => ["auto"; "fixed"; "inherit"]
  | L_border_collapse => ["collapse"; "separate"; "inherit"]
  | L_border_spacing => ["inherit"]
  | L_empty_cells => ["show"; "hide"; "inherit"]
  | L_cursor => ["inherit"]
  | L_outline_width => ["thin"; "medium"; "thick"; "inherit"]
  | L_outline_style => (line_style_words ++ ["inherit"])%list
  | L_outline_color => ["invert"; "inherit"]
  end.
Inductive kind := LengthK | IntegerK | ColorK | SpacingK | RectK | QuotesK | CursorK.
Definition kind_of (p : longhand) : option kind :=
  match p with
  | L_margin _ | L_padding _ | L_border_width _ | L_offset _ | L_width | L_height | L_min_width | L_min_height
  | L_max_width | L_max_height | L_text_indent | L_letter_spacing | L_word_spacing | L_outline_width => Some LengthK
  | L_border_color _ | L_color | L_background_color | L_outline_color => Some ColorK
  | L_z_index | L_orphans | L_widows => Some IntegerK
  | L_border_spacing => Some SpacingK
  | L_clip => Some RectK
  | L_quotes => Some QuotesK
  | L_cursor => Some CursorK
  | _ => None
  end.

(** [length_value v u]: v denotes the length u: a number of pixels, a text made
    of a number (whatever Python's float() reads) and possibly a unit, or a unit object. *)
Inductive length_value : pyval -> unit_ -> Prop :=
| length_object u : ~ is_angle u -> length_value (VUnit u) u
| length_int z : length_value (VInt z) (mkU KPx (PI z))
| length_float x : length_value (VFloat x) (mkU KPx (PF x))
| length_bare d x : py_float d = Ok x -> length_value (VStr d) (mkU KPx (PF x))
| length_unit d x t k : py_float d = Ok x -> In (t, k) css_units -> length_value (VStr (d ++ t)) (mkU k (PF x)).
(** [integer_value v z]: v denotes the integer z: an int, a finite float (cut
    towards zero), or a text (whatever Python's int() reads). *)
Inductive integer_value : pyval -> Z -> Prop :=
| integer_int z : integer_value (VInt z) z
| integer_down q z : (Z2Qc z <= q)%Qc -> (q < Z2Qc (z + 1))%Qc -> (0 <= q)%Qc -> integer_value (VFloat (Fin q)) z
| integer_up q z : (q <= Z2Qc z)%Qc -> (Z2Qc (z - 1) < q)%Qc -> (q <= 0)%Qc -> integer_value (VFloat (Fin q)) z
| integer_text s z : py_int s = Ok z -> integer_value (VStr s) z.
(** The values of a kind, and what is stored for them.  The notations of
    colours, spacings, rectangles, quotes and cursors are the subject of
    properties C10-C14 and C89-C96. *)
Definition takes (k : kind) (n : nat) (v w : pyval) (n' : nat) : Prop :=
  match k with
  | LengthK => exists u, length_value v u /\ w = VUnit u /\ n' = n
  | IntegerK => exists z, integer_value v z /\ w = VInt z /\ n' = n
  | ColorK => color n v = Ok (w, n')
  | SpacingK => border_spacing n v = Ok (w, n')
  | RectK => rect v = Ok w /\ n' = n
  | QuotesK => quotes v = Ok w /\ n' = n
  | CursorK => cursor n v = Ok (w, n')
  end.
(** [accepts p n v w n']: p accepts v and takes it as w (n and n' count the
    objects created).  "none" is the same as None. *)
Inductive accepts (p : longhand) (n : nat) : pyval -> pyval -> nat -> Prop :=
| accepts_kind k v w n' : kind_of p = Some k -> takes k n v w n' -> accepts p n v w n'
| accepts_keyword s : In s (keywords p) -> s <> "none" -> accepts p n (VStr s) (VStr s) n
| accepts_none_word : In "none" (keywords p) -> accepts p n (VStr "none") VNone n
| accepts_none : In "none" (keywords p) -> accepts p n VNone VNone n
| accepts_default : p = L_color \/ p = L_background_color -> accepts p n VDefault VDefault n.
