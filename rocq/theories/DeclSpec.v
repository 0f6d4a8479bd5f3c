(** * Specifications for the style declaration properties *)
From Coq Require Import ZArith QArith Qcanon Bool String Ascii List Permutation.
From Verif Require Import PyNum Units Float64 PyStr Colors Values Parser Choices Shorthand Decl.
Import ListNotations.
Open Scope string_scope.

(** Any iteration order of the sets: a permutation of their members. *)
Definition valid_order (ho : hash_order) : Prop :=
  (forall l, Permutation l (ho_set ho l)) /\ Permutation all_props (ho_names ho).
(** A concrete one. *)
Definition plain_order : hash_order := mkHO (fun l => l) all_props.

(** ** Names *)
(** The names of the properties in CSS 2.1. *)
Definition side_word (s : side) : string := match s with STop => "top" | SRight => "right" | SBottom => "bottom" | SLeft => "left" end.
Definition css_name (p : prop) : string :=
  match p with
  | Long (L_margin s) => "margin-" ++ side_word s | Long (L_padding s) => "padding-" ++ side_word s
  | Long (L_border_width s) => "border-" ++ side_word s ++ "-width" | Long (L_border_color s) => "border-" ++ side_word s ++ "-color"
  | Long (L_border_style s) => "border-" ++ side_word s ++ "-style" | Long (L_offset s) => side_word s
  | Long L_display => "display" | Long L_position => "position" | Long L_float => "float" | Long L_clear => "clear" | Long L_z_index => "z-index"
  | Long L_direction => "direction" | Long L_unicode_bidi => "unicode-bidi"
  | Long L_width => "width" | Long L_min_width => "min-width" | Long L_max_width => "max-width"
  | Long L_height => "height" | Long L_min_height => "min-height" | Long L_max_height => "max-height"
  | Long L_overflow => "overflow" | Long L_clip => "clip" | Long L_visibility => "visibility" | Long L_quotes => "quotes"
  | Long L_page_break_before => "page-break-before" | Long L_page_break_after => "page-break-after" | Long L_page_break_inside => "page-break-inside"
  | Long L_orphans => "orphans" | Long L_widows => "widows" | Long L_color => "color" | Long L_background_color => "background-color"
  | Long L_text_indent => "text-indent" | Long L_text_align => "text-align" | Long L_text_decoration => "text-decoration"
  | Long L_letter_spacing => "letter-spacing" | Long L_word_spacing => "word-spacing" | Long L_text_transform => "text-transform" | Long L_white_space => "white-space"
  | Long L_caption_side => "caption-side" | Long L_table_layout => "table-layout" | Long L_border_collapse => "border-collapse"
  | Long L_border_spacing => "border-spacing" | Long L_empty_cells => "empty-cells" | Long L_cursor => "cursor"
  | Long L_outline_width => "outline-width" | Long L_outline_style => "outline-style" | Long L_outline_color => "outline-color"
  | Dir D_margin => "margin" | Dir D_padding => "padding" | Dir D_border_width => "border-width" | Dir D_border_color => "border-color" | Dir D_border_style => "border-style"
  | Short (S_border_side s) => "border-" ++ side_word s | Short S_border => "border" | Short S_outline => "outline"
  end.
(** A text with an underscore for every dash, and the reverse. *)
Fixpoint with_underscores (s : string) : string :=
  match s with EmptyString => "" | String "-" r => String "_" (with_underscores r) | String c r => String c (with_underscores r) end.
Fixpoint with_dashes (s : string) : string :=
  match s with EmptyString => "" | String "_" r => String "-" (with_dashes r) | String c r => String c (with_dashes r) end.
(** The name of the attribute, and of the key in keys(). *)
Definition python_name (p : prop) : string := with_underscores (css_name p).
(** [name] is the name of [p], with dashes or underscores. *)
Definition names_prop (name : string) (p : prop) : Prop := with_underscores name = python_name p.

(** [equals a b]: the two values compare equal.  Numbers by value, whatever
    their type (NaN equals nothing); lengths if they have the same unit and
    equal magnitudes, and a pixel length also equals its magnitude as an
    integer; text, tuples and lists by contents (a cursor is a list); rectangles
    by their lengths; the objects without an equality of their own (colours,
    border spacings, urls) by identity. *)
Inductive same_unit : ukind -> ukind -> Prop :=
| same_px : same_unit KPx KPx
| same_pct : same_unit KPct KPct
| same_font s : same_unit (KFont s) (KFont s)
| same_abs s q r : same_unit (KAbs s q) (KAbs s r)
| same_vp s x y : same_unit (KVp s x) (KVp s y)
| same_angle s q r : same_unit (KAngle s q) (KAngle s r).
Definition same_number (x y : xq) : Prop := x = y /\ x <> Nan.
Definition same_length (u v : unit_) : Prop := same_unit (u_kind u) (u_kind v) /\ same_number (pval (u_val u)) (pval (u_val v)).
Inductive number : pyval -> xq -> Prop :=
| number_int z : number (VInt z) (Fin (Z2Qc z))
| number_float x : number (VFloat x) x.
Inductive is_list : pyval -> list pyval -> Prop :=
| list_list l : is_list (VList l) l
| list_cursor l : is_list (VCursor l) l.
Inductive equals : pyval -> pyval -> Prop :=
| eq_none : equals VNone VNone
| eq_number a b x y : number a x -> number b y -> same_number x y -> equals a b
| eq_text s : equals (VStr s) (VStr s)
| eq_length u v : same_length u v -> equals (VUnit u) (VUnit v)
| eq_length_int u z : u_kind u = KPx -> pval (u_val u) = Fin (Z2Qc z) -> equals (VUnit u) (VInt z)
| eq_int_length u z : u_kind u = KPx -> pval (u_val u) = Fin (Z2Qc z) -> equals (VInt z) (VUnit u)
| eq_color o c d : equals (VColor o c) (VColor o d)
| eq_tuple l m : Forall2 equals l m -> equals (VTuple l) (VTuple m)
| eq_lists a b l m : is_list a l -> is_list b m -> Forall2 equals l m -> equals a b
| eq_spacing o h v h' v' : equals (VSpacing o h v) (VSpacing o h' v')
| eq_rect t r l b t' r' l' b' : same_length t t' -> same_length r r' -> same_length l l' -> same_length b b' ->
    equals (VRect t r l b) (VRect t' r' l' b')
| eq_quotes l : equals (VQuotes l) (VQuotes l)
| eq_uri o u v : equals (VUri o u) (VUri o v)
| eq_default : equals VDefault VDefault
| eq_object o : equals (VObject o) (VObject o).

(** [follows q p]: while unset, q reads as a function of p. *)
Inductive follows : longhand -> longhand -> Prop :=
| follows_color s : follows (L_border_color s) L_color
| follows_direction : follows L_text_align L_direction.

(** The declaration is not bound to a node that has no layout yet (assigning
    to such a declaration stores the value and then raises AttributeError). *)
Definition has_layout (c : css) : Prop := c_node c <> Some None.

(** Two declarations hold the same attributes and node state. *)
Definition same_css (a b : css) : Prop := (forall p, c_store a p = c_store b p) /\ c_node a = c_node b.

(** The declaration reads the same everywhere. *)
Definition reads_same (ho : hash_order) (a b : css) : Prop := forall p, get_prop ho a p = get_prop ho b p.

(** The longhands a property name stands for. *)
Definition four (f : side -> longhand) : list longhand := [f STop; f SRight; f SBottom; f SLeft].
Definition longhands_of (p : prop) : list longhand :=
  match p with
  | Long l => [l]
  | Dir D_margin => four L_margin
  | Dir D_padding => four L_padding
  | Dir D_border_width => four L_border_width
  | Dir D_border_color => four L_border_color
  | Dir D_border_style => four L_border_style
  | Short (S_border_side s) => [L_border_width s; L_border_style s; L_border_color s]
  | Short S_border => (four L_border_width ++ four L_border_style ++ four L_border_color)%list
  | Short S_outline => [L_outline_color; L_outline_style; L_outline_width]
  end.

(** The initial values (CSS 2.1 property index; a length 0 is 0px), for the
    longhands whose initial value does not follow another property.  Two values
    are the library's own: colours start as the object [default], and min-width
    and min-height start as auto. *)
Definition zero_px : pyval := VUnit (mkU KPx (PI 0)).
Definition css_initial (p : longhand) : pyval :=
  match p with
  | L_margin _ | L_padding _ | L_border_width _ | L_text_indent => zero_px
  | L_border_spacing => VSpacing (OId 0) (mkU KPx (PI 0)) None
  | L_border_style _ | L_float | L_clear | L_max_width | L_max_height | L_text_decoration | L_text_transform
  | L_outline_style => VNone
  | L_display => VStr "inline"
  | L_position => VStr "static"
  | L_offset _ | L_z_index | L_width | L_min_width | L_height | L_min_height | L_clip | L_page_break_before
  | L_page_break_after | L_page_break_inside | L_table_layout => VStr "auto"
  | L_cursor => VCursor [VStr "auto"]
  | L_direction => VStr "ltr"
  | L_unicode_bidi | L_letter_spacing | L_word_spacing | L_white_space => VStr "normal"
  | L_overflow | L_visibility => VStr "visible"
  | L_quotes => VStr "initial"
  | L_orphans | L_widows => VInt 2
  | L_caption_side => VStr "top"
  | L_border_collapse => VStr "separate"
  | L_empty_cells => VStr "show"
  | L_outline_width => VStr "medium"
  | L_outline_color => VStr "invert"
  | L_color | L_background_color | L_border_color _ | L_text_align => VDefault
  end.
Definition follower (p : longhand) : Prop := exists q, follows p q.

(** CSS 2.1, 8.3: one value for all sides; two for top/bottom and right/left;
    three for top, right/left, bottom; four for top, right, bottom, left.  A
    value that is not a tuple counts as one. *)
Definition clockwise (l : list pyval) : option (side -> pyval) :=
  match l with
  | [a] => Some (fun _ => a)
  | [a; b] => Some (fun s => match s with STop | SBottom => a | SRight | SLeft => b end)
  | [a; b; c] => Some (fun s => match s with STop => a | SBottom => c | SRight | SLeft => b end)
  | [a; b; c; d] => Some (fun s => match s with STop => a | SRight => b | SBottom => c | SLeft => d end)
  | _ => None
  end.
Definition sides_of (v : pyval) : option (side -> pyval) :=
  match v with VTuple l => clockwise l | _ => clockwise [v] end.
Definition side_prop (d : directional) (s : side) : longhand :=
  match d with
  | D_margin => L_margin s | D_padding => L_padding s | D_border_width => L_border_width s
  | D_border_color => L_border_color s | D_border_style => L_border_style s
  end.

(** The longhands that a component of a shorthand stands for. *)
Definition component (sh : shorthand) (k : comp) : list longhand :=
  match sh, k with
  | S_border_side s, CWidth => [L_border_width s]
  | S_border_side s, CStyle => [L_border_style s]
  | S_border_side s, CColor => [L_border_color s]
  | S_border, CWidth => four L_border_width
  | S_border, CStyle => four L_border_style
  | S_border, CColor => four L_border_color
  | S_outline, CWidth => [L_outline_width]
  | S_outline, CStyle => [L_outline_style]
  | S_outline, CColor => [L_outline_color]
  end.
(** [reads_as ho c q v]: q reads as a value equal to the validated form of v. *)
Definition reads_as (ho : hash_order) (c : css) (q : longhand) (v : pyval) : Prop :=
  exists m w m' r, validate (ho_set ho) (choices_of q) m v = Ok (w, m')
    /\ get_prop ho c (Long q) = Ok (RValue r) /\ (r = w \/ equals w r).

(** [escapes p v]: the values for which assigning to p may fail with an
    exception other than ValueError. *)
Inductive escapes : longhand -> pyval -> Prop :=
| empty_color p : In p [L_color; L_background_color; L_outline_color] \/ (exists s, p = L_border_color s) -> escapes p (VStr "")
| hsl_color p s : In p [L_color; L_background_color; L_outline_color] \/ (exists s, p = L_border_color s) ->
    startswith "hsl" s = true -> escapes p (VStr s)
| infinite_integer p b : In p [L_z_index; L_orphans; L_widows] -> escapes p (VFloat (Inf b))
| clip_not_text v : (forall s, v <> VStr s) -> escapes L_clip v
| spacing_other v : (forall s, v <> VStr s) -> (forall z, v <> VInt z) -> (forall x, v <> VFloat x) -> sequence v = None ->
    escapes L_border_spacing v
| cursor_other v : (forall s, v <> VStr s) -> sequence v = None -> escapes L_cursor v
| quotes_any v : (exists s, v = VStr s) \/ sequence v <> None -> escapes L_quotes v.

(** [fixed_point v]: a value the parsers accept unchanged: not an angle, not a
    BorderSpacing, Rect or Quotes object, and not a cursor with urls. *)
Definition is_string (v : pyval) : bool := match v with VStr _ => true | _ => false end.
Definition fixed_point (v : pyval) : Prop :=
  match v with
  | VUnit u => match u_kind u with KAngle _ _ => False | _ => True end
  | VSpacing _ _ _ | VRect _ _ _ _ | VQuotes _ => False
  | VCursor l => forallb is_string l = true
  | _ => True
  end.
