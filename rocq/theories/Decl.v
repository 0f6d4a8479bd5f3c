(** * Style declarations -- /repo/src/colosseum/declaration.py *)
From Coq Require Import ZArith QArith Qcanon Bool String Ascii List.
From Verif Require Import PyNum Units Float64 PyStr Colors Values Parser Choices Shorthand.
Import ListNotations.
Open Scope string_scope.

(** ** Properties *)
Inductive side := STop | SRight | SBottom | SLeft.
(** The properties defined with validated_property (declaration.py:290-582). *)
Inductive longhand :=
| L_margin (s : side) | L_padding (s : side)
| L_border_width (s : side) | L_border_color (s : side) | L_border_style (s : side)
| L_display | L_position | L_offset (s : side) | L_float | L_clear | L_z_index | L_direction | L_unicode_bidi
| L_width | L_min_width | L_max_width | L_height | L_min_height | L_max_height
| L_overflow | L_clip | L_visibility | L_quotes
| L_page_break_before | L_page_break_after | L_page_break_inside | L_orphans | L_widows
| L_color | L_background_color | L_text_indent | L_text_align | L_text_decoration
| L_letter_spacing | L_word_spacing | L_text_transform | L_white_space
| L_caption_side | L_table_layout | L_border_collapse | L_border_spacing | L_empty_cells
| L_cursor | L_outline_width | L_outline_style | L_outline_color.
(** directional_property (declaration.py:296, 309, 325, 346, 361) *)
Inductive directional := D_margin | D_padding | D_border_width | D_border_color | D_border_style.
(** validated_shorthand_property (declaration.py:364-378, 583-585) *)
Inductive shorthand := S_border_side (s : side) | S_border | S_outline.
(** The members of _CSS_PROPERTIES by the way they are defined. *)
Inductive prop := Long (l : longhand) | Dir (d : directional) | Short (s : shorthand).

(** The directions of declaration.py:226-229. *)
Definition side_name (s : side) : string :=
  match s with STop => "top" | SRight => "right" | SBottom => "bottom" | SLeft => "left" end.
(** The attribute names (declaration.py:290-582). *)
Definition long_name (l : longhand) : string :=
  match l with
  | L_margin s => "margin_" ++ side_name s
  | L_padding s => "padding_" ++ side_name s
  | L_border_width s => "border_" ++ side_name s ++ "_width"
  | L_border_color s => "border_" ++ side_name s ++ "_color"
  | L_border_style s => "border_" ++ side_name s ++ "_style"
  | L_display => "display" | L_position => "position" | L_offset s => side_name s
  | L_float => "float" | L_clear => "clear" | L_z_index => "z_index"
  | L_direction => "direction" | L_unicode_bidi => "unicode_bidi"
  | L_width => "width" | L_min_width => "min_width" | L_max_width => "max_width"
  | L_height => "height" | L_min_height => "min_height" | L_max_height => "max_height"
  | L_overflow => "overflow" | L_clip => "clip" | L_visibility => "visibility" | L_quotes => "quotes"
  | L_page_break_before => "page_break_before" | L_page_break_after => "page_break_after"
  | L_page_break_inside => "page_break_inside" | L_orphans => "orphans" | L_widows => "widows"
  | L_color => "color" | L_background_color => "background_color" | L_text_indent => "text_indent"
  | L_text_align => "text_align" | L_text_decoration => "text_decoration"
  | L_letter_spacing => "letter_spacing" | L_word_spacing => "word_spacing"
  | L_text_transform => "text_transform" | L_white_space => "white_space"
  | L_caption_side => "caption_side" | L_table_layout => "table_layout"
  | L_border_collapse => "border_collapse" | L_border_spacing => "border_spacing"
  | L_empty_cells => "empty_cells" | L_cursor => "cursor"
  | L_outline_width => "outline_width" | L_outline_style => "outline_style" | L_outline_color => "outline_color"
  end.
(** declaration.py:271 (name % "") for 296, 309, 325, 346, 361. *)
Definition dir_name (d : directional) : string :=
  match d with
  | D_margin => "margin" | D_padding => "padding" | D_border_width => "border_width"
  | D_border_color => "border_color" | D_border_style => "border_style"
  end.
(** declaration.py:364-378, 583-585. *)
Definition short_name (s : shorthand) : string :=
  match s with
  | S_border_side s => "border_" ++ side_name s | S_border => "border" | S_outline => "outline"
  end.
(** The attribute name of a property. *)
Definition prop_name (p : prop) : string :=
  match p with Long l => long_name l | Dir d => dir_name d | Short s => short_name s end.

(** The order top, right, bottom, left of declaration.py:226-269. *)
Definition sides := [STop; SRight; SBottom; SLeft].
(** declaration.py:290-582, all uses of validated_property. *)
Definition all_longhands : list longhand :=
  (map L_margin sides ++ map L_padding sides ++ map L_border_width sides ++ map L_border_color sides
   ++ map L_border_style sides ++ [L_display; L_position] ++ map L_offset sides ++
   [L_float; L_clear; L_z_index; L_direction; L_unicode_bidi; L_width; L_min_width; L_max_width; L_height;
    L_min_height; L_max_height; L_overflow; L_clip; L_visibility; L_quotes; L_page_break_before; L_page_break_after;
    L_page_break_inside; L_orphans; L_widows; L_color; L_background_color; L_text_indent; L_text_align;
    L_text_decoration; L_letter_spacing; L_word_spacing; L_text_transform; L_white_space; L_caption_side;
    L_table_layout; L_border_collapse; L_border_spacing; L_empty_cells; L_cursor; L_outline_width; L_outline_style;
    L_outline_color])%list.
(** The members of the set _CSS_PROPERTIES (declaration.py:94 and the .add
    calls at 139, 163, 217, 271-275). *)
Definition all_props : list prop :=
  (map Long all_longhands ++ map Dir [D_margin; D_padding; D_border_width; D_border_color; D_border_style]
   ++ map Short (map S_border_side sides ++ [S_border; S_outline]))%list.
(** name in _CSS_PROPERTIES, and the attribute of that name. *)
Fixpoint find_prop (l : list prop) (name : string) : option prop :=
  match l with
  | [] => None
  | p :: r => if String.eqb (prop_name p) name then Some p else find_prop r name
  end.
(** The property called [name], if any. *)
Definition prop_of_name (name : string) : option prop := find_prop all_props name.
(** name.replace("-", "_") *)
Definition underscored (name : string) : string := replace_char "-" "_" name.
(** name.replace("_", "-") (declaration.py:757). *)
Definition dashed (name : string) : string := replace_char "_" "-" name.

(** Names are distinct: properties are compared instead of names. *)
Definition longhand_eq_dec (a b : longhand) : {a = b} + {a <> b}.
Proof. decide equality; decide equality. Defined.
(** The same as a boolean. *)
Definition lh_eqb (a b : longhand) : bool := if longhand_eq_dec a b then true else false.

(** The choices of each property (declaration.py:290-582). *)
Definition choices_of (p : longhand) : choices :=
  match p with
  | L_margin _ => MARGIN_CHOICES | L_padding _ => PADDING_CHOICES
  | L_border_width _ => BORDER_WIDTH_CHOICES | L_border_color _ => BORDER_COLOR_CHOICES
  | L_border_style _ => BORDER_STYLE_CHOICES
  | L_display => DISPLAY_CHOICES | L_position => POSITION_CHOICES | L_offset _ => BOX_OFFSET_CHOICES
  | L_float => FLOAT_CHOICES | L_clear => CLEAR_CHOICES | L_z_index => Z_INDEX_CHOICES
  | L_direction => DIRECTION_CHOICES | L_unicode_bidi => UNICODE_BIDI_CHOICES
  | L_width | L_height => SIZE_CHOICES | L_min_width | L_min_height => MIN_SIZE_CHOICES
  | L_max_width | L_max_height => MAX_SIZE_CHOICES
  | L_overflow => OVERFLOW_CHOICES | L_clip => CLIP_CHOICES | L_visibility => VISIBILITY_CHOICES
  | L_quotes => QUOTES_CHOICES
  | L_page_break_before | L_page_break_after => PAGE_BREAK_CHOICES
  | L_page_break_inside => PAGE_BREAK_INSIDE_CHOICES
  | L_orphans | L_widows => LINES_CHOICES
  | L_color => COLOR_CHOICES | L_background_color => BACKGROUND_COLOR_CHOICES
  | L_text_indent => TEXT_INDENT_CHOICES | L_text_align => TEXT_ALIGN_CHOICES
  | L_text_decoration => TEXT_DECORATION_CHOICES
  | L_letter_spacing | L_word_spacing => SPACING_CHOICES
  | L_text_transform => TEXT_TRANSFORM_CHOICES | L_white_space => WHITE_SPACE_CHOICES
  | L_caption_side => CAPTION_SIDE_CHOICES | L_table_layout => TABLE_LAYOUT_CHOICES
  | L_border_collapse => BORDER_COLLAPSE_CHOICES | L_border_spacing => BORDER_SPACING_CHOICES
  | L_empty_cells => EMPTY_CELLS_CHOICES | L_cursor => CURSOR_CHOICES
  | L_outline_width => OUTLINE_WIDTH_CHOICES | L_outline_style => OUTLINE_STYLE_CHOICES
  | L_outline_color => OUTLINE_COLOR_CHOICES
  end.

(** The initial values (declaration.py:290-582): a value, OtherProperty("color")
    (constants.py:56-72) or TextAlignInitialValue() (constants.py:434-444). *)
Inductive initial_t := IVal (v : pyval) | IColor | ITextAlign.
(** The argument initial= of each validated_property (declaration.py:290-582). *)
Definition written_initial (p : longhand) : initial_t :=
  match p with
  | L_margin _ | L_padding _ | L_border_width _ | L_text_indent | L_border_spacing => IVal (VInt 0)
  | L_border_color _ => IColor
  | L_border_style _ | L_float | L_clear | L_max_width | L_max_height | L_text_decoration | L_text_transform
  | L_outline_style => IVal VNone
  | L_display => IVal (VStr "inline")
  | L_position => IVal (VStr "static")
  | L_offset _ | L_z_index | L_width | L_min_width | L_height | L_min_height | L_clip | L_page_break_before
  | L_page_break_after | L_page_break_inside | L_table_layout | L_cursor => IVal AUTO
  | L_direction => IVal (VStr "ltr")
  | L_unicode_bidi | L_letter_spacing | L_word_spacing | L_white_space => IVal (VStr "normal")
  | L_overflow | L_visibility => IVal (VStr "visible")
  | L_quotes => IVal INITIAL
  | L_orphans | L_widows => IVal (VInt 2)
  | L_color | L_background_color => IVal VDefault
  | L_text_align => ITextAlign
  | L_caption_side => IVal (VStr "top")
  | L_border_collapse => IVal (VStr "separate")
  | L_empty_cells => IVal (VStr "show")
  | L_outline_width => IVal (VStr "medium")
  | L_outline_color => IVal (VStr "invert")
  end.

(** The iteration orders of the two kinds of sets the library iterates over
    (they depend on PYTHONHASHSEED): the constants of a Choices object
    (constants.py:19,34) and _CSS_PROPERTIES (declaration.py:94). *)
Record hash_order := mkHO { ho_set : list pyval -> list pyval; ho_names : list prop }.

(** ** The declaration object *)
(** [c_store p] is the attribute "_" + name of the property p, if present.
    [c_node] is self._node: None, or a node whose layout attribute is None or a
    Box with the given dirty flag.  Simplification: of the bound node only this
    flag is kept (Box.dirty also marks the children, see BoxModel.v). *)
Record css := mkCss { c_store : longhand -> option pyval; c_node : option (option bool) }.
(** CSS() (declaration.py:280-282). *)
Definition fresh_css : css := mkCss (fun _ => None) None.
(** setattr(self, "_" + name, value), or delattr for None (declaration.py:206, 211). *)
Definition set_store (c : css) (p : longhand) (v : option pyval) : css :=
  mkCss (fun q => if lh_eqb q p then v else c_store c q) (c_node c).
(** declaration.py:674-677: the setter of dirty, with value True. *)
Definition mark_dirty (c : css) : css * res unit :=
  match c_node c with
  | None => (c, Ok tt)
  | Some None => (c, Err AttributeError)
  | Some (Some _) => (mkCss (c_store c) (Some (Some true)), Ok tt)
  end.

(** A statement acting on a declaration; the second component of the state is
    the number of objects created so far. *)
Definition cm (A : Type) : Type := css -> nat -> css * nat * res A.
(** A statement without effect. *)
Definition ret {A} (a : A) : cm A := fun c n => (c, n, Ok a).
(** raise (no effect on the state). *)
Definition raise {A} (e : exn) : cm A := fun c n => (c, n, Err e).
(** One statement after another; an exception keeps the effects so far. *)
Definition bind {A B} (m : cm A) (f : A -> cm B) : cm B :=
  fun c n => match m c n with
             | (c', n', Ok a) => f a c' n'
             | (c', n', Err e) => (c', n', Err e)
             end.
(** Notation for [bind] without a result. *)
Notation "m ;;c k" := (bind m (fun _ => k)) (at level 62, right associativity).
(** [try: m except AttributeError: pass] *)
Definition swallow (m : cm unit) : cm unit :=
  fun c n => match m c n with
             | (c', n', Err AttributeError) => (c', n', Ok tt)
             | r => r
             end.
(** self.dirty = True (declaration.py:128, 134, 207, 212). *)
Definition dirty : cm unit := fun c n => let (c', r) := mark_dirty c in (c', n, r).
(** for x in l: f(x). *)
Fixpoint each {A} (f : A -> cm unit) (l : list A) : cm unit :=
  match l with [] => ret tt | x :: r => f x ;;c each f r end.

Section Order.
Variable ho : hash_order.

(** declaration.py:169-186: the initial value after choices.validate. *)
Definition initial_of (p : longhand) : initial_t :=
  match written_initial p with
  | IVal v => match validate (ho_set ho) (choices_of p) 0 v with Ok (w, _) => IVal w | Err _ => IVal v end
  | i => i
  end.

(** ** validated_property (declaration.py:167-218) *)
(** [getattr(self, "_name", initial)] as used by the setter (205). *)
Definition stored_or_initial (c : css) (p : longhand) : initial_t :=
  match c_store c p with Some v => IVal v | None => initial_of p end.
(** getattr(context, name) for the properties OtherProperty and TextAlignInitialValue read (constants.py:70, 437). *)
Definition plain_get (c : css) (p : longhand) : pyval :=
  match stored_or_initial c p with IVal v => v | _ => VNone end.
(** initial.value(self): constants.py:68-72 and 435-444; declaration.py:189-193 *)
Definition initial_value (c : css) (i : initial_t) : res pyval :=
  match i with
  | IVal v => Ok v
  | IColor => Ok (plain_get c L_color)
  | ITextAlign =>
      if py_eqb (plain_get c L_direction) (VStr "ltr") then Ok (VStr "left")
      else if py_eqb (plain_get c L_direction) (VStr "rtl") then Ok (VStr "right")
      else Err ValueError
  end.
(** declaration.py:188-195 *)
Definition get_long (c : css) (p : longhand) : res pyval :=
  v <-r initial_value c (initial_of p) ;;
  Ok (match c_store c p with Some w => w | None => v end).
(** value == getattr(self, "_name", initial) (declaration.py:205); OtherProperty and TextAlignInitialValue objects equal no value. *)
Definition same_value (w : pyval) (i : initial_t) : bool :=
  match i with IVal v => py_eqb w v | _ => false end.
(** declaration.py:197-207 *)
Definition set_long (p : longhand) (v : pyval) : cm unit :=
  fun c n =>
    match validate (ho_set ho) (choices_of p) n v with
    | Err e => (c, n, Err (if is_value_error e then ValueError else e))
    | Ok (w, n') =>
        if same_value w (stored_or_initial c p) then (c, n', Ok tt)
        else dirty (set_store c p (Some w)) n'
    end.
(** declaration.py:209-215 *)
Definition del_long (p : longhand) : cm unit :=
  fun c n =>
    match c_store c p with
    | None => (c, n, Ok tt)
    | Some _ => swallow dirty (set_store c p None) n
    end.

(** ** directional_property (declaration.py:221-276) *)
Definition dir_side (d : directional) (s : side) : longhand :=
  match d with
  | D_margin => L_margin s | D_padding => L_padding s | D_border_width => L_border_width s
  | D_border_color => L_border_color s | D_border_style => L_border_style s
  end.
(** declaration.py:224-230 *)
Definition get_dir (c : css) (d : directional) : res (list pyval) :=
  map_res (fun s => get_long c (dir_side d s)) sides.
(** declaration.py:235-238: four assignments in this order. *)
Definition set_sides (d : directional) (t r b l : pyval) : cm unit :=
  set_long (dir_side d STop) t ;;c set_long (dir_side d SRight) r ;;c
  set_long (dir_side d SBottom) b ;;c set_long (dir_side d SLeft) l.
(** declaration.py:232-263 *)
Definition set_dir (d : directional) (v : pyval) : cm unit :=
  match v with
  | VTuple [t; r; b; l] => set_sides d t r b l
  | VTuple [t; r; b] => set_sides d t r b r
  | VTuple [t; r] => set_sides d t r t r
  | VTuple [t] => set_sides d t t t t
  | VTuple _ => raise ValueError
  | _ => set_sides d v v v v
  end.
(** declaration.py:265-269 *)
Definition del_dir (d : directional) : cm unit := each (fun s => del_long (dir_side d s)) sides.

(** ** validated_shorthand_property (declaration.py:97-140) *)
(** wrappers.py:134-155: VALID_KEYS, in order. *)
Definition valid_keys (sh : shorthand) : list (comp * prop) :=
  match sh with
  | S_outline => [(CColor, Long L_outline_color); (CStyle, Long L_outline_style); (CWidth, Long L_outline_width)]
  | S_border_side s =>
      [(CWidth, Long (L_border_width s)); (CStyle, Long (L_border_style s)); (CColor, Long (L_border_color s))]
  | S_border => [(CWidth, Dir D_border_width); (CStyle, Dir D_border_style); (CColor, Dir D_border_color)]
  end.
(** The choices the parser of the shorthand tries (parser.py:258-262, 325-329). *)
Definition table_of (sh : shorthand) : list (comp * choices) :=
  match sh with S_outline => outline_table | _ => border_table end.
(** declaration.py:100-109: the stored components, [] standing for "".  A
    directional name has no attribute of its own. *)
Definition get_short (c : css) (sh : shorthand) : list (prop * pyval) :=
  flat_map (fun kp => match snd kp with
                      | Long l => match c_store c l with Some v => [(Long l, v)] | None => [] end
                      | _ => []
                      end) (valid_keys sh).
(** setattr(self, name, value) / delattr(self, name) for the components *)
Definition set_ld (p : prop) (v : pyval) : cm unit :=
  match p with Long l => set_long l v | Dir d => set_dir d v | Short _ => raise TypeError end.
(** delattr(self, name) for a component (declaration.py:124, 133). *)
Definition del_ld (p : prop) : cm unit :=
  match p with Long l => del_long l | Dir d => del_dir d | Short _ => raise TypeError end.
(** declaration.py:111-128 *)
Definition set_short (sh : shorthand) (v : pyval) : cm unit :=
  fun c n =>
    match parse_shorthand (ho_set ho) (table_of sh) n v with
    | Err e => (c, n, Err (if is_value_error e then ValueError else e))
    | Ok (d, n') =>
        (each (fun kp => match d (fst kp) with Some w => set_ld (snd kp) w | None => del_ld (snd kp) end) (valid_keys sh)
         ;;c dirty) c n'
    end.
(** declaration.py:130-137 *)
Definition del_short (sh : shorthand) : cm unit :=
  each (fun kp => swallow (del_ld (snd kp) ;;c dirty)) (valid_keys sh).

(** setattr(self, name, value), delattr(self, name) *)
Definition set_prop (p : prop) (v : pyval) : cm unit :=
  match p with Long l => set_long l v | Dir d => set_dir d v | Short s => set_short s v end.
(** delattr(self, name). *)
Definition del_prop (p : prop) : cm unit :=
  match p with Long l => del_long l | Dir d => del_dir d | Short s => del_short s end.

(** ** The dict-like interface *)
(** declaration.py:688-698 *)
Definition update_item (item : string * pyval) : cm unit :=
  match prop_of_name (underscored (fst item)) with
  | None => raise NameError
  | Some p => match snd item with VNone => del_prop p | v => set_prop p v end
  end.
(** declaration.py:688-698 *)
Definition update (styles : list (string * pyval)) : cm unit := each update_item styles.
(** CSS( **style ) (declaration.py:280-282) *)
Definition construct (styles : list (string * pyval)) (n : nat) : css * nat * res unit := update styles fresh_css n.
(** What reading an attribute gives: a value, four values, or the components
    of a shorthand. *)
Inductive reading := RValue (v : pyval) | RSides (l : list pyval) | RParts (l : list (prop * pyval)).
(** getattr(self, name). *)
Definition get_prop (c : css) (p : prop) : res reading :=
  match p with
  | Long l => v <-r get_long c l ;; Ok (RValue v)
  | Dir d => l <-r get_dir c d ;; Ok (RSides l)
  | Short s => Ok (RParts (get_short c s))
  end.
(** declaration.py:711-732 *)
Definition getitem (c : css) (name : string) : res reading :=
  match prop_of_name (underscored name) with Some p => get_prop c p | None => Err KeyError end.
(** declaration.py:717-722 *)
Definition setitem (name : string) (v : pyval) : cm unit :=
  match prop_of_name (underscored name) with Some p => set_prop p v | None => raise KeyError end.
(** declaration.py:724-732 *)
Definition delitem (name : string) : cm unit :=
  match prop_of_name (underscored name) with Some p => swallow (del_prop p) | None => raise KeyError end.

(** declaration.py:734-741, 743-748: _CSS_PROPERTIES in iteration order; only
    longhands have an attribute "_name". *)
Definition stored_attr (c : css) (p : prop) : option pyval :=
  match p with Long l => c_store c l | _ => None end.
(** declaration.py:734-741 *)
Definition items (c : css) : list (string * pyval) :=
  flat_map (fun p => match stored_attr c p with Some v => [(prop_name p, v)] | None => [] end) (ho_names ho).
(** declaration.py:743-748 *)
Definition keys (c : css) : list string :=
  flat_map (fun p => match stored_attr c p with Some _ => [prop_name p] | None => [] end) (ho_names ho).

(** declaration.py:700-709.  [node] is the state of the node given to copy. *)
Definition copy_item (src : css) (p : prop) : cm unit :=
  match stored_attr src p with
  | Some v => swallow (set_prop p v)
  | None => ret tt
  end.
(** declaration.py:700-709 *)
Definition copy (node : option (option bool)) (src : css) (n : nat) : css * nat * res unit :=
  each (copy_item src) (ho_names ho) (mkCss (fun _ => None) node) n.
End Order.

(** ** str (declaration.py:753-761) *)
(** sorted() on (name, value) pairs whose names are distinct: insertion sort by
    name.  [show] is Python's str() on values, which the model leaves open. *)
Definition str_leb (s t : string) : bool := match String.compare s t with Gt => false | _ => true end.
(** Insertion into a list sorted by name. *)
Fixpoint insert_by_name {A} (x : string * A) (l : list (string * A)) : list (string * A) :=
  match l with
  | [] => [x]
  | y :: r => if str_leb (fst x) (fst y) then x :: l else y :: insert_by_name x r
  end.
(** sorted(...) (declaration.py:761). *)
Fixpoint sort_by_name {A} (l : list (string * A)) : list (string * A) :=
  match l with [] => [] | x :: r => insert_by_name x (sort_by_name r) end.
(** declaration.py:753-761 *)
Definition render (show : pyval -> string) (ho : hash_order) (c : css) : string :=
  join "; " (map (fun nv => fst nv ++ ": " ++ show (snd nv))
    (sort_by_name (map (fun nv => (dashed (fst nv), snd nv)) (items ho c)))).

(** ** Programs acting on a declaration *)
(** Every way the class offers to change a declaration, and binding it to a
    node (the attribute _node). *)
Inductive op :=
| OpSet (p : prop) (v : pyval)
| OpDel (p : prop)
| OpUpdate (styles : list (string * pyval))
| OpSetItem (name : string) (v : pyval)
| OpDelItem (name : string)
| OpBind (node : option (option bool)).
(** The effect of one operation. *)
Definition run_op (ho : hash_order) (o : op) : cm unit :=
  match o with
  | OpSet p v => set_prop ho p v
  | OpDel p => del_prop p
  | OpUpdate styles => update ho styles
  | OpSetItem name v => setitem ho name v
  | OpDelItem name => delitem name
  | OpBind node => fun c n => (mkCss (c_store c) node, n, Ok tt)
  end.
(** A program: operations run one after the other; a failed operation raises,
    the program catches the exception and goes on. *)
Fixpoint run_ops (ho : hash_order) (l : list op) (c : css) (n : nat) : css * nat :=
  match l with
  | [] => (c, n)
  | o :: r => let '(c', n', _) := run_op ho o c n in run_ops ho r c' n'
  end.
(** Object number 0 is the initial border spacing, created at import. *)
Definition first_free : nat := 1.
(** The states of a declaration after any program. *)
Definition reachable (ho : hash_order) (c : css) (n : nat) : Prop :=
  exists l, run_ops ho l fresh_css first_free = (c, n).
