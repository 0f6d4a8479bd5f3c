(** * Validators and choices -- /repo/src/colosseum/validators.py and
      constants.py *)
From Coq Require Import ZArith QArith Qcanon Bool String Ascii List.
From Verif Require Import PyNum Units Float64 PyStr Colors Values Parser.
Import ListNotations.
Open Scope string_scope.
Open Scope Z_scope.

(** [except ValueError: raise ValidationError] (validators.py:78-81, 90-93,
    110-113, 127-130, 140-143, 153-156, 195-198). *)
Definition as_validation {A} (m : res A) : res A :=
  match m with Err e => if is_value_error e then Err ValidationError else m | Ok _ => m end.
(** [except (ValueError, TypeError)] (validators.py:14). *)
Definition as_validation_t {A} (m : res A) : res A :=
  match m with Err TypeError => Err ValidationError | _ => as_validation m end.

(** The validators used by the choices of constants.py.  Not included:
    is_number (only in commented-out flexbox properties) and is_uri (unused). *)
Inductive validator :=
| is_length | is_percentage | is_integer | is_color | is_border_spacing | is_rect | is_quote | is_cursor.

(** Python [int(v)] *)
Definition int_of (v : pyval) : res Z :=
  match v with
  | VInt z => Ok z
  | VFloat x => xtrunc x
  | VStr s => py_int s
  | _ => Err TypeError
  end.

(** validators.py:53-71 with 11-26 (is_integer without bounds), 77-83
    (is_length), 89-103 (is_percentage), 109-115 (is_color), 121-132
    (is_border_spacing), 138-145 (is_rect), 151-158 (is_quote), 189-200
    (is_cursor). *)
Definition run_validator (f : validator) (next : nat) (v : pyval) : res (pyval * nat) :=
  match f with
  | is_length => u <-r as_validation (units v) ;; Ok (VUnit u, next)
  | is_percentage =>
      u <-r as_validation (units v) ;;
      match u_kind u with
      | KPct => if u_ltb u (mkU KPct (PI 0)) then Err ValidationError else Ok (VUnit u, next)
      | _ => Err ValidationError
      end
  | is_integer => z <-r as_validation_t (int_of v) ;; Ok (VInt z, next)
  | is_color => as_validation (color next v)
  | is_border_spacing => as_validation (border_spacing next v)
  | is_rect => r <-r as_validation (rect v) ;; Ok (r, next)
  | is_quote => q <-r as_validation (quotes v) ;; Ok (q, next)
  | is_cursor => as_validation (cursor next v)
  end.

(** constants.py:18-21: Choices( *constants, validators, explicit_defaulting_constants).
    [ch_constants] is a Python set; the model keeps the list of its members and
    takes the iteration order as a parameter of [validate]. *)
Record choices := mkChoices {
  ch_constants : list pyval; ch_validators : list validator; ch_defaulting : list pyval }.

(** constants.py:24-29: the first validator that accepts; only ValidationError
    makes the next one run. *)
Fixpoint first_valid (fs : list validator) (next : nat) (v : pyval) : res (option (pyval * nat)) :=
  match fs with
  | [] => Ok None
  | f :: r =>
      match run_validator f next v with
      | Ok x => Ok (Some x)
      | Err ValidationError => first_valid r next v
      | Err e => Err e
      end
  end.
(** constants.py:34-36, 38-40: the member equal to the value. *)
Fixpoint find_const (v : pyval) (l : list pyval) : option pyval :=
  match l with
  | [] => None
  | c :: r => if py_eqb v c then Some c else find_const v r
  end.
(** constants.py:23-42; [order] is the iteration order of the set. *)
Definition validate (order : list pyval -> list pyval) (ch : choices) (next : nat) (v : pyval) : res (pyval * nat) :=
  r <-r first_valid (ch_validators ch) next v ;;
  match r with
  | Some x => Ok x
  | None =>
      let v := if py_eqb v (VStr "none") then VNone else v in
      match find_const v (order (ch_constants ch)) with
      | Some c => Ok (c, next)
      | None =>
          match find_const v (ch_defaulting ch) with
          | Some c => Ok (c, next)
          | None => Err ValueError
          end
      end
  end.

(** ** constants.py:85-98 *)
Definition AUTO := VStr "auto".
(** constants.py:88 *)
Definition TRANSPARENT := VStr "transparent".
(** constants.py:95 *)
Definition INITIAL := VStr "initial".
(** constants.py:96 *)
Definition INHERIT := VStr "inherit".
(** constants.py:97 *)
Definition UNSET := VStr "unset".
(** constants.py:98 *)
Definition REVERT := VStr "revert".

(** validators=[is_length, is_percentage] (constants.py:105, 112, 215, 257-259, 416) *)
Definition lengths := [is_length; is_percentage].
(** constants.py:105 *)
Definition MARGIN_CHOICES := mkChoices [AUTO] lengths [].
(** constants.py:112 *)
Definition PADDING_CHOICES := mkChoices [] lengths [].
(** constants.py:118-122 *)
Definition widths := [VStr "thin"; VStr "medium"; VStr "thick"].
(** constants.py:122 *)
Definition BORDER_WIDTH_CHOICES := mkChoices widths [is_length] [].
(** constants.py:124-145 *)
Definition line_styles :=
  [VNone; VStr "hidden"; VStr "dotted"; VStr "dashed"; VStr "solid"; VStr "double"; VStr "groove"; VStr "ridge";
   VStr "inset"; VStr "outset"].
(** constants.py:134-145 *)
Definition BORDER_STYLE_CHOICES := mkChoices line_styles [] [].
(** constants.py:147-151 *)
Definition BORDER_COLOR_CHOICES := mkChoices [TRANSPARENT] [is_color] [INITIAL; INHERIT; UNSET; REVERT].
(** constants.py:157-200 *)
Definition DISPLAY_CHOICES := mkChoices
  [VNone; VStr "inline"; VStr "block"; VStr "list-item"; VStr "inline-block"; VStr "table"; VStr "inline-table";
   VStr "table-row-group"; VStr "table-header-group"; VStr "table-footer-group"; VStr "table-row";
   VStr "table-column-group"; VStr "table-column"; VStr "table-cell"; VStr "table-caption"; VStr "flex";
   VStr "inline-flex"; VStr "grid"; VStr "inline-grid"] [] [].
(** constants.py:207-212 *)
Definition POSITION_CHOICES := mkChoices [VStr "static"; VStr "relative"; VStr "absolute"; VStr "fixed"] [] [].
(** constants.py:214-216 *)
Definition BOX_OFFSET_CHOICES := mkChoices [AUTO] lengths [INHERIT].
(** constants.py:227-228 *)
Definition FLOAT_CHOICES := mkChoices [VStr "left"; VStr "right"; VNone] [] [].
(** constants.py:228 *)
Definition CLEAR_CHOICES := mkChoices [VNone; VStr "left"; VStr "right"; VStr "both"] [] [].
(** constants.py:234 *)
Definition Z_INDEX_CHOICES := mkChoices [AUTO] [is_integer] [].
(** constants.py:240-249 *)
Definition DIRECTION_CHOICES := mkChoices [VStr "rtl"; VStr "ltr"] [] [].
(** constants.py:245-249 *)
Definition UNICODE_BIDI_CHOICES := mkChoices [VStr "normal"; VStr "embed"; VStr "bidi-override"] [] [].
(** constants.py:257-259 *)
Definition SIZE_CHOICES := mkChoices [AUTO] lengths [].
(** constants.py:258 *)
Definition MIN_SIZE_CHOICES := mkChoices [AUTO] lengths [].
(** constants.py:259 *)
Definition MAX_SIZE_CHOICES := mkChoices [VNone] lengths [].
(** constants.py:275-277 *)
Definition OVERFLOW_CHOICES := mkChoices [VStr "visible"; VStr "hidden"; VStr "scroll"; AUTO] [] [INHERIT].
(** constants.py:284-286 *)
Definition CLIP_CHOICES := mkChoices [AUTO] [is_rect] [INHERIT].
(** constants.py:296 *)
Definition VISIBILITY_CHOICES := mkChoices [VStr "visible"; VStr "hidden"; VStr "collapse"] [] [].
(** constants.py:308-310 *)
Definition QUOTES_CHOICES := mkChoices [VNone; INITIAL] [is_quote] [INHERIT].
(** constants.py:338-350 *)
Definition PAGE_BREAK_CHOICES := mkChoices [AUTO; VStr "always"; VStr "avoid"; VStr "left"; VStr "right"] [] [INHERIT].
(** constants.py:348-350 *)
Definition PAGE_BREAK_INSIDE_CHOICES := mkChoices [AUTO; VStr "avoid"] [] [INHERIT].
(** constants.py:357-364 *)
Definition LINES_CHOICES := mkChoices [] [is_integer] [INHERIT].
(** constants.py:369, 374 *)
Definition COLOR_CHOICES := mkChoices [VDefault] [is_color] [].
(** constants.py:374 *)
Definition BACKGROUND_COLOR_CHOICES := mkChoices [VDefault; TRANSPARENT] [is_color] [].
(** constants.py:415-417 *)
Definition TEXT_INDENT_CHOICES := mkChoices [] lengths [INHERIT].
(** constants.py:429-431 *)
Definition TEXT_ALIGN_CHOICES := mkChoices [VStr "left"; VStr "right"; VStr "center"; VStr "justify"] [] [INHERIT].
(** constants.py:457-464 *)
Definition TEXT_DECORATION_CHOICES := mkChoices
  [VNone; VStr "underline"; VStr "overline"; VStr "line-through"; VStr "blink"] [] [INHERIT].
(** constants.py:471-478 *)
Definition SPACING_CHOICES := mkChoices [VStr "normal"] [is_length] [INHERIT].
(** constants.py:489-491 *)
Definition TEXT_TRANSFORM_CHOICES := mkChoices
  [VStr "capitalize"; VStr "uppercase"; VStr "lowercase"; VNone] [] [INHERIT].
(** constants.py:504-506 (NOWRAP is still "nowrap" at that line) *)
Definition WHITE_SPACE_CHOICES := mkChoices
  [VStr "normal"; VStr "pre"; VStr "nowrap"; VStr "pre-wrap"; VStr "pre-line"] [] [INHERIT].
(** constants.py:518, 525, 536-538, 541-543, 549 *)
Definition CAPTION_SIDE_CHOICES := mkChoices [VStr "top"; VStr "bottom"] [] [INHERIT].
(** constants.py:525 *)
Definition TABLE_LAYOUT_CHOICES := mkChoices [AUTO; VStr "fixed"] [] [INHERIT].
(** constants.py:536-538 *)
Definition BORDER_COLLAPSE_CHOICES := mkChoices [VStr "collapse"; VStr "separate"] [] [INHERIT].
(** constants.py:541-543 *)
Definition BORDER_SPACING_CHOICES := mkChoices [] [is_border_spacing] [INHERIT].
(** constants.py:549 *)
Definition EMPTY_CELLS_CHOICES := mkChoices [VStr "show"; VStr "hide"] [] [INHERIT].
(** constants.py:596-598 *)
Definition CURSOR_CHOICES := mkChoices [] [is_cursor] [INHERIT].
(** constants.py:605-635 *)
Definition OUTLINE_WIDTH_CHOICES := mkChoices widths [is_length] [INHERIT].
(** constants.py:614-626 *)
Definition OUTLINE_STYLE_CHOICES := mkChoices line_styles [] [INHERIT].
(** constants.py:631-635 *)
Definition OUTLINE_COLOR_CHOICES := mkChoices [VStr "invert"] [is_color] [INHERIT].
