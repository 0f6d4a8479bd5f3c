(** * The style values the layout engine reads from a declaration
    engine.py reads node.style.<name> (167, 187-208, 216-223, 264-298, 374-444,
    642-699); node.style is a declaration (declaration.py), so each read is
    [get_long].  This file turns the values read into the record of Engine.v. *)
From Coq Require Import ZArith QArith Qcanon Bool String List.
From Verif Require Import PyNum Units BoxModel Engine Float64 PyStr Colors Values Parser Choices Shorthand Decl.
Import ListNotations.
Open Scope string_scope.

(** The keyword objects (constants.py:157-178, 207-212, 223-227, 240-243) and the
    constructors that stand for them in Engine.v. *)
Definition display_words : list (string * display_k) :=
  [("inline", DInline); ("block", DBlock); ("list-item", DListItem); ("inline-block", DInlineBlock); ("table", DTable);
   ("inline-table", DInlineTable); ("table-row-group", DTableRowGroup); ("table-header-group", DTableHeaderGroup);
   ("table-footer-group", DTableFooterGroup); ("table-row", DTableRow); ("table-column-group", DTableColumnGroup);
   ("table-column", DTableColumn); ("table-cell", DTableCell); ("table-caption", DTableCaption); ("flex", DFlex);
   ("inline-flex", DInlineFlex); ("grid", DGrid); ("inline-grid", DInlineGrid)].
(** constants.py:207-210 *)
Definition position_words : list (string * position_k) :=
  [("static", PStatic); ("relative", PRelative); ("absolute", PAbsolute); ("fixed", PFixed)].
(** constants.py:223-224 *)
Definition float_words : list (string * side_k) := [("left", FLeft); ("right", FRight)].
(** constants.py:240-241 *)
Definition direction_words : list (string * direction_k) := [("ltr", LTR); ("rtl", RTL)].
(** constants.py:124-132 *)
Definition border_style_words : list (string * bstyle) :=
  [("hidden", BHidden); ("dotted", BDotted); ("dashed", BDashed); ("solid", BSolid); ("double", BDouble);
   ("groove", BGroove); ("ridge", BRidge); ("inset", BInset); ("outset", BOutset)].
(** constants.py:118-120 *)
Definition border_width_words : list (string * bkw) := [("thin", Thin); ("medium", Medium); ("thick", Thick)].

(** The typed form of a value; [None] for a value of another kind. *)
Definition as_word {A} (words : list (string * A)) (v : pyval) : option A :=
  match v with VStr s => assoc s words | _ => None end.
(** A keyword or None (display, float, border styles). *)
Definition as_opt_word {A} (words : list (string * A)) (v : pyval) : option (option A) :=
  match v with VNone => Some None | _ => match as_word words v with Some a => Some (Some a) | None => None end end.
(** A length or AUTO (margins and sizes). *)
Definition as_lenauto (v : pyval) : option lenauto :=
  match v with VUnit u => Some (Len u) | VStr s => if String.eqb s "auto" then Some Auto else None | _ => None end.
(** A length (paddings). *)
Definition as_length (v : pyval) : option unit_ := match v with VUnit u => Some u | _ => None end.
(** A length or None (max_width, max_height). *)
Definition as_max (v : pyval) : option (option unit_) :=
  match v with VNone => Some None | VUnit u => Some (Some u) | _ => None end.
(** A length, THIN, MEDIUM or THICK (border widths). *)
Definition as_bwidth (v : pyval) : option bwidth :=
  match v with VUnit u => Some (BLen u) | _ => match as_word border_width_words v with Some k => Some (BKw k) | None => None end end.
(** A length, AUTO or INHERIT (top, right, bottom, left). *)
Definition as_offset (v : pyval) : option offset :=
  match v with
  | VUnit u => Some (OLen u)
  | VStr s => if String.eqb s "auto" then Some OAuto else if String.eqb s "inherit" then Some OInherit else None
  | _ => None
  end.

(** Sequencing of readings. *)
Definition obind {A B} (m : option A) (f : A -> option B) : option B := match m with Some a => f a | None => None end.
(** Notation for [obind]. *)
Notation "x <-o m ;; k" := (obind m (fun x => k)) (at level 61, m at next level, right associativity).
Section Computed.
Variable ho : hash_order.
(** node.style.<p>, typed. *)
Definition rd {A} (c : css) (p : longhand) (f : pyval -> option A) : option A :=
  match get_long ho c p with Ok v => f v | Err _ => None end.
(** All readings of engine.py (167, 187-208, 216-223, 264-298, 374-444, 642-699) as one record; the border styles are read by no line of the engine (C63). *)
Definition computed (c : css) : option style :=
  di <-o rd c L_display (as_opt_word display_words) ;; po <-o rd c L_position (as_word position_words) ;;
  fl <-o rd c L_float (as_opt_word float_words) ;; dr <-o rd c L_direction (as_word direction_words) ;;
  w <-o rd c L_width as_lenauto ;; h <-o rd c L_height as_lenauto ;;
  mw <-o rd c L_min_width as_lenauto ;; mh <-o rd c L_min_height as_lenauto ;;
  xw <-o rd c L_max_width as_max ;; xh <-o rd c L_max_height as_max ;;
  mt <-o rd c (L_margin STop) as_lenauto ;; mr <-o rd c (L_margin SRight) as_lenauto ;;
  mb <-o rd c (L_margin SBottom) as_lenauto ;; ml <-o rd c (L_margin SLeft) as_lenauto ;;
  pt <-o rd c (L_padding STop) as_length ;; pr <-o rd c (L_padding SRight) as_length ;;
  pb <-o rd c (L_padding SBottom) as_length ;; pl <-o rd c (L_padding SLeft) as_length ;;
  bt <-o rd c (L_border_width STop) as_bwidth ;; br <-o rd c (L_border_width SRight) as_bwidth ;;
  bb <-o rd c (L_border_width SBottom) as_bwidth ;; bl <-o rd c (L_border_width SLeft) as_bwidth ;;
  ot <-o rd c (L_offset STop) as_offset ;; or <-o rd c (L_offset SRight) as_offset ;;
  ob <-o rd c (L_offset SBottom) as_offset ;; ol <-o rd c (L_offset SLeft) as_offset ;;
  st <-o rd c (L_border_style STop) (as_opt_word border_style_words) ;;
  sr <-o rd c (L_border_style SRight) (as_opt_word border_style_words) ;;
  sb <-o rd c (L_border_style SBottom) (as_opt_word border_style_words) ;;
  sl <-o rd c (L_border_style SLeft) (as_opt_word border_style_words) ;;
  Some (mkStyle di po fl dr w h mw mh xw xh mt mr mb ml pt pr pb pl bt br bb bl ot or ob ol st sr sb sl).
(** A total version; theorem C30_kinds_partial shows that the second case is
    never taken for a declaration of a program. *)
Definition dead_style : style :=
  let z := mkU KPx (PI 0) in
  mkStyle None PStatic None LTR Auto Auto Auto Auto None None Auto Auto Auto Auto z z z z
    (BLen z) (BLen z) (BLen z) (BLen z) OAuto OAuto OAuto OAuto None None None None.
(** The style of a node whose declaration is [c]. *)
Definition declared_style (c : css) : style := match computed c with Some s => s | None => dead_style end.
End Computed.

(** engine.py:107-129 on documents whose nodes carry declarations. *)
Definition layout_css (ho : hash_order) (d : display_t) (html5 : bool) (n : node css) : node css * res unit :=
  layout (declared_style ho) d html5 n.
