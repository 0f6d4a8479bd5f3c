(** * Specifications for the meeting point of declarations and layout *)
From Coq Require Import ZArith QArith Qcanon Bool String List.
From Verif Require Import PyNum Units BoxModel Engine Float64 PyStr Colors Values Parser Choices Shorthand Decl.
Import ListNotations.
Open Scope string_scope.

(** The keywords, as text. *)
Definition display_text (d : display_k) : string :=
  match d with
  | DInline => "inline" | DBlock => "block" | DListItem => "list-item" | DInlineBlock => "inline-block" | DTable => "table"
  | DInlineTable => "inline-table" | DTableRowGroup => "table-row-group" | DTableHeaderGroup => "table-header-group"
  | DTableFooterGroup => "table-footer-group" | DTableRow => "table-row" | DTableColumnGroup => "table-column-group"
  | DTableColumn => "table-column" | DTableCell => "table-cell" | DTableCaption => "table-caption" | DFlex => "flex"
  | DInlineFlex => "inline-flex" | DGrid => "grid" | DInlineGrid => "inline-grid"
  end.
Definition position_text (p : position_k) : string :=
  match p with PStatic => "static" | PRelative => "relative" | PAbsolute => "absolute" | PFixed => "fixed" end.
Definition float_text (f : side_k) : string := match f with FLeft => "left" | FRight => "right" end.
Definition direction_text (d : direction_k) : string := match d with LTR => "ltr" | RTL => "rtl" end.
Definition border_style_text (b : bstyle) : string :=
  match b with
  | BHidden => "hidden" | BDotted => "dotted" | BDashed => "dashed" | BSolid => "solid" | BDouble => "double"
  | BGroove => "groove" | BRidge => "ridge" | BInset => "inset" | BOutset => "outset"
  end.
Definition border_width_text (k : bkw) : string := match k with Thin => "thin" | Medium => "medium" | Thick => "thick" end.
Definition or_none {A} (f : A -> pyval) (o : option A) : pyval := match o with Some a => f a | None => VNone end.
Definition show_lenauto (v : lenauto) : pyval := match v with Auto => VStr "auto" | Len u => VUnit u end.
Definition show_bwidth (v : bwidth) : pyval := match v with BKw k => VStr (border_width_text k) | BLen u => VUnit u end.
Definition show_offset (v : offset) : pyval := match v with OAuto => VStr "auto" | OInherit => VStr "inherit" | OLen u => VUnit u end.

(** The value that property p has in the engine's view s of a declaration;
    [None] for the properties the engine does not look at (the border styles
    are part of the view although the engine never uses them). *)
Definition shows (s : style) (p : longhand) : option pyval :=
  match p with
  | L_display => Some (or_none (fun d => VStr (display_text d)) (st_display s))
  | L_position => Some (VStr (position_text (st_position s)))
  | L_float => Some (or_none (fun f => VStr (float_text f)) (st_float s))
  | L_direction => Some (VStr (direction_text (st_direction s)))
  | L_width => Some (show_lenauto (st_width s)) | L_height => Some (show_lenauto (st_height s))
  | L_min_width => Some (show_lenauto (st_min_width s)) | L_min_height => Some (show_lenauto (st_min_height s))
  | L_max_width => Some (or_none VUnit (st_max_width s)) | L_max_height => Some (or_none VUnit (st_max_height s))
  | L_margin STop => Some (show_lenauto (st_margin_top s)) | L_margin SRight => Some (show_lenauto (st_margin_right s))
  | L_margin SBottom => Some (show_lenauto (st_margin_bottom s)) | L_margin SLeft => Some (show_lenauto (st_margin_left s))
  | L_padding STop => Some (VUnit (st_padding_top s)) | L_padding SRight => Some (VUnit (st_padding_right s))
  | L_padding SBottom => Some (VUnit (st_padding_bottom s)) | L_padding SLeft => Some (VUnit (st_padding_left s))
  | L_border_width STop => Some (show_bwidth (st_border_top s)) | L_border_width SRight => Some (show_bwidth (st_border_right s))
  | L_border_width SBottom => Some (show_bwidth (st_border_bottom s)) | L_border_width SLeft => Some (show_bwidth (st_border_left s))
  | L_offset STop => Some (show_offset (st_top s)) | L_offset SRight => Some (show_offset (st_right s))
  | L_offset SBottom => Some (show_offset (st_bottom s)) | L_offset SLeft => Some (show_offset (st_left s))
  | L_border_style STop => Some (or_none (fun b => VStr (border_style_text b)) (st_border_top_style s))
  | L_border_style SRight => Some (or_none (fun b => VStr (border_style_text b)) (st_border_right_style s))
  | L_border_style SBottom => Some (or_none (fun b => VStr (border_style_text b)) (st_border_bottom_style s))
  | L_border_style SLeft => Some (or_none (fun b => VStr (border_style_text b)) (st_border_left_style s))
  | _ => None
  end.
(** The properties whose values the engine uses. *)
Definition engine_reads (p : longhand) : bool :=
  match p with
  | L_display | L_position | L_float | L_direction | L_width | L_height | L_min_width | L_min_height | L_max_width
  | L_max_height | L_margin _ | L_padding _ | L_border_width _ | L_offset _ => true
  | _ => false
  end.

(** A length that can be converted to pixels: not an angle, finite. *)
Definition convertible (u : unit_) : Prop :=
  (forall s q, u_kind u <> KAngle s q) /\ exists q, pval (u_val u) = Fin q.

(** Documents of the same shape, with the same intrinsic sizes and boxes, in
    which corresponding nodes' styles are related by R. *)
Inductive same_document {S T : Type} (R : S -> T -> Prop) : node S -> node T -> Prop :=
| same_node s t i bx ks ls : R s t -> Forall2 (same_document R) ks ls -> same_document R (Node s i bx ks) (Node t i bx ls).
Arguments same_document {S T} R n m.
(** Every declaration in the document satisfies [ok]. *)
Inductive program_document (ok : css -> Prop) : node css -> Prop :=
| program_node c i bx ks : ok c -> (forall k, In k ks -> program_document ok k) -> program_document ok (Node c i bx ks).

(** A laid-out document without its styles: shape, intrinsic sizes, boxes. *)
Fixpoint boxes {S} (n : node S) : node unit := let 'Node _ i bx ks := n in Node tt i bx (map boxes ks).
(** Two ways of laying out give the same boxes and the same outcome. *)
Definition same_result {S T} (r : node S * res unit) (r' : node T * res unit) : Prop := boxes (fst r) = boxes (fst r') /\ snd r = snd r'.
(** The program's operations without binding the declaration to another node. *)
Definition not_bind (o : op) : Prop := match o with OpBind _ => False | _ => True end.
