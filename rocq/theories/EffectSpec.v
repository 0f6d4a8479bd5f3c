(** * Specification for C127: declarations without effect *)
From Coq Require Import List.
From Verif Require Import PyNum Units BoxModel Engine.

(** [effective s] is [s] without what layout ignores: border styles, offsets
    unless position is relative, min-width, max-width and direction unless a
    block-level element gives its width, max-height unless a block-level element
    gives its height, min-height unless a block-level element leaves its height
    auto. *)
Definition effective (s : style) : style :=
  let relative := match st_position s with PRelative => true | _ => false end in
  let block := match st_display s with Some (DBlock | DListItem | DTable) => true | _ => false end in
  let given_w := if block then match st_width s with Auto => false | Len _ => true end else false in
  let given_h := if block then match st_height s with Auto => false | Len _ => true end else false in
  let auto_h := if block then match st_height s with Auto => true | Len _ => false end else false in
  {| st_display := st_display s; st_position := st_position s; st_float := st_float s;
     st_direction := if given_w then st_direction s else LTR;
     st_width := st_width s; st_height := st_height s;
     st_min_width := if given_w then st_min_width s else Auto;
     st_max_width := if given_w then st_max_width s else None;
     st_min_height := if auto_h then st_min_height s else Auto;
     st_max_height := if given_h then st_max_height s else None;
     st_margin_top := st_margin_top s; st_margin_right := st_margin_right s;
     st_margin_bottom := st_margin_bottom s; st_margin_left := st_margin_left s;
     st_padding_top := st_padding_top s; st_padding_right := st_padding_right s;
     st_padding_bottom := st_padding_bottom s; st_padding_left := st_padding_left s;
     st_border_top := st_border_top s; st_border_right := st_border_right s;
     st_border_bottom := st_border_bottom s; st_border_left := st_border_left s;
     st_top := if relative then st_top s else OAuto; st_right := if relative then st_right s else OAuto;
     st_bottom := if relative then st_bottom s else OAuto; st_left := if relative then st_left s else OAuto;
     st_border_top_style := None; st_border_right_style := None; st_border_bottom_style := None; st_border_left_style := None |}.
