(** * Specification for C179: what the HTML5 mode changes *)
From Coq Require Import ZArith QArith Qcanon Bool List.
From Verif Require Import PyNum Units BoxModel Engine.
Import ListNotations.

(** The boxes have the same attributes except the content height. *)
Record same_but_height (a b : box) : Prop := {
  sb_width : content_width a = content_width b;
  sb_top : content_top a = content_top b; sb_left : content_left a = content_left b;
  sb_otop : origin_top a = origin_top b; sb_oleft : origin_left a = origin_left b;
  sb_mt : margin_top a = margin_top b; sb_mr : margin_right a = margin_right b; sb_mb : margin_bottom a = margin_bottom b; sb_ml : margin_left a = margin_left b;
  sb_ct : collapse_top a = collapse_top b; sb_cr : collapse_right a = collapse_right b; sb_cb : collapse_bottom a = collapse_bottom b; sb_cl : collapse_left a = collapse_left b;
  sb_bt : border_top_width a = border_top_width b; sb_br : border_right_width a = border_right_width b;
  sb_bb : border_bottom_width a = border_bottom_width b; sb_bl : border_left_width a = border_left_width b;
  sb_pt : padding_top a = padding_top b; sb_pr : padding_right a = padding_right b; sb_pb : padding_bottom a = padding_bottom b; sb_pl : padding_left a = padding_left b;
  sb_dirty : dirty a = dirty b }.
(** The documents are the same except the content height of the root. *)
Definition same_but_root_height {S} (a b : node S) : Prop :=
  n_style a = n_style b /\ n_intr a = n_intr b /\ n_kids a = n_kids b
  /\ match n_box a, n_box b with Some x, Some y => same_but_height x y | None, None => True | _, _ => False end.
