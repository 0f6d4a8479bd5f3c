(** * What C204 says: displays that are laid out alike *)
From Coq Require Import Bool List.
From Verif Require Import PyNum Units BoxModel Engine.
Import ListNotations.

Definition with_display (k : option display_k) (s : style) : style :=
  mkStyle k (st_position s) (st_float s) (st_direction s) (st_width s) (st_height s)
    (st_min_width s) (st_min_height s) (st_max_width s) (st_max_height s)
    (st_margin_top s) (st_margin_right s) (st_margin_bottom s) (st_margin_left s)
    (st_padding_top s) (st_padding_right s) (st_padding_bottom s) (st_padding_left s)
    (st_border_top s) (st_border_right s) (st_border_bottom s) (st_border_left s)
    (st_top s) (st_right s) (st_bottom s) (st_left s)
    (st_border_top_style s) (st_border_right_style s) (st_border_bottom_style s) (st_border_left_style s).
(** How a display is treated: nothing is drawn, inline, inline-block, a block or a list item, a table; all others are refused alike. *)
Inductive treatment := Nothing | Inline_ | InlineBlock_ | Blocks | Table_ | Refused.
Definition treated (k : option display_k) : treatment :=
  match k with
  | None => Nothing
  | Some DInline => Inline_
  | Some DInlineBlock => InlineBlock_
  | Some DBlock | Some DListItem => Blocks
  | Some DTable => Table_
  | Some _ => Refused
  end.
Definition of_level (k : option display_k) : bool := match treated k with Blocks | Table_ => true | _ => false end.

Section Drawn.
Context {S : Type} (sty sty' : S -> style).
(** Under the two readings of the declarations every element of the document differs at most in its display; and these displays are treated alike,
    or they are block, list-item and table and the element has no block-level children. *)
Inductive drawn_alike : node S -> Prop :=
| drawn_node s i b ks : (exists k, sty' s = with_display k (sty s)) ->
    treated (st_display (sty' s)) = treated (st_display (sty s))
    \/ of_level (st_display (sty s)) = true /\ of_level (st_display (sty' s)) = true /\ (forall k, In k ks -> of_level (st_display (sty (n_style k))) = false) ->
    (forall k, In k ks -> drawn_alike k) -> drawn_alike (Node s i b ks).
End Drawn.
