(** * Specification for C126: what relative positioning moves *)
From Coq Require Import ZArith QArith Qcanon Bool List.
From Verif Require Import PyNum Units BoxModel Engine RefLayout.
Import ListNotations.
Open Scope Qc_scope.

(** The style [s] with position: relative. *)
Definition relatively (s : style) : style :=
  {| st_display := st_display s; st_position := PRelative; st_float := st_float s; st_direction := st_direction s;
     st_width := st_width s; st_height := st_height s; st_min_width := st_min_width s; st_min_height := st_min_height s;
     st_max_width := st_max_width s; st_max_height := st_max_height s;
     st_margin_top := st_margin_top s; st_margin_right := st_margin_right s;
     st_margin_bottom := st_margin_bottom s; st_margin_left := st_margin_left s;
     st_padding_top := st_padding_top s; st_padding_right := st_padding_right s;
     st_padding_bottom := st_padding_bottom s; st_padding_left := st_padding_left s;
     st_border_top := st_border_top s; st_border_right := st_border_right s;
     st_border_bottom := st_border_bottom s; st_border_left := st_border_left s;
     st_top := st_top s; st_right := st_right s; st_bottom := st_bottom s; st_left := st_left s;
     st_border_top_style := st_border_top_style s; st_border_right_style := st_border_right_style s;
     st_border_bottom_style := st_border_bottom_style s; st_border_left_style := st_border_left_style s |}.

(** Lengths and offsets that do not refer to the containing block. *)
Definition no_pct (u : unit_) : bool := match u_kind u with KPct => false | _ => true end.
Definition no_pct_auto (v : lenauto) : bool := match v with Auto => true | Len u => no_pct u end.
Definition no_pct_border (v : bwidth) : bool := match v with BKw _ => true | BLen u => no_pct u end.
Definition no_pct_offset (v : offset) : bool := match v with OAuto => true | OInherit => false | OLen u => no_pct u end.
(** No value of [s] refers to the height or vertical position of the containing block. *)
Definition no_height_reference (s : style) : bool :=
  forallb no_pct_auto [st_height s; st_min_height s; st_margin_top s; st_margin_bottom s]
  && match st_max_height s with None => true | Some u => no_pct u end
  && forallb no_pct_border [st_border_left s; st_border_right s]
  && forallb no_pct [st_padding_left s; st_padding_right s]
  && forallb no_pct_offset [st_top s; st_bottom s].
Definition no_inherit (v : offset) : bool := match v with OInherit => false | _ => true end.

Section Move.
Context {S : Type} (sty : S -> style).
Notation node := (node S).

(** [m] is [n] with the static block at the path [p] (the numbers of the children
    to go to) made relative.  The block is a child of a
    static node; it is not the last child, or the parent's height is specified
    (or the parent is inline); its children do not refer to its height. *)
Inductive made_relative : list nat -> node -> node -> Prop :=
| made_here ps pi pb before s s' i bx kids after :
    st_position (sty s) = PStatic -> sty s' = relatively (sty s) -> block_level (sty s) = true ->
    forallb no_inherit [st_left (sty s); st_right (sty s); st_top (sty s); st_bottom (sty s)] = true ->
    forallb (fun k => no_height_reference (sty (n_style k))) kids = true ->
    st_position (sty ps) = PStatic ->
    after <> [] \/ st_height (sty ps) <> Auto \/ st_display (sty ps) = Some DInline ->
    made_relative [length before] (Node ps pi pb (before ++ Node s i bx kids :: after)) (Node ps pi pb (before ++ Node s' i bx kids :: after))
| made_below p s i bx before k k' after : made_relative p k k' ->
    made_relative (length before :: p) (Node s i bx (before ++ k :: after)) (Node s i bx (before ++ k' :: after)).

Definition move (dx dy : Qc) (u : used) : used :=
  let 'mkUsed mt mr mb ml bt br bb bl pt pr pb pl w h lf tp ct cb := u in
  mkUsed mt mr mb ml bt br bb bl pt pr pb pl w h (lf + dx) (tp + dy) ct cb.

(** [moved d p n t t']: the layouts [t] of [n] and [t'] differ only in the position
    of the block at the path [p]: horizontally by its offset, vertically
    by its offset and its upper border and padding.  They are equal if it is in a
    part of the document that is not laid out. *)
Inductive moved (d : display_t) : list nat -> node -> utree -> utree -> Prop :=
| moved_here ps pi pb before s i bx kids after pu us1 u us us2 :
    length us1 = length before ->
    moved d [length before] (Node ps pi pb (before ++ Node s i bx kids :: after)) (UNode pu (us1 ++ UNode u us :: us2))
      (UNode pu (us1 ++ UNode (move (shift d 0 (u_w pu) (st_left (sty s)) (st_right (sty s)))
                                    (u_bt u + u_pt u + shift d 0 (Some 0) (st_top (sty s)) (st_bottom (sty s))) u) us :: us2))
| moved_below p s i bx before k after u us1 t t' us2 :
    length us1 = length before -> moved d p k t t' ->
    moved d (length before :: p) (Node s i bx (before ++ k :: after)) (UNode u (us1 ++ t :: us2)) (UNode u (us1 ++ t' :: us2))
| moved_away p n t : t = UHidden \/ t = USkipped -> moved d p n t t.
End Move.
