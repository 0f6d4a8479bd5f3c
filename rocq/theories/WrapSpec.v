(** * Putting a plain block around blocks: a reader's specification

    C150: wrapping consecutive block-level children of a block in a plain block
    (no margins, borders or padding, automatic size, normal position) leaves
    every box where it was drawn. *)
From Coq Require Import ZArith QArith Qcanon Bool List.
From Verif Require Import PyNum Units BoxModel Engine EngineSpec RefLayout OkSpec LocalSpec.
Import ListNotations.
Open Scope Qc_scope.

(** The used values of a box whose containing block's content starts at
    ([x], [y]), with the position given from the page's corner. *)
Definition absolute (x y : Qc) (u : used) : used :=
  let 'mkUsed mt mr mb ml bt br bb bl pt pr pb pl w h lf tp ct cb := u in
  mkUsed mt mr mb ml bt br bb bl pt pr pb pl w h (x + lf) (y + tp) ct cb.
(** All the boxes of a page in document order, each with its margins, borders,
    padding, size, collapsed extents and absolute position. *)
Fixpoint drawn (x y : Qc) (t : utree) : list used :=
  match t with
  | UNode u us => absolute x y u :: flat_map (drawn (x + u_left u) (y + u_top u)) us
  | _ => []
  end.

(** A box without margins, borders and padding. *)
Definition bare (u : used) : Prop :=
  (u_mt u, u_mr u, u_mb u, u_ml u) = (0, 0, Some 0, 0)
  /\ (u_bt u, u_br u, u_bb u, u_bl u) = (0, 0, 0, 0)
  /\ (u_pt u, u_pr u, u_pb u, u_pl u) = (0, 0, 0, 0).
(** [l'] is [l] with one more, bare box; or the same, which is what one gets
    when the place of the new box is in a part that is not displayed. *)
Definition one_more (l l' : list used) : Prop :=
  exists l1 l2, l = l1 ++ l2 /\ (l' = l1 ++ l2 \/ exists u, bare u /\ l' = l1 ++ u :: l2).

(** A length of zero, in any unit. *)
Definition nothing (u : unit_) : bool := measurable true u && qc_eqb (amount (u_val u)) 0.
(** The same for a margin, for which auto is as good. *)
Definition nothing_or_auto (v : lenauto) : bool := match v with Auto => true | Len u => nothing u end.
(** The same for the width of a border. *)
Definition no_border (v : bwidth) : bool := match v with BLen u => nothing u | BKw _ => false end.
(** A plain block. *)
Definition plain (s : style) : Prop :=
  st_display s = Some DBlock /\ st_position s = PStatic /\ st_float s = None /\ st_width s = Auto /\ st_height s = Auto
  /\ forallb nothing_or_auto [st_margin_top s; st_margin_right s; st_margin_bottom s; st_margin_left s] = true
  /\ forallb no_border [st_border_top s; st_border_right s; st_border_bottom s; st_border_left s] = true
  /\ forallb nothing [st_padding_top s; st_padding_right s; st_padding_bottom s; st_padding_left s] = true.

Section Wrap.
Context {S : Type} (sty : S -> style).
Notation node := (node S).

(** A block-level element whose offsets are not inherited and whose height does
    not depend on the height [h] specified for its parent. *)
Definition movable (h : lenauto) (k : node) : Prop :=
  block_level (sty (n_style k)) = true /\ own_offsets (sty (n_style k))
  /\ (own_height (sty (n_style k)) \/ h = Auto).

(** [m] is the document [n] (whatever its boxes) with a plain block put around
    some consecutive children, [group], of a block that is not relatively
    positioned.  The first of them has no top margin unless it is the first
    child anyway; the last one is not relatively positioned. *)
Inductive wrapped : node -> node -> Prop :=
| wrapped_here s i b b' before before' group group' rest rest' ws wi wb :
    map inputs before = map inputs before' -> map inputs group = map inputs group' -> map inputs rest = map inputs rest' ->
    plain (sty ws) -> s_replaced wi = false ->
    st_display (sty s) = Some DBlock \/ st_display (sty s) = Some DListItem -> st_position (sty s) <> PRelative ->
    group <> [] -> (forall k, In k group -> movable (st_height (sty s)) k) ->
    (forall k l, group = k :: l -> before = [] \/ nothing_or_auto (st_margin_top (sty (n_style k))) = true) ->
    (forall l k, group = l ++ [k] -> st_position (sty (n_style k)) <> PRelative) ->
    wrapped (Node s i b (before ++ group ++ rest)) (Node s i b' (before' ++ Node ws wi wb group' :: rest'))
| wrapped_below s i b b' before before' k k' rest rest' :
    map inputs before = map inputs before' -> wrapped k k' -> map inputs rest = map inputs rest' ->
    wrapped (Node s i b (before ++ k :: rest)) (Node s i b' (before' ++ k' :: rest')).
End Wrap.
