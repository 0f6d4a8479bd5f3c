(** * What C202 says: a top margin that is not larger than what it collapses with *)
From Coq Require Import ZArith QArith Qcanon Bool List.
From Verif Require Import PyNum Units BoxModel Engine RefLayout OkSpec MoveSpec.
Import ListNotations.
Open Scope Qc_scope.

Definition with_margin_top (v : lenauto) (s : style) : style :=
  mkStyle (st_display s) (st_position s) (st_float s) (st_direction s) (st_width s) (st_height s)
    (st_min_width s) (st_min_height s) (st_max_width s) (st_max_height s)
    v (st_margin_right s) (st_margin_bottom s) (st_margin_left s)
    (st_padding_top s) (st_padding_right s) (st_padding_bottom s) (st_padding_left s)
    (st_border_top s) (st_border_right s) (st_border_bottom s) (st_border_left s)
    (st_top s) (st_right s) (st_bottom s) (st_left s)
    (st_border_top_style s) (st_border_right_style s) (st_border_bottom_style s) (st_border_left_style s).
(** [above]: the extent that collapses at the bottom of the box before, if there is one.  The styles are the same,
    or belong to a block and differ in the top margin, which is at most this extent
    before and after (and no percentage after). *)
Definition top_hidden (d : display_t) (above : option Z) (u : used) (s t : style) : Prop :=
  t = s
  \/ block_level s = true /\ exists z v, above = Some z /\ t = with_margin_top v s /\ u_mt u <= Z2Qc z /\ no_pct_auto v = true /\ len0 d 0 v <= Z2Qc z.
Definition extent_below (above : option Z) (t : utree) : option Z := match t with UNode u _ => Some (u_cb u) | _ => above end.

Section Soft.
Context {S : Type} (sty : S -> style) (d : display_t).
Notation node := (node S).
(** The second document is the first one with such other top margins, where the used values of the first are given.  Of what has no box only the
    display is the same. *)
Inductive softened : option Z -> node -> utree -> node -> Prop :=
| softened_box above s s' i b b' ks us ks' u : top_hidden d above u (sty s) (sty s') -> softened_kids None ks us ks' ->
    softened above (Node s i b ks) (UNode u us) (Node s' i b' ks')
| softened_hidden above n m : st_display (sty (n_style m)) = st_display (sty (n_style n)) -> softened above n UHidden m
| softened_skipped above n m : st_display (sty (n_style m)) = st_display (sty (n_style n)) -> softened above n USkipped m
with softened_kids : option Z -> list node -> list utree -> list node -> Prop :=
| softened_end above : softened_kids above [] [] []
| softened_next above k t k' ks ts ks' : softened above k t k' -> softened_kids (extent_below above t) ks ts ks' ->
    softened_kids above (k :: ks) (t :: ts) (k' :: ks').
End Soft.
(** All used values but the top margin and the extent collapsed at the top. *)
Definition but_top (u : used) : list Qc * list (option Qc) * Z :=
  ([u_mr u; u_ml u; u_bt u; u_br u; u_bb u; u_bl u; u_pt u; u_pr u; u_pb u; u_pl u; u_left u; u_top u], [u_mb u; u_w u; u_h u], u_cb u).
(** The same, except that other children than first ones may have other top margins ([c]: the outermost box too). *)
Inductive same_but_tops : bool -> utree -> utree -> Prop :=
| same_tops_leaf (c : bool) u v : but_top u = but_top v -> (c = false -> u = v) -> same_but_tops c (UNode u []) (UNode v [])
| same_tops_box (c : bool) u v x y us vs : but_top u = but_top v -> (c = false -> u = v) -> same_but_tops false x y -> Forall2 (same_but_tops true) us vs ->
    same_but_tops c (UNode u (x :: us)) (UNode v (y :: vs))
| same_tops_hidden c : same_but_tops c UHidden UHidden
| same_tops_skipped c : same_but_tops c USkipped USkipped.
(** The same declarations, where top margins of blocks may differ; these are lengths without percentages, or auto. *)
Definition tops_differ (s t : style) : Prop :=
  t = s \/ block_level s = true /\ measurable_or_auto false (st_margin_top s) = true /\ exists v, t = with_margin_top v s /\ measurable_or_auto false v = true.
