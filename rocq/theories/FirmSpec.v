(** * What C203 says: a bottom margin that is not larger than the top margin below it *)
From Coq Require Import ZArith QArith Qcanon Bool List.
From Verif Require Import PyNum Units BoxModel Engine RefLayout OkSpec MoveSpec.
Import ListNotations.
Open Scope Qc_scope.

Definition with_margin_bottom (v : lenauto) (s : style) : style :=
  mkStyle (st_display s) (st_position s) (st_float s) (st_direction s) (st_width s) (st_height s)
    (st_min_width s) (st_min_height s) (st_max_width s) (st_max_height s)
    (st_margin_top s) (st_margin_right s) v (st_margin_left s)
    (st_padding_top s) (st_padding_right s) (st_padding_bottom s) (st_padding_left s)
    (st_border_top s) (st_border_right s) (st_border_bottom s) (st_border_left s)
    (st_top s) (st_right s) (st_bottom s) (st_left s)
    (st_border_top_style s) (st_border_right_style s) (st_border_bottom_style s) (st_border_left_style s).
(** [below]: the top margin of the next box, if there is one.  The styles are the same, or belong to a block that differs
    in its bottom margin; the extent that collapses at its bottom is at most the margin below it, and so are the whole pixels of the new margin
    (which is no percentage). *)
Definition bottom_hidden (d : display_t) (below : option Qc) (u : used) (s t : style) : Prop :=
  t = s
  \/ block_level s = true /\ exists m v, below = Some m /\ t = with_margin_bottom v s /\ Z2Qc (u_cb u) <= m /\ no_pct_auto v = true /\ Z2Qc (whole_px (len0 d 0 v)) <= m.
Fixpoint margin_below (ts : list utree) : option Qc :=
  match ts with [] => None | UNode u _ :: _ => Some (u_mt u) | _ :: ts => margin_below ts end.

Section Firm.
Context {S : Type} (sty : S -> style) (d : display_t).
Notation node := (node S).
(** The second document is the first one with such other bottom margins, where the used values of the first are given.  Of what has no box
    only the display is the same. *)
Inductive firmed : option Qc -> node -> utree -> node -> Prop :=
| firmed_box below s s' i b b' ks us ks' u : bottom_hidden d below u (sty s) (sty s') -> firmed_kids ks us ks' ->
    firmed below (Node s i b ks) (UNode u us) (Node s' i b' ks')
| firmed_hidden below n m : st_display (sty (n_style m)) = st_display (sty (n_style n)) -> firmed below n UHidden m
| firmed_skipped below n m : st_display (sty (n_style m)) = st_display (sty (n_style n)) -> firmed below n USkipped m
with firmed_kids : list node -> list utree -> list node -> Prop :=
| firmed_end : firmed_kids [] [] []
| firmed_next k t k' ks ts ks' : firmed (margin_below ts) k t k' -> firmed_kids ks ts ks' ->
    firmed_kids (k :: ks) (t :: ts) (k' :: ks').
End Firm.
(** All used values but the bottom margin and the extent collapsed at the bottom. *)
Definition but_bottom (u : used) : list Qc * list (option Qc) * Z :=
  ([u_mt u; u_mr u; u_ml u; u_bt u; u_br u; u_bb u; u_bl u; u_pt u; u_pr u; u_pb u; u_pl u; u_left u; u_top u], [u_w u; u_h u], u_ct u).
(** The same, except that other children than last ones may have other bottom margins ([c]: the outermost box too). *)
Inductive same_but_bottoms : bool -> utree -> utree -> Prop :=
| same_bottoms_leaf (c : bool) u v : but_bottom u = but_bottom v -> (c = false -> u = v) -> same_but_bottoms c (UNode u []) (UNode v [])
| same_bottoms_box (c : bool) u v x y us vs : but_bottom u = but_bottom v -> (c = false -> u = v) -> Forall2 (same_but_bottoms true) us vs -> same_but_bottoms false x y ->
    same_but_bottoms c (UNode u (us ++ [x])) (UNode v (vs ++ [y]))
| same_bottoms_hidden c : same_but_bottoms c UHidden UHidden
| same_bottoms_skipped c : same_but_bottoms c USkipped USkipped.
(** The same declarations, where bottom margins of blocks may differ; these are lengths without percentages, or auto. *)
Definition bottoms_differ (s t : style) : Prop :=
  t = s \/ block_level s = true /\ measurable_or_auto false (st_margin_bottom s) = true /\ exists v, t = with_margin_bottom v s /\ measurable_or_auto false v = true.
