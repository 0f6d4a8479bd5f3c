(** * What C200 says: limits that are not reached *)
From Coq Require Import ZArith QArith Qcanon Bool List.
From Verif Require Import PyNum Units BoxModel Engine RefLayout OkSpec MoveSpec PixelSpec.
Import ListNotations.
Open Scope Qc_scope.

(** Other limits for the width and another upper limit for the height. *)
Definition with_limits (mw : lenauto) (Mw Mh : option unit_) (s : style) : style :=
  mkStyle (st_display s) (st_position s) (st_float s) (st_direction s) (st_width s) (st_height s)
    mw (st_min_height s) Mw Mh
    (st_margin_top s) (st_margin_right s) (st_margin_bottom s) (st_margin_left s)
    (st_padding_top s) (st_padding_right s) (st_padding_bottom s) (st_padding_left s)
    (st_border_top s) (st_border_right s) (st_border_bottom s) (st_border_left s)
    (st_top s) (st_right s) (st_bottom s) (st_left s)
    (st_border_top_style s) (st_border_right_style s) (st_border_bottom_style s) (st_border_left_style s).
(** The size [x] lies strictly within the limits, or within them or at them.  They are not percentages. *)
Definition below (d : display_t) (x : Qc) (v : option unit_) : Prop := forall u, v = Some u -> no_pct u = true /\ x < len d 0 u.
Definition above (d : display_t) (x : Qc) (v : lenauto) : Prop := forall u, v = Len u -> no_pct u = true /\ len d 0 u < x.
Definition not_over (d : display_t) (x : Qc) (v : option unit_) : Prop := forall u, v = Some u -> no_pct u = true /\ x <= len d 0 u.
Definition not_under (d : display_t) (x : Qc) (v : lenauto) : Prop := forall u, v = Len u -> no_pct u = true /\ len d 0 u <= x.
(** The limits are the same; or the used width does not reach those of [s] and respects the other ones. *)
Definition slack_width (d : display_t) (u : used) (s : style) (mw : lenauto) (Mw : option unit_) : Prop :=
  (mw = st_min_width s /\ Mw = st_max_width s)
  \/ exists x, u_w u = Some x /\ below d x (st_max_width s) /\ above d x (st_min_width s) /\ not_over d x Mw /\ not_under d x mw.
Definition slack_height (d : display_t) (u : used) (s : style) (Mh : option unit_) : Prop :=
  Mh = st_max_height s \/ exists x, u_h u = Some x /\ below d x (st_max_height s) /\ not_over d x Mh.
(** The second document is the first one with other limits, where the used values of the first
    are given: boxes with limits that are not reached; of what has no box only the display
    is the same.  If [fixed], the height of the root is not its own and its limit is the same. *)
Inductive loosened {S : Type} (sty : S -> style) (d : display_t) : bool -> node S -> utree -> node S -> Prop :=
| loosened_box (fixed : bool) s s' i b b' ks us ks' u mw Mw Mh :
    sty s' = with_limits mw Mw Mh (sty s) -> slack_width d u (sty s) mw Mw -> slack_height d u (sty s) Mh ->
    (fixed = true -> Mh = st_max_height (sty s)) -> all3 (loosened sty d false) ks us ks' ->
    loosened sty d fixed (Node s i b ks) (UNode u us) (Node s' i b' ks')
| loosened_hidden fixed n m : st_display (sty (n_style m)) = st_display (sty (n_style n)) -> loosened sty d fixed n UHidden m
| loosened_skipped fixed n m : st_display (sty (n_style m)) = st_display (sty (n_style n)) -> loosened sty d fixed n USkipped m.
(** Limits are finite lengths, but not percentages. *)
Definition plain_limits (s : style) : Prop :=
  measurable_or_auto false (st_min_width s) = true /\ measurable_if_any false (st_max_width s) = true /\ measurable_if_any false (st_max_height s) = true.
Definition limits_differ (s t : style) : Prop :=
  plain_limits s /\ plain_limits t /\ exists mw Mw Mh, t = with_limits mw Mw Mh s.
