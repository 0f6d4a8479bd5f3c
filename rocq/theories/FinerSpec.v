(** * What C195 says: a display with more dots per inch *)
From Coq Require Import ZArith QArith Qcanon Bool List.
From Verif Require Import PyNum Units UnitsSpec BoxModel Engine EngineSpec EngineFSpec RefLayout OkSpec SymSpec.
Import ListNotations.
Open Scope Qc_scope.

(** [d'] has the size of [d] in inches, but [k] times as many dots per inch. *)
Definition finer (k : Qc) (d d' : display_t) : Prop := nval (dpi d') = k * nval (dpi d) /\ zoomed_display k d d'.
(** Points, picas, inches, centimetres, millimetres, parts of the font, parts of the display, or 0 px. *)
Definition in_any_dots (u : unit_) : Prop := match u_kind u with KPx => amount (u_val u) = 0 | KPct => False | _ => True end.
(** On both displays, lengths come to multiples of 1/64 px, and vertical margins to whole px. *)
Definition exact_on (d : display_t) (s : style) : Prop :=
  (forall u, In u (lengths_of s) -> on_grid (exact_len d 0 u)) /\ whole_amount d (st_margin_top s) /\ whole_amount d (st_margin_bottom s).
(** The same document; intrinsic sizes, which are numbers of dots, are [k] times as large. *)
Inductive again (k : Qc) (d d' : display_t) {S : Type} (sty : S -> style) : node S -> node S -> Prop :=
| again_node s i i' b b' ks ks' :
    (forall u, In u (lengths_of (sty s)) -> in_any_dots u) -> exact_on d (sty s) -> exact_on d' (sty s) -> not_centred (sty s) ->
    zoomed_size k i i' -> Forall2 (again k d d' sty) ks ks' -> again k d d' sty (Node s i b ks) (Node s i' b' ks').
