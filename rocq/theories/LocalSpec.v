(** * Specification for C131 and C132: what a change of the document can affect *)
From Coq Require Import ZArith QArith Qcanon Bool List.
From Verif Require Import PyNum Units BoxModel Engine EngineSpec RefLayout.
Import ListNotations.
Open Scope Qc_scope.

Section Local.
Context {S : Type} (sty : S -> style).
Notation node := (node S).

(** ** C131 *)
Definition has_block (ks : list node) : bool := existsb (fun k => block_level (sty (n_style k))) ks.
(** [later p n m]: the documents [n] and [m] are the same up to the place [p] (the
    numbers of the children to go to; the last number is that of the first child
    that may differ).  Afterwards anything may differ: children may be
    added, removed and changed.  If a node on the way has block-level children
    in one of the documents, one of them comes before that place or contains
    it. *)
Inductive later : list nat -> node -> node -> Prop :=
| later_here s i b b' before before' rest rest' :
    map inputs before = map inputs before' ->
    has_block before = true \/ (has_block rest = false /\ has_block rest' = false) ->
    later [length before] (Node s i b (before ++ rest)) (Node s i b' (before' ++ rest'))
| later_below p s i b b' before before' k k' rest rest' :
    map inputs before = map inputs before' -> later p k k' ->
    has_block (before ++ [k]) = true \/ (has_block rest = false /\ has_block rest' = false) ->
    later (length before :: p) (Node s i b (before ++ k :: rest)) (Node s i b' (before' ++ k' :: rest')).

(** The same used values, but for the height of the box and its collapsed
    bottom extent. *)
Definition same_but_height (u v : used) : Prop :=
  (u_mt u, u_mr u, u_mb u, u_ml u) = (u_mt v, u_mr v, u_mb v, u_ml v)
  /\ (u_bt u, u_br u, u_bb u, u_bl u) = (u_bt v, u_br v, u_bb v, u_bl v)
  /\ (u_pt u, u_pr u, u_pb u, u_pl u) = (u_pt v, u_pr v, u_pb v, u_pl v)
  /\ (u_w u, u_left u, u_top u, u_ct u) = (u_w v, u_left v, u_top v, u_ct v).
(** [same_before p t t']: the layouts are the same up to the place [p]; the
    nodes that contain the place may have other heights. *)
Inductive same_before : list nat -> utree -> utree -> Prop :=
| same_here u v before rest rest' : same_but_height u v ->
    same_before [length before] (UNode u (before ++ rest)) (UNode v (before ++ rest'))
| same_below p u v before t t' rest rest' : same_but_height u v -> same_before p t t' ->
    same_before (length before :: p) (UNode u (before ++ t :: rest)) (UNode v (before ++ t' :: rest'))
| same_away p t : t = UHidden \/ t = USkipped -> same_before p t t.

(** ** C132 *)
(** The used width of a box that has one. *)
Definition wide (p : node) (w : Qc) : Prop := exists b x, n_box p = Some b /\ content_width b = LNum x /\ nval x = w.
(** Neither offset is inherited. *)
Definition own_offsets (s : style) : Prop := ~ In OInherit [st_left s; st_right s; st_top s; st_bottom s].
(** The height is not a percentage. *)
Definition own_height (s : style) : Prop := match st_height s with Len u => u_kind u <> KPct | Auto => True end.
End Local.
