(** * What C208 says: top margins of first blocks *)
From Coq Require Import ZArith QArith Qcanon Bool List.
From Verif Require Import PyNum Units BoxModel Engine RefLayout AxisSpec SoftSpec.
Import ListNotations.
Open Scope Qc_scope.

Section First.
Context {S : Type} (sty : S -> style).
Notation node := (node S).
(** The same declarations, except that a block may have another top margin (of any kind, if [free]). *)
Definition top_free (free : bool) (s t : style) : Prop :=
  t = s \/ free = true /\ block_level s = true /\ exists v, t = with_margin_top v s.
Definition block_or_item (s : style) : bool := match st_display s with Some (DBlock | DListItem) => true | _ => false end.
(** The second document is the first one with other top margins of blocks: of the outermost one (if [free]), of the first block-level child
    of blocks and list items, and of any block-level children of other elements. *)
Inductive first_margins : bool -> node -> node -> Prop :=
| first_node free s s' i b b' ks ks' : top_free free (sty s) (sty s') -> first_kids (block_or_item (sty s)) true ks ks' ->
    first_margins free (Node s i b ks) (Node s' i b' ks')
(** [p]: the parent is a block or list item; [first]: no block-level child so far. *)
with first_kids : bool -> bool -> list node -> list node -> Prop :=
| first_end p first : first_kids p first [] []
| first_next p first k k' ks ks' : first_margins (first || negb p) k k' ->
    first_kids p (first && negb (block_level (sty (n_style k)))) ks ks' -> first_kids p first (k :: ks) (k' :: ks').
End First.
(** Of the root also the vertical position and, in HTML5 mode, the height depend on the extent collapsed at the top:
    the root is moved down by it and ends where it did. *)
Definition but_start (h5 : bool) (u : used) : list Qc * list (option Qc) * Z :=
  ([u_mr u; u_ml u; u_bt u; u_br u; u_bb u; u_bl u; u_pt u; u_pr u; u_pb u; u_pl u; u_left u; u_top u - Z2Qc (u_ct u)],
   [u_mb u; u_w u; if h5 then option_map (fun h => h + Z2Qc (u_ct u)) (u_h u) else u_h u], u_cb u).
Inductive same_but_start (h5 : bool) : utree -> utree -> Prop :=
| same_start_root u v us vs : but_start h5 u = but_start h5 v -> Forall2 (same_on but_top) us vs -> same_but_start h5 (UNode u us) (UNode v vs)
| same_start_hidden : same_but_start h5 UHidden UHidden.
