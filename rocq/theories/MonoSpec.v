(** * What C155 says: larger vertical lengths never move anything up *)
From Coq Require Import ZArith QArith Qcanon Bool List.
From Verif Require Import PyNum Units BoxModel Engine EngineSpec RefLayout MoveSpec.
Import ListNotations.
Open Scope Qc_scope.

Section Le.
Context (d : display_t).
(** Lengths other than percentages, the second not smaller. *)
Definition len_le (u v : unit_) : Prop := no_pct u = true /\ no_pct v = true /\ len d 0 u <= len d 0 v.
Definition border_le (x y : bwidth) : Prop := no_pct_border x = true /\ no_pct_border y = true /\ border_len d 0 x <= border_len d 0 y.
(** Here auto counts as 0. *)
Definition auto0_le (x y : lenauto) : Prop := no_pct_auto x = true /\ no_pct_auto y = true /\ len0 d 0 x <= len0 d 0 y.
(** A margin that is changed becomes a whole number of pixels: others do not
    collapse. *)
Definition margin_le (x y : lenauto) : Prop :=
  auto0_le x y /\ (len0 d 0 x = len0 d 0 y \/ exists z, len0 d 0 y = Z2Qc z).
Definition height_le (x y : lenauto) : Prop :=
  match x, y with Auto, Auto => True | Len u, Len v => len_le u v | _, _ => False end.
Definition limit_le (x y : option unit_) : Prop :=
  match x, y with None, None => True | Some u, None => no_pct u = true | Some u, Some v => len_le u v | None, Some _ => False end.
Definition style_le (s t : style) : Prop :=
  st_display s = st_display t /\ st_position s = st_position t
  /\ height_le (st_height s) (st_height t) /\ auto0_le (st_min_height s) (st_min_height t) /\ limit_le (st_max_height s) (st_max_height t)
  /\ margin_le (st_margin_top s) (st_margin_top t) /\ margin_le (st_margin_bottom s) (st_margin_bottom t)
  /\ len_le (st_padding_top s) (st_padding_top t) /\ len_le (st_padding_bottom s) (st_padding_bottom t)
  /\ border_le (st_border_top s) (st_border_top t) /\ border_le (st_border_bottom s) (st_border_bottom t)
  /\ (forallb no_pct_offset [st_top s; st_bottom s; st_top t; st_bottom t] = true
      /\ shift d 0 None (st_top s) (st_bottom s) <= shift d 0 None (st_top t) (st_bottom t)).
(** Words with an intrinsic height; images with a given height, or with an
    intrinsic one and no given width. *)
Definition size_le (s t : style) (i j : size) : Prop :=
  s_replaced i = s_replaced j /\ or0 (option_map nval (s_height i)) <= or0 (option_map nval (s_height j))
  /\ (s_replaced i = true -> st_height s <> Auto \/ (st_width s = Auto /\ st_width t = Auto /\ s_height i <> None /\ s_height j <> None)).
(** Documents of the same shape; the horizontal declarations are arbitrary. *)
Inductive doc_le {S : Type} (sty : S -> style) : node S -> node S -> Prop :=
| doc_le_node s s' i i' b b' ks ks' : style_le (sty s) (sty s') -> size_le (sty s) (sty s') i i' ->
    Forall2 (doc_le sty) ks ks' -> doc_le sty (Node s i b ks) (Node s' i' b' ks').
End Le.

(** The upper edges of the border box and of the content box, and the lower
    edges of both, when the content box around starts at [y]. *)
Definition upper_edges (y : Qc) (u : used) : list Qc := [y + u_top u - u_pt u - u_bt u; y + u_top u].
Definition lower_edges (y : Qc) (u : used) : list Qc := [y + u_top u + or0 (u_h u); y + border_bottom u].
(** [none_higher y y' t t']: no edge of [t'] is higher on the page than the same
    edge of [t]. *)
Inductive none_higher : Qc -> Qc -> utree -> utree -> Prop :=
| none_higher_box y y' u v us vs :
    Forall2 Qcle (upper_edges y u) (upper_edges y' v) -> Forall2 Qcle (lower_edges y u) (lower_edges y' v) ->
    Forall2 (none_higher (y + u_top u) (y' + u_top v)) us vs -> none_higher y y' (UNode u us) (UNode v vs)
| none_higher_hidden y y' : none_higher y y' UHidden UHidden
| none_higher_skipped y y' : none_higher y y' USkipped USkipped.
(** With HTML5 the root takes what its margins leave of the display, so its
    lower edges are not compared. *)
Inductive page_not_higher : bool -> utree -> utree -> Prop :=
| page_higher_any h5 t t' : none_higher 0 0 t t' -> page_not_higher h5 t t'
| page_higher_html u v us vs : Forall2 Qcle (upper_edges 0 u) (upper_edges 0 v) ->
    Forall2 (none_higher (u_top u) (u_top v)) us vs -> page_not_higher true (UNode u us) (UNode v vs).
