(** * What C159 says: larger sides and smaller widths never make anything wider *)
From Coq Require Import ZArith QArith Qcanon Bool List.
From Verif Require Import PyNum Units BoxModel Engine EngineSpec RefLayout EdgeSpec MoveSpec MonoSpec.
Import ListNotations.
Open Scope Qc_scope.

Section Narrow.
Context (d : display_t).
(** The second length is not larger: lengths other than percentages, or the
    same percentage, not negative. *)
Definition len_ge (u v : unit_) : Prop :=
  len_le d v u
  \/ (is_percentage u = true /\ is_percentage v = true /\ amount (u_val v) = amount (u_val u) /\ 0 <= amount (u_val u)).
Definition width_ge (x y : lenauto) : Prop :=
  match x, y with Auto, Auto => True | Len u, Len v => len_ge u v | _, _ => False end.
(** A largest width may be added, a smallest width dropped. *)
Definition max_ge (x y : option unit_) : Prop :=
  match x, y with None, _ => True | Some u, Some v => len_ge u v | Some _, None => False end.
Definition min_ge (x y : lenauto) : Prop :=
  match x, y with _, Auto => True | Len u, Len v => len_ge u v | Auto, Len _ => False end.
(** [t] narrows [s]. *)
Definition narrows (s t : style) : Prop :=
  st_display s = st_display t /\ (st_height s = Auto <-> st_height t = Auto)
  /\ width_ge (st_width s) (st_width t) /\ max_ge (st_max_width s) (st_max_width t) /\ min_ge (st_min_width s) (st_min_width t)
  /\ auto0_le d (st_margin_left s) (st_margin_left t) /\ auto0_le d (st_margin_right s) (st_margin_right t)
  /\ len_le d (st_padding_left s) (st_padding_left t) /\ len_le d (st_padding_right s) (st_padding_right t)
  /\ border_le d (st_border_left s) (st_border_left t) /\ border_le d (st_border_right s) (st_border_right t).
Definition size_narrows (i j : size) : Prop :=
  s_replaced i = s_replaced j /\ s_height i = s_height j /\ s_ratio i = s_ratio j
  /\ match s_width i, s_width j with None, None => True | Some x, Some y => nval y <= nval x | _, _ => False end.
(** Documents of the same shape; the other declarations are arbitrary. *)
Inductive doc_narrows {S : Type} (sty : S -> style) : node S -> node S -> Prop :=
| doc_narrows_node s s' i i' b b' ks ks' : narrows (sty s) (sty s') -> size_narrows i i' ->
    Forall2 (doc_narrows sty) ks ks' -> doc_narrows sty (Node s i b ks) (Node s' i' b' ks').
End Narrow.

(** No content box of the second page is wider than the same box of the first. *)
Inductive none_wider : utree -> utree -> Prop :=
| none_wider_box u v us vs : or0 (u_w v) <= or0 (u_w u) -> (u_w u = None <-> u_w v = None) ->
    Forall2 none_wider us vs -> none_wider (UNode u us) (UNode v vs)
| none_wider_hidden : none_wider UHidden UHidden
| none_wider_skipped : none_wider USkipped USkipped.
