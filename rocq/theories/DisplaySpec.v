(** * Specification for C133 and C134: how the size of the display matters *)
From Coq Require Import ZArith QArith Qcanon Bool List.
From Verif Require Import PyNum Units BoxModel Engine EngineSpec RefLayout.
Import ListNotations.
Open Scope Qc_scope.

(** ** C133 *)
(** All lengths of a style satisfy [p]. *)
Definition every_length (p : unit_ -> bool) (s : style) : bool :=
  let auto v := match v with Auto => true | Len u => p u end in
  let opt v := match v with None => true | Some u => p u end in
  let border v := match v with BKw _ => true | BLen u => p u end in
  let off v := match v with OLen u => p u | _ => true end in
  forallb auto [st_width s; st_height s; st_min_width s; st_min_height s; st_margin_top s; st_margin_right s; st_margin_bottom s; st_margin_left s]
  && forallb opt [st_max_width s; st_max_height s]
  && forallb p [st_padding_top s; st_padding_right s; st_padding_bottom s; st_padding_left s]
  && forallb border [st_border_top s; st_border_right s; st_border_bottom s; st_border_left s]
  && forallb off [st_top s; st_right s; st_bottom s; st_left s].
(** Not vh, vmin or vmax. *)
Definition ignores_height (u : unit_) : bool := match u_kind u with KVp _ ScaleVw => true | KVp _ _ => false | _ => true end.
(** The displays differ at most in their heights. *)
Record same_but_height_display (d d' : display_t) : Prop := {
  sd_dpi : nval (dpi d) = nval (dpi d'); sd_width : nval (disp_width d) = nval (disp_width d');
  sd_keyword : forall k, nval (fixed_size d k) = nval (fixed_size d' k) }.
(** In HTML5 mode the root is as high as the display, less its collapsed extents. *)
Definition fitted (h5 : bool) (d : display_t) (u : used) : used :=
  let 'mkUsed mt mr mb ml bt br bb bl pt pr pb pl w h lf tp ct cb := u in
  mkUsed mt mr mb ml bt br bb bl pt pr pb pl w (if h5 then Some (nval (disp_height d) - Z2Qc ct - Z2Qc cb) else h) lf tp ct cb.

Section Display.
Context {S : Type} (sty : S -> style).
Notation node := (node S).
(** Every style in the document satisfies [p]. *)
Fixpoint everywhere (p : style -> bool) (n : node) : bool :=
  let 'Node s _ _ ks := n in p (sty s) && forallb (everywhere p) ks.

(** ** C134 *)
(** The used margin, border and padding on the left and on the right. *)
Definition left_edges (b : box) (l : Qc) : Prop :=
  exists m, margin_left b = LNum m /\ l = nval m + nval (border_left_width b) + nval (padding_left b).
Definition right_edges (b : box) (r : Qc) : Prop :=
  exists m, margin_right b = LNum m /\ r = nval (padding_right b) + nval (border_right_width b) + nval m.
(** A block with width: auto that is not relatively positioned. *)
Definition auto_block (k : node) : Prop :=
  block_level (sty (n_style k)) = true /\ st_width (sty (n_style k)) = Auto /\ st_position (sty (n_style k)) <> PRelative.
(** [auto_path root op k l r]: [k] and all nodes around it are such
    blocks; [l] and [r] are the totals of their left and right edges. *)
Inductive auto_path (root : node) : option node -> node -> Qc -> Qc -> Prop :=
| auto_root b l r : laid sty root None root -> auto_block root -> n_box root = Some b -> left_edges b l -> right_edges b r ->
    auto_path root None root l r
| auto_kid op p k b l r l' r' : auto_path root op p l r -> laid sty root (Some p) k -> In k (n_kids p) -> auto_block k ->
    n_box k = Some b -> left_edges b l' -> right_edges b r' -> auto_path root (Some p) k (l + l') (r + r').
(** No negative edge on the left or right. *)
Definition nonneg_sides (k : node) : Prop :=
  exists b ml mr, n_box k = Some b /\ margin_left b = LNum ml /\ margin_right b = LNum mr
    /\ Forall (fun x => 0 <= nval x) [ml; mr; border_left_width b; border_right_width b; padding_left b; padding_right b].
End Display.
