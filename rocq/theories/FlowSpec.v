(** * Specification for C157 and C158: order and nesting on the page *)
From Coq Require Import ZArith QArith Qcanon Bool List.
From Verif Require Import PyNum Units BoxModel BoxSpec Engine EngineSpec RefLayout EdgeSpec.
Import ListNotations.
Open Scope Qc_scope.

(** A block or list item in normal position, whose upper and lower borders and
    paddings are not negative.  Nothing is said about its margins. *)
Record in_normal_flow (s : style) : Prop := {
  nf_display : st_display s = Some DBlock \/ st_display s = Some DListItem;
  nf_static : st_position s <> PRelative;
  nf_bt : plain_border (st_border_top s); nf_bb : plain_border (st_border_bottom s);
  nf_pt : plain_length (st_padding_top s); nf_pb : plain_length (st_padding_bottom s) }.
(** Heights that are not negative. *)
Definition sized (s : style) : Prop :=
  size_or_auto (st_height s) /\ size_or_auto (st_min_height s)
  /\ match st_max_height s with None => True | Some u => size_length u end.

Section Flow.
Context {S : Type} (sty : S -> style).
Notation node := (node S).
(** Documents of such blocks.  Those with children have the height of their
    children.  (Hidden blocks are left out: before another block they make the
    layout fail, and at the end their parent loses its height, see C105.) *)
Inductive flowing : node -> Prop :=
| flowing_leaf s i b : in_normal_flow (sty s) -> sized (sty s) -> flowing (Node s i b [])
| flowing_block s i b ks :
    in_normal_flow (sty s) -> st_height (sty s) = Auto -> ks <> [] -> (forall k, In k ks -> flowing k) -> flowing (Node s i b ks).

(** A block of automatic width in normal position, with horizontal margins,
    borders and paddings that are not negative. *)
Definition margin_side (v : lenauto) : Prop := match v with Auto => True | Len u => plain_length u end.
Record fills (s : style) : Prop := {
  fl_display : block_level s = true;
  fl_static : st_position s <> PRelative;
  fl_width : st_width s = Auto;
  fl_ml : margin_side (st_margin_left s); fl_mr : margin_side (st_margin_right s);
  fl_bl : plain_border (st_border_left s); fl_br : plain_border (st_border_right s);
  fl_pl : plain_length (st_padding_left s); fl_pr : plain_length (st_padding_right s) }.
Inductive filling : node -> Prop :=
| filling_hidden n : st_display (sty (n_style n)) = None -> filling n
| filling_block s i b ks : fills (sty s) -> (forall k, In k ks -> filling k) -> filling (Node s i b ks).

(** The box of the displayed node at the end of the path [p]. *)
Definition box_at (n : node) (p : list nat) (b : box) : Prop :=
  displayed_path sty p n /\ exists k, get_path p n = Some k /\ n_box k = Some b.
End Flow.

(** [p] comes before [q] in the document and neither contains the other. *)
Definition precedes (p q : list nat) : Prop :=
  exists above i j p' q', p = above ++ i :: p' /\ q = above ++ j :: q' /\ (i < j)%nat.
(** [q] is inside [p]. *)
Definition inside (q p : list nat) : Prop := exists j r, q = p ++ j :: r.
(** A display without negative sizes. *)
Definition sane_display (d : display_t) : Prop :=
  0 <= nval (dpi d) /\ 0 <= nval (disp_width d) /\ 0 <= nval (disp_height d) /\ forall kw, 0 <= nval (fixed_size d kw).
