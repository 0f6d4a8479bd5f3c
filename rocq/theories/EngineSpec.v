(** * Specifications for layout *)
From Coq Require Import ZArith QArith Qcanon Qround Bool List.
From Verif Require Import PyNum Units BoxModel Engine.
Import ListNotations.
Open Scope Z_scope.

Section Spec.
Context {S : Type} (sty : S -> style).
Notation node := (node S).

Definition displayed (n : node) : Prop := st_display (sty (n_style n)) <> None.

(** [laid root op k]: the node [k] of the document [root] takes part in layout,
    with parent [op] ([None] for the root itself).  All children of a node take
    part, except that in a block formatting context (a block container with a
    block-level child) only the block-level children do. *)
Inductive laid (root : node) : option node -> node -> Prop :=
| laid_root : displayed root -> laid root None root
| laid_kid op p k : laid root op p -> In k (n_kids p) -> displayed k ->
    (establishes_inline sty p = true \/ is_block_level (sty (n_style k)) = true) ->
    laid root (Some p) k.

(** The width of the containing block: the display for the root, the content
    box of the parent for other nodes. *)
Definition containing_width (d : display_t) (op : option node) : lval :=
  match op with
  | None => LNum (disp_width d)
  | Some p => match n_box p with Some b => content_width b | None => LNone end
  end.

(** What percentages of horizontal margins and widths refer to. *)
Definition width_ctx (d : display_t) (op : option node) : ctx :=
  mkCtx d dummy_font (containing_width d op).

(** The height children see while they are laid out: the display for the root;
    0 below a static parent, and below a relative block of auto height; the
    used height below other relative parents. *)
Definition height_ref (d : display_t) (op : option node) : lval :=
  match op with
  | None => LNum (disp_height d)
  | Some p =>
      if is_relative (sty (n_style p)) then
        match is_block_level (sty (n_style p)), st_height (sty (n_style p)), n_box p with
        | true, Auto, _ => LNum (NI 0)
        | _, _, Some b => content_height b
        | _, _, None => LNone
        end
      else LNum (NI 0)
  end.
Definition height_ctx (d : display_t) (op : option node) : ctx :=
  mkCtx d dummy_font (height_ref d op).

(** Every displayed node with displayed ancestors has a box. *)
Inductive ready : node -> Prop :=
| ready_hidden n : st_display (sty (n_style n)) = None -> ready n
| ready_boxed s i b ks : (forall k, In k ks -> ready k) -> ready (Node s i (Some b) ks).

(** Every node has a box. *)
Inductive boxed : node -> Prop :=
| boxed_node s i b ks : (forall k, In k ks -> boxed k) -> boxed (Node s i (Some b) ks).

(** The inputs of layout: styles, intrinsic sizes and structure. *)
Fixpoint inputs (n : node) : node :=
  let 'Node s i _ ks := n in Node s i None (map inputs ks).

(** No node is hidden. *)
Inductive all_displayed : node -> Prop :=
| all_displayed_node s i bx ks : st_display (sty s) <> None ->
    (forall k, In k ks -> all_displayed k) -> all_displayed (Node s i bx ks).

(** Paths are lists of child indices.  [displayed_path p n]: the path [p] exists
    in [n] and no node on it is hidden. *)
Inductive displayed_path : list nat -> node -> Prop :=
| dp_here n : displayed n -> displayed_path [] n
| dp_kid j p n k : displayed n -> nth_error (n_kids n) j = Some k -> displayed_path p k ->
    displayed_path (j :: p) n.
(** [path_sum f p n q]: all nodes on the path have a box, and [q] is the sum of
    the attribute [f] over them. *)
Inductive path_sum (f : box -> num) : list nat -> node -> Qc -> Prop :=
| ps_here n b : n_box n = Some b -> path_sum f [] n (nval (f b))
| ps_kid j p n b k q : n_box n = Some b -> nth_error (n_kids n) j = Some k -> path_sum f p k q ->
    path_sum f (j :: p) n (nval (f b) + q)%Qc.
End Spec.

(** ** Horizontal geometry of one box *)
Open Scope Qc_scope.

(** margin-left + border-left + padding-left + width + padding-right +
    border-right + margin-right *)
Inductive total_width (b : box) : Qc -> Prop :=
| total_width_intro ml w mr :
    margin_left b = LNum ml -> content_width b = LNum w -> margin_right b = LNum mr ->
    total_width b (nval ml + nval (border_left_width b) + nval (padding_left b) + nval w
                   + nval (padding_right b) + nval (border_right_width b) + nval mr).

(** The used margins and width as rationals. *)
Inductive horizontal (b : box) : Qc -> Qc -> Qc -> Prop :=
| horizontal_intro ml w mr :
    margin_left b = LNum ml -> content_width b = LNum w -> margin_right b = LNum mr ->
    horizontal b (nval ml) (nval w) (nval mr).

(** border-left + padding-left + padding-right + border-right *)
Definition h_edges (b : box) : Qc :=
  nval (border_left_width b) + nval (padding_left b) + nval (padding_right b) + nval (border_right_width b).

(** [length_is c v q]: the length [v] is [q] pixels in context [c]. *)
Definition length_is (c : ctx) (u : unit_) (q : Qc) : Prop := exists p, px c u = Ok p /\ nval p = q.
(** [specified c v q]: the specified margin [v] counts as [q]; auto counts as 0. *)
Inductive specified (c : ctx) : lenauto -> Qc -> Prop :=
| spec_auto : specified c Auto 0
| spec_len u q : length_is c u q -> specified c (Len u) q.

(** A width limited by an optional maximum, then by an optional minimum. *)
Definition at_most (m : option Qc) (w : Qc) : Qc :=
  match m with Some m => if qc_ltb m w then m else w | None => w end.
Definition at_least (m : option Qc) (w : Qc) : Qc :=
  match m with Some m => if qc_ltb w m then m else w | None => w end.

(** ** Vertical geometry *)
Definition qc_max (a b : Qc) : Qc := if qc_ltb a b then b else a.

(** The distance kept from the previous sibling: none before the first child,
    afterwards the larger of the previous bottom extent and the top margin. *)
Definition gap (prev : option Z) (mt : Qc) : Qc :=
  match prev with None => 0 | Some z => qc_max (Z2Qc z) mt end.

Section Vertical.
Context {S : Type} (sty : S -> style).
Notation node := (node S).

(** [stacked top prev ks]: the border boxes of [ks] are stacked from [top]
    downwards, [prev] being the bottom extent of the previous sibling (if any).
    A relatively positioned box takes its place in the stack but may itself be
    elsewhere. *)
Inductive stacked : Qc -> option Z -> list node -> Prop :=
| stacked_nil top prev : stacked top prev []
| stacked_cons top prev k b mt h ks :
    n_box k = Some b -> margin_top b = LNum mt -> border_box_height b = Ok h ->
    (is_relative (sty (n_style k)) = false -> nval (border_box_top b) = top + gap prev (nval mt)) ->
    stacked (top + gap prev (nval mt) + nval h) (Some (collapse_bottom b)) ks ->
    stacked top prev (k :: ks).

(** The block-level children of a node come first (otherwise it would not
    have been laid out). *)
Definition in_flow (p : node) (pre : list node) : Prop :=
  exists suf, n_kids p = pre ++ suf
  /\ (forall k, In k pre -> is_block_level (sty (n_style k)) = true)
  /\ (forall k, In k suf -> is_block_level (sty (n_style k)) = false).

(** The collapsed top extent of the first child of a block formatting context. *)
Definition first_extent (n : node) : Z :=
  if establishes_inline sty n then 0%Z
  else match n_kids n with
       | k :: _ => match n_box k with Some kb => collapse_top kb | None => 0%Z end
       | [] => 0%Z
       end.

(** The specified height of the parent. *)
Definition parent_height (op : option node) : option unit_ :=
  match op with
  | None => None
  | Some p => match st_height (sty (n_style p)) with Auto => None | Len u => Some u end
  end.
(** Excludes only the children of a relatively positioned root in HTML5 mode
    (they saw the height the root had before it was fitted to the display). *)
Definition parent_ok (h5 : bool) (root : node) (op : option node) : Prop :=
  match op with
  | None => True
  | Some p => is_relative (sty (n_style p)) = true -> h5 = false \/ exists q, laid sty root (Some q) p
  end.

(** [explicit_height d op u q]: the specified height [u] of a child of [op] is
    [q] pixels; percentages refer to the specified height of the parent. *)
Inductive explicit_height (d : display_t) (op : option node) (u : unit_) : Qc -> Prop :=
| eh_parent pu p q : parent_height op = Some pu -> px (height_ctx sty d op) pu = Ok p ->
    length_is (mkCtx d dummy_font (LNum p)) u q -> explicit_height d op u q
| eh_free q : parent_height op = None -> length_is (height_ctx sty d op) u q -> explicit_height d op u q.
End Vertical.

(** The margin as a collapse extent: whole positive pixels, otherwise 0. *)
Definition whole (v : lval) : Z := match v with LNum (NI z) => Z.max 0 z | _ => 0%Z end.

(** ** Supported and unsupported documents *)
(** A length that can be converted to pixels wherever there is a number for
    percentages to refer to. *)
Definition convertible (u : unit_) : Prop :=
  forall d f x, exists p, px (mkCtx d f (LNum x)) u = Ok p.
Definition conv_lenauto (v : lenauto) : Prop := forall u, v = Len u -> convertible u.
Definition conv_bwidth (v : bwidth) : Prop := forall u, v = BLen u -> convertible u.
Definition conv_opt (v : option unit_) : Prop := forall u, v = Some u -> convertible u.
(** AUTO or a convertible length; INHERIT is excluded. *)
Definition conv_offset (v : offset) : Prop := v <> OInherit /\ forall u, v = OLen u -> convertible u.

Record convertible_style (s : style) : Prop := {
  cs_width : conv_lenauto (st_width s); cs_height : conv_lenauto (st_height s);
  cs_min_width : conv_lenauto (st_min_width s); cs_min_height : conv_lenauto (st_min_height s);
  cs_max_width : conv_opt (st_max_width s); cs_max_height : conv_opt (st_max_height s);
  cs_mt : conv_lenauto (st_margin_top s); cs_mr : conv_lenauto (st_margin_right s);
  cs_mb : conv_lenauto (st_margin_bottom s); cs_ml : conv_lenauto (st_margin_left s);
  cs_pt : convertible (st_padding_top s); cs_pr : convertible (st_padding_right s);
  cs_pb : convertible (st_padding_bottom s); cs_pl : convertible (st_padding_left s);
  cs_bt : conv_bwidth (st_border_top s); cs_br : conv_bwidth (st_border_right s);
  cs_bb : conv_bwidth (st_border_bottom s); cs_bl : conv_bwidth (st_border_left s);
  cs_top : conv_offset (st_top s); cs_right : conv_offset (st_right s);
  cs_bottom : conv_offset (st_bottom s); cs_left : conv_offset (st_left s) }.

Section Support.
Context {S : Type} (sty : S -> style).
Notation node := (node S).

(** Documents of in-flow block-level non-replaced nodes with convertible lengths. *)
Inductive block_document : node -> Prop :=
| block_document_node s i bx ks :
    In (st_display (sty s)) [Some DBlock; Some DListItem; Some DTable] ->
    In (st_position (sty s)) [PStatic; PRelative] -> st_float (sty s) = None -> s_replaced i = false ->
    convertible_style (sty s) -> (forall k, In k ks -> block_document k) ->
    block_document (Node s i bx ks).

(** Features the engine does not support. *)
Inductive unsupported (s : style) (i : size) : Prop :=
| uns_float side : st_float s = Some side -> unsupported s i
| uns_position : In (st_position s) [PAbsolute; PFixed] -> unsupported s i
| uns_replaced : In (st_display s) [Some DBlock; Some DListItem; Some DTable] -> s_replaced i = true -> unsupported s i
| uns_display dk : st_display s = Some dk ->
    In dk [DInlineBlock; DInlineTable; DTableRowGroup; DTableHeaderGroup; DTableFooterGroup; DTableRow;
           DTableColumnGroup; DTableColumn; DTableCell; DTableCaption; DFlex; DInlineFlex; DGrid; DInlineGrid] ->
    unsupported s i.
End Support.

(** ** All lengths of a style *)
Definition la_units (v : lenauto) : list unit_ := match v with Auto => [] | Len u => [u] end.
Definition bw_units (v : bwidth) : list unit_ := match v with BKw _ => [] | BLen u => [u] end.
Definition op_units (v : option unit_) : list unit_ := match v with None => [] | Some u => [u] end.
Definition of_units (v : offset) : list unit_ := match v with OLen u => [u] | _ => [] end.
Definition style_units (s : style) : list unit_ :=
  la_units (st_width s) ++ la_units (st_height s) ++ la_units (st_min_width s) ++ la_units (st_min_height s)
  ++ op_units (st_max_width s) ++ op_units (st_max_height s)
  ++ la_units (st_margin_top s) ++ la_units (st_margin_right s) ++ la_units (st_margin_bottom s) ++ la_units (st_margin_left s)
  ++ [st_padding_top s; st_padding_right s; st_padding_bottom s; st_padding_left s]
  ++ bw_units (st_border_top s) ++ bw_units (st_border_right s) ++ bw_units (st_border_bottom s) ++ bw_units (st_border_left s)
  ++ of_units (st_top s) ++ of_units (st_right s) ++ of_units (st_bottom s) ++ of_units (st_left s).

(** Every node of a document satisfies [P]. *)
Inductive every_node {S : Type} (P : S -> size -> Prop) : node S -> Prop :=
| every_node_intro s i bx ks : P s i -> (forall k, In k ks -> every_node P k) -> every_node P (Node s i bx ks).

(** All lengths are in pixels. *)
Definition px_style (s : style) : Prop := forall u, In u (style_units s) -> u_kind u = KPx.

(** ** Inline replaced elements *)
(** [no_number o]: an intrinsic dimension that is missing (or 0). *)
Definition no_number (o : option num) : Prop := forall x, o = Some x -> nval x = 0%Qc.

(** [z] is the nearest integer of [q], of two equally near ones the even one. *)
Definition nearest_pixel (z : Z) (q : Qc) : Prop :=
  (Z2Qc z - qfrac 1 2 <= q)%Qc /\ (q <= Z2Qc z + qfrac 1 2)%Qc
  /\ (q = (Z2Qc z - qfrac 1 2)%Qc \/ q = (Z2Qc z + qfrac 1 2)%Qc -> Z.Even z).
(** [h] is the smaller of [a] and [b]. *)
Definition smaller_of (a b h : Qc) : Prop := (h = a \/ h = b) /\ (h <= a)%Qc /\ (h <= b)%Qc.

(** [replaced_width c s i b w]: [w] is the used width, [b] the used box:
    the specified width; the intrinsic width; intrinsic height times ratio;
    what fills the containing block when only the ratio is known; 300. *)
Inductive replaced_width (c : ctx) (s : style) (i : size) (b : box) : num -> Prop :=
| rw_specified u w : st_width s = Len u -> px c u = Ok w -> replaced_width c s i b w
| rw_intrinsic w : st_width s = Auto -> s_width i = Some w -> replaced_width c s i b w
| rw_ratio h r z : st_width s = Auto -> st_height s = Auto -> s_width i = None ->
    s_height i = Some h -> s_ratio i = Some r -> nearest_pixel z (nval h * nval r)%Qc -> replaced_width c s i b (NI z)
| rw_fill r w W : st_width s = Auto -> st_height s = Auto -> s_width i = None -> s_height i = None ->
    s_ratio i = Some r -> c_size c = LNum W -> content_width b = LNum w -> total_width b (nval W) ->
    replaced_width c s i b w
| rw_default : st_width s = Auto -> s_width i = None -> st_height s <> Auto \/ s_ratio i = None ->
    replaced_width c s i b (NI 300).

(** [replaced_height c s i w h]: [h] is the used height when the used width is [w]. *)
Inductive replaced_height (c : ctx) (s : style) (i : size) (w : num) : num -> Prop :=
| rh_specified u h : st_height s = Len u -> px c u = Ok h -> replaced_height c s i w h
| rh_both_auto h : st_height s = Auto -> st_width s = Auto -> s_height i = Some h -> replaced_height c s i w h
| rh_ratio r h : st_height s = Auto -> st_width s <> Auto \/ s_height i = None -> s_ratio i = Some r -> nval r <> 0%Qc ->
    nval h = (nval w * nval r)%Qc -> replaced_height c s i w h
| rh_intrinsic h : st_height s = Auto -> st_width s <> Auto -> no_number (s_ratio i) -> s_height i = Some h ->
    nval h <> 0%Qc -> replaced_height c s i w h
| rh_default h : st_height s = Auto -> st_width s <> Auto \/ s_height i = None -> no_number (s_ratio i) ->
    no_number (s_height i) -> smaller_of (Z2Qc (Qfloor (this (nval w / Z2Qc 2)%Qc))) (Z2Qc 150) (nval h) -> replaced_height c s i w h.

(** ** Relative positioning *)
(** [shift_by c start end_ q]: the offset pair (left, right) or (top, bottom)
    moves the box by [q]: start if given, otherwise minus end, otherwise 0. *)
Inductive shift_by (c : ctx) : offset -> offset -> Qc -> Prop :=
| sh_start u e q : length_is c u q -> shift_by c (OLen u) e q
| sh_end u q : length_is c u q -> shift_by c OAuto (OLen u) (- q)%Qc
| sh_none : shift_by c OAuto OAuto 0%Qc.

(** ** Non-negative lengths *)
(** A length that is non-negative on the display [d], whatever the font and
    the size percentages refer to. *)
Definition nonneg_length (d : display_t) (u : unit_) : Prop :=
  forall f x p, px (mkCtx d f x) u = Ok p -> (0 <= nval p)%Qc.
(** All lengths of the style are non-negative, and so are the widths of the
    border keywords it uses. *)
Definition nonneg_style (d : display_t) (s : style) : Prop :=
  (forall u, In u (style_units s) -> nonneg_length d u) /\ (forall k, 0 <= nval (fixed_size d k))%Qc.
