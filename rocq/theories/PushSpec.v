(** * What C141 and C142 say: how a change moves what comes after it *)
From Coq Require Import ZArith QArith Qcanon Bool List.
From Verif Require Import PyNum Units BoxModel Engine EngineSpec RefLayout LocalSpec.
Import ListNotations.
Open Scope Qc_scope.

(** A laid out subtree [t] px lower. *)
Definition slide (t : Qc) (k : utree) : utree :=
  match k with UNode u us => UNode (move_down t u) us | k => k end.
(** The same margins, borders, paddings, width and position; the height and the
    collapsed extents may differ. *)
Definition same_frame (u v : used) : Prop :=
  (u_mt u, u_mr u, u_mb u, u_ml u) = (u_mt v, u_mr v, u_mb v, u_ml v)
  /\ (u_bt u, u_br u, u_bb u, u_bl u) = (u_bt v, u_br v, u_bb v, u_bl v)
  /\ (u_pt u, u_pr u, u_pb u, u_pl u) = (u_pt v, u_pr v, u_pb v, u_pl v)
  /\ (u_w u, u_left u, u_top u) = (u_w v, u_left v, u_top v).
(** The same, and [t] px higher. *)
Definition grown (t : Qc) (u v : used) : Prop :=
  same_frame u v /\ or0 (u_h v) = or0 (u_h u) + t /\ u_cb v = u_cb u.
(** What layout does to the root at the end: its collapsed top margin moves it
    down, and with HTML5 its height is fitted to the display. *)
Definition completed (h5 : bool) (d : display_t) (u : used) : used :=
  let 'mkUsed mt mr mb ml bt br bb bl pt pr pb pl w h lf tp ct cb := u in
  mkUsed mt mr mb ml bt br bb bl pt pr pb pl w
    (if h5 then Some (nval (disp_height d) - Z2Qc ct - Z2Qc cb) else h) lf (tp + Z2Qc ct) ct cb.
Definition finished (h5 : bool) (d : display_t) (k : utree) : utree :=
  match k with UNode u us => UNode (completed h5 d u) us | k => k end.

(** The same position, size, margins, borders and paddings, and the same
    extent below; the collapsed top extent may differ. *)
Definition same_outside (u v : used) : Prop := same_frame u v /\ u_h u = u_h v /\ u_cb u = u_cb v.
(** [same_but p t t']: the laid out trees differ at most in what is below the
    node at [p] and in the collapsed top extents on the path. *)
Inductive same_but : list nat -> utree -> utree -> Prop :=
| but_here u v us us' : same_outside u v -> same_but [] (UNode u us) (UNode v us')
| but_below p u v before k k' rest : same_outside u v -> same_but p k k' ->
    same_but (length before :: p) (UNode u (before ++ k :: rest)) (UNode v (before ++ k' :: rest))
| but_away p t : t = UHidden \/ t = USkipped -> same_but p t t.

Section Push.
Context {S : Type} (sty : S -> style).
Notation node := (node S).
(** [edited p r n m]: the documents differ in one place.  Below the node at the
    path without its last step, some children are replaced by any others; the
    last step is the number of children before, [r] the number after. *)
Inductive edited : list nat -> nat -> node -> node -> Prop :=
| edited_here s i b b' before before' old new rest rest' :
    map inputs before = map inputs before' -> map inputs rest = map inputs rest' ->
    has_block sty (before ++ old ++ rest) = has_block sty (before' ++ new ++ rest') ->
    edited [length before] (length rest) (Node s i b (before ++ old ++ rest)) (Node s i b' (before' ++ new ++ rest'))
| edited_below p r s i b b' before before' k k' rest rest' :
    map inputs before = map inputs before' -> edited p r k k' -> map inputs rest = map inputs rest' ->
    edited (length before :: p) r (Node s i b (before ++ k :: rest)) (Node s i b' (before' ++ k' :: rest')).
(** [slid p r t t']: on the path, what comes before is the same; what comes
    after is the same up to one vertical move for each level. *)
Inductive slid : list nat -> nat -> utree -> utree -> Prop :=
| slid_here u v before old new rest t : same_frame u v ->
    slid [length before] (length rest) (UNode u (before ++ old ++ rest)) (UNode v (before ++ new ++ map (slide t) rest))
| slid_below p r u v before k k' rest t : same_frame u v -> slid p r k k' ->
    slid (length before :: p) r (UNode u (before ++ k :: rest)) (UNode v (before ++ k' :: map (slide t) rest))
| slid_away p r t : t = UHidden \/ t = USkipped -> slid p r t t.

(** A style with another height. *)
Definition set_height (h : lenauto) (s : style) : style :=
  mkStyle (st_display s) (st_position s) (st_float s) (st_direction s) (st_width s) h
    (st_min_width s) (st_min_height s) (st_max_width s) (st_max_height s)
    (st_margin_top s) (st_margin_right s) (st_margin_bottom s) (st_margin_left s)
    (st_padding_top s) (st_padding_right s) (st_padding_bottom s) (st_padding_left s)
    (st_border_top s) (st_border_right s) (st_border_bottom s) (st_border_left s)
    (st_top s) (st_right s) (st_bottom s) (st_left s)
    (st_border_top_style s) (st_border_right_style s) (st_border_bottom_style s) (st_border_left_style s).
(** [resized p t n m]: the block at [p] has a height in px in both documents,
    [t] px (in layout units) more in [m], and any children; all above it are
    blocks, and nothing else differs. *)
Inductive resized : list nat -> Qc -> node -> node -> Prop :=
| resized_here s s' i i' b b' ks ks' h h' :
    block_level (sty s) = true -> st_height (sty s) = Len (mkU KPx h) -> st_max_height (sty s) = None ->
    sty s' = set_height (Len (mkU KPx h')) (sty s) ->
    resized [] (to_grid (amount h') - to_grid (amount h)) (Node s i b ks) (Node s' i' b' ks')
| resized_below p t s i b b' before before' k k' rest rest' :
    st_display (sty s) = Some DBlock \/ st_display (sty s) = Some DListItem ->
    map inputs before = map inputs before' -> resized p t k k' -> map inputs rest = map inputs rest' ->
    resized (length before :: p) t (Node s i b (before ++ k :: rest)) (Node s i b' (before' ++ k' :: rest')).
(** The height of the node follows from its last child. *)
Definition from_last (n : node) : bool :=
  match st_height (sty (n_style n)), rev (n_kids n) with
  | Auto, k :: _ => block_level (sty (n_style k))
  | _, _ => false
  end.
(** [pushed p t g n k k']: the node at [p] is [t] px higher and each node above
    grows as its height follows from its last child; on each level what comes
    before stays, and what comes after moves down as the child grows.  [g] is
    the growth of the root. *)
Inductive pushed : list nat -> Qc -> Qc -> node -> utree -> utree -> Prop :=
| pushed_here t n u v us us' : grown t u v -> pushed [] t t n (UNode u us) (UNode v us')
| pushed_below p t g n k u v before x x' rest :
    nth_error (n_kids n) (length before) = Some k -> length (n_kids n) = length (before ++ x :: rest) ->
    pushed p t g k x x' -> grown (if from_last n then g else 0) u v ->
    pushed (length before :: p) t (if from_last n then g else 0) n
      (UNode u (before ++ x :: rest)) (UNode v (before ++ x' :: map (slide g) rest)).
(** [refilled p n m]: the node at [p] has a height of its own, or is inline, and
    its children are replaced by any others; nothing else differs. *)
Inductive refilled : list nat -> node -> node -> Prop :=
| refilled_here s i b b' ks ks' : st_height (sty s) <> Auto \/ st_display (sty s) = Some DInline ->
    refilled [] (Node s i b ks) (Node s i b' ks')
| refilled_below p s i b b' before before' k k' rest rest' :
    map inputs before = map inputs before' -> refilled p k k' -> map inputs rest = map inputs rest' ->
    refilled (length before :: p) (Node s i b (before ++ k :: rest)) (Node s i b' (before' ++ k' :: rest')).
End Push.
