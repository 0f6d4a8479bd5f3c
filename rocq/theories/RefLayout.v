(** * A reference layout

    A specification, written without the engine's intermediate states: the used
    values of every node of a document as a recursive function of the styles
    and intrinsic sizes.  It depends on Engine.v only for the type [style]
    of computed styles.  All numbers are exact rationals, in pixels. *)
From Coq Require Import ZArith QArith Qcanon Qround Bool List String.
From Verif Require Import PyNum Units BoxModel Engine.
Import ListNotations.
Open Scope string_scope.
Open Scope Qc_scope.

(** ** Lengths *)
(** The nearest multiple of 1/64 px, ties to even. *)
Definition to_grid (q : Qc) : Qc := qfrac (round_half_even (this (Z2Qc 64 * q))) 64.
(** The magnitude of a length. *)
Definition amount (p : pynum) : Qc := match p with PI z => Z2Qc z | PF (Fin q) => q | PF _ => 0 end.
Definition qc_min (a b : Qc) : Qc := if qc_ltb b a then b else a.
Definition qc_maxi (a b : Qc) : Qc := if qc_ltb a b then b else a.
(** The exact size of a length; percentages refer to [pct].  The font has size -1. *)
Definition exact_len (d : display_t) (pct : Qc) (u : unit_) : Qc :=
  let v := amount (u_val u) in
  let W := nval (disp_width d) in
  let H := nval (disp_height d) in
  let per_point := nval (dpi d) / Z2Qc 72 in
  match u_kind u with
  | KPx => v
  | KFont s => v * - (if String.eqb s "em" then 1 else if String.eqb s "ex" then qfrac 65 100 else qfrac 71 100) * per_point
  | KAbs _ points => v * points * per_point
  | KVp _ ScaleVw => v * W / Z2Qc 100
  | KVp _ ScaleVh => v * H / Z2Qc 100
  | KVp _ ScaleVmax => v * qc_maxi W H / Z2Qc 100
  | KVp _ ScaleVmin => v * qc_min W H / Z2Qc 100
  | KPct => v * pct / Z2Qc 100
  | KAngle _ _ => 0
  end.
Definition len (d : display_t) (pct : Qc) (u : unit_) : Qc := to_grid (exact_len d pct u).
(** auto counts as 0 *)
Definition len0 (d : display_t) (pct : Qc) (v : lenauto) : Qc := match v with Auto => 0 | Len u => len d pct u end.
Definition border_len (d : display_t) (pct : Qc) (v : bwidth) : Qc :=
  match v with BKw k => nval (fixed_size d k) | BLen u => len d pct u end.
Definition or0 (o : option Qc) : Qc := match o with Some q => q | None => 0 end.

(** ** Used values *)
(** [u_left], [u_top] are the position of the content box in the content box
    of the parent, [u_ct], [u_cb] the collapsed extents.  A bottom margin may
    stay auto and a size unknown ([None]) for inline boxes only. *)
Record used := mkUsed {
  u_mt : Qc; u_mr : Qc; u_mb : option Qc; u_ml : Qc;
  u_bt : Qc; u_br : Qc; u_bb : Qc; u_bl : Qc;
  u_pt : Qc; u_pr : Qc; u_pb : Qc; u_pl : Qc;
  u_w : option Qc; u_h : option Qc; u_left : Qc; u_top : Qc; u_ct : Z; u_cb : Z }.
Definition used0 : used := mkUsed 0 0 (Some 0) 0 0 0 0 0 0 0 0 0 (Some 0) (Some 0) 0 0 0 0.
(** A node is laid out, hidden (display: none), or skipped: inline content
    after the last block of a block container is never laid out. *)
Inductive utree := UNode (u : used) (kids : list utree) | UHidden | USkipped.

(** ** The containing block *)
(** Size (None: unknown), position and specified height. *)
Record area := mkArea { a_w : option Qc; a_h : option Qc; a_left : Qc; a_top : Qc; a_spec_h : option unit_ }.

(** A pair of offsets (left, right) or (top, bottom); [pos] and [ext] are the
    position and size of the containing block, used for "inherit". *)
Definition shift (d : display_t) (pos : Qc) (ext : option Qc) (start end_ : offset) : Qc :=
  match start, end_ with
  | OLen u, _ => len d (or0 ext) u
  | OAuto, OLen u => - len d (or0 ext) u
  | OInherit, _ => pos
  | OAuto, OInherit => - (pos + or0 ext)
  | OAuto, OAuto => 0
  end.

(** ** Widths *)
(** Specified width limited by max-width, then by min-width. *)
Definition limited_width (d : display_t) (W : Qc) (s : style) (u : unit_) : Qc :=
  let x := len d W u in
  let x := match st_max_width s with Some m => qc_min x (len d W m) | None => x end in
  match st_min_width s with Len m => qc_maxi x (len d W m) | Auto => x end.

(** Used width, margin-left and margin-right of a block in a containing block
    of width [W]; [e] is the sum of the horizontal borders and paddings. *)
Definition widths (d : display_t) (W e : Qc) (s : style) : Qc * Qc * Qc :=
  let l := len0 d W (st_margin_left s) in
  let r := len0 d W (st_margin_right s) in
  match st_width s with
  | Auto => (W - e - l - r, l, r)
  | Len u =>
      let x := limited_width d W s u in
      let free := W - e - x in
      let keep_left := (x, l, free - l) in
      let keep_right := (x, free - r, r) in
      let over := match st_direction s with LTR => keep_left | RTL => keep_right end in
      if qc_ltb W (e + x + l + r) then over
      else match st_margin_left s, st_margin_right s with
           | Auto, Auto => let half := Z2Qc (Qfloor (this (free / Z2Qc 2))) in (x, half, half)
           | Auto, Len _ => keep_right
           | Len _, Auto => keep_left
           | Len _, Len _ => over
           end
  end.

(** Used width of an inline replaced element; [rest] is what borders, paddings
    and margins leave of the containing block. *)
Definition image_width (d : display_t) (W rest : Qc) (s : style) (i : size) : Qc :=
  match st_width s, s_width i with
  | Len u, _ => len d W u
  | Auto, Some w => nval w
  | Auto, None =>
      match st_height s, s_height i, s_ratio i with
      | Auto, Some h, Some r => Z2Qc (round_half_even (this (nval h * nval r)))
      | Auto, None, Some _ => rest
      | _, _, _ => Z2Qc 300
      end
  end.

(** ** Heights *)
(** A number other than 0. *)
Definition given (o : option num) : option Qc :=
  match o with Some x => if qc_eqb (nval x) 0 then None else Some (nval x) | None => None end.
Definition image_height (d : display_t) (H w : Qc) (s : style) (i : size) : Qc :=
  match st_height s with
  | Len u => len d H u
  | Auto =>
      match st_width s, s_height i with
      | Auto, Some h => nval h
      | _, _ =>
          match given (s_ratio i), given (s_height i) with
          | Some r, _ => w * r
          | None, Some h => h
          | None, None => qc_min (Z2Qc (Qfloor (this (w / Z2Qc 2)))) (Z2Qc 150)
          end
      end
  end.
(** The specified height of a block, limited by max-height. *)
Definition spec_height (d : display_t) (H : Qc) (ph : option unit_) (s : style) : option Qc :=
  match st_height s with
  | Auto => None
  | Len u =>
      let x := len d (match ph with Some pu => len d H pu | None => H end) u in
      Some (match st_max_height s with Some m => qc_min x (len d H m) | None => x end)
  end.
Definition border_height (u : used) : Qc := u_bt u + u_pt u + or0 (u_h u) + u_pb u + u_bb u.
Definition border_bottom (u : used) : Qc := u_top u + or0 (u_h u) + u_pb u + u_bb u.
(** [last]: the last child. *)
Definition used_block_height (d : display_t) (H : Qc) (ph : option unit_) (s : style) (last : option used) : Qc :=
  match spec_height d H ph s, last with
  | Some h, _ => h
  | None, Some k => border_bottom k
  | None, None => len0 d H (st_min_height s)
  end.

(** The collapse extent of a margin: whole positive pixels, otherwise 0. *)
Definition whole_px (q : Qc) : Z := if qc_eqb q (Z2Qc (Qfloor (this q))) then Z.max 0 (Qfloor (this q)) else 0%Z.

(** ** Stacking *)
Definition move_down (t : Qc) (u : used) : used :=
  let 'mkUsed mt mr mb ml bt br bb bl pt pr pb pl w h lf tp ct cb := u in
  mkUsed mt mr mb ml bt br bb bl pt pr pb pl w h lf (tp + t) ct cb.
(** From [top] downwards; [prev] is the bottom extent of the previous sibling. *)
Fixpoint stack (top : Qc) (prev : option Z) (ks : list utree) : list utree :=
  match ks with
  | [] => []
  | UNode u us :: ks' =>
      let t := top + match prev with None => 0 | Some z => qc_maxi (Z2Qc z) (u_mt u) end in
      UNode (move_down t u) us :: stack (t + border_height u) (Some (u_cb u)) ks'
  | k :: ks' => k :: stack top prev ks'
  end.
Definition last_kid (ks : list utree) : option used :=
  match rev ks with [] => None | UNode u _ :: _ => Some u | _ :: _ => Some used0 end.

Definition block_level (s : style) : bool :=
  match st_display s with Some (DBlock | DListItem | DTable) => true | _ => false end.

Section Format.
Context {S : Type} (sty : S -> style).

(** [format d a n]: the used values in the subtree [n] in the containing block
    [a].  The position is relative to the place that stacking assigns. *)
Fixpoint format (d : display_t) (a : area) (n : node S) : utree :=
  let 'Node s0 i _ ks := n in
  let s := sty s0 in
  match st_display s with
  | None => UHidden
  | Some dk =>
  let W := or0 (a_w a) in
  let H := or0 (a_h a) in
  let inline := match dk with DInline => true | _ => false end in
  let image := s_replaced i in
  let relative := match st_position s with PRelative => true | _ => false end in
  let bt := border_len d W (st_border_top s) in
  let br := border_len d H (st_border_right s) in
  let bb := border_len d W (st_border_bottom s) in
  let bl := border_len d H (st_border_left s) in
  let pt := len d W (st_padding_top s) in
  let pr := len d H (st_padding_right s) in
  let pb := len d W (st_padding_bottom s) in
  let pl := len d H (st_padding_left s) in
  let mt := len0 d H (st_margin_top s) in
  let mb := if inline && negb image && (match st_margin_bottom s with Auto => true | Len _ => false end)
            then None else Some (len0 d H (st_margin_bottom s)) in
  let e := bl + pl + pr + br in
  let l := len0 d W (st_margin_left s) in
  let r := len0 d W (st_margin_right s) in
  let '(w, ml, mr) :=
    if inline then (if image then Some (image_width d W (W - e - l - r) s i) else option_map nval (s_width i), l, r)
    else let '(x, y, z) := widths d W e s in (Some x, y, z) in
  let height last :=
    if inline then (if image then Some (image_height d H (or0 w) s i) else option_map nval (s_height i))
    else Some (used_block_height d H (a_spec_h a) s last) in
  (* position of the content box before any relative offset *)
  let lf := if inline && negb image then 0 else ml + bl + pl in
  let edge := (if inline then mt else 0) + bt + pt in
  (* the children of a relative box refer to its height as it was before they
     were laid out (height 0 each); those of other boxes refer to 0 *)
  let inner := mkArea w (if relative then height (Some used0) else Some 0) lf (if relative then edge else 0)
                 (match st_height s with Auto => None | Len u => Some u end) in
  (* blocks and list items with a block-level child stack their children *)
  let stacks := match dk with
                | DBlock | DListItem => existsb (fun k => block_level (sty (n_style k))) ks
                | _ => false
                end in
  let kids := if stacks
              then stack 0 None (map (fun k => if block_level (sty (n_style k)) then format d inner k else USkipped) ks)
              else map (format d inner) ks in
  let first := if stacks then match kids with UNode u _ :: _ => u_ct u | _ => 0%Z end else 0%Z in
  let cb := match st_height s, last_kid kids with
            | Auto, Some k => if inline then whole_px (or0 mb) else Z.max (whole_px (or0 mb)) (u_cb k)
            | _, _ => whole_px (or0 mb)
            end in
  let dx := if relative then shift d (a_left a) (a_w a) (st_left s) (st_right s) else 0 in
  (* a relatively positioned box is moved down by its upper edge twice *)
  let dy := if relative then edge + shift d (a_top a) (a_h a) (st_top s) (st_bottom s) else 0 in
  UNode (mkUsed mt mr mb ml bt br bb bl pt pr pb pl w (height (last_kid kids)) (lf + dx) (edge + dy)
           (Z.max (whole_px mt) first) cb) kids
  end.

(** The whole page: the root is moved down by its collapsed top extent and, in
    HTML5 mode, its height is what remains of the display. *)
Definition page (d : display_t) (html5 : bool) (n : node S) : utree :=
  match format d (mkArea (Some (nval (disp_width d))) (Some (nval (disp_height d))) 0 0 None) n with
  | UNode (mkUsed mt mr mb ml bt br bb bl pt pr pb pl w h lf tp ct cb) ks =>
      UNode (mkUsed mt mr mb ml bt br bb bl pt pr pb pl w
               (if html5 then Some (nval (disp_height d) - Z2Qc ct - Z2Qc cb) else h)
               lf (tp + Z2Qc ct) ct cb) ks
  | t => t
  end.
End Format.

(** ** Comparison with boxes *)
Definition is_num (v : lval) (q : Qc) : Prop := exists x, v = LNum x /\ nval x = q.
(** An unknown size is Python's None, a margin left auto the keyword. *)
Definition is_size (v : lval) (o : option Qc) : Prop := match o with Some q => is_num v q | None => v = LNone end.
Definition is_margin (v : lval) (o : option Qc) : Prop := match o with Some q => is_num v q | None => v = LAuto end.
(** The box [b] has the used values [u]. *)
Record has_used (b : box) (u : used) : Prop := {
  hu_mt : is_num (margin_top b) (u_mt u); hu_mr : is_num (margin_right b) (u_mr u);
  hu_mb : is_margin (margin_bottom b) (u_mb u); hu_ml : is_num (margin_left b) (u_ml u);
  hu_bt : nval (border_top_width b) = u_bt u; hu_br : nval (border_right_width b) = u_br u;
  hu_bb : nval (border_bottom_width b) = u_bb u; hu_bl : nval (border_left_width b) = u_bl u;
  hu_pt : nval (padding_top b) = u_pt u; hu_pr : nval (padding_right b) = u_pr u;
  hu_pb : nval (padding_bottom b) = u_pb u; hu_pl : nval (padding_left b) = u_pl u;
  hu_w : is_size (content_width b) (u_w u); hu_h : is_size (content_height b) (u_h u);
  hu_left : nval (content_left b) = u_left u; hu_top : nval (content_top b) = u_top u;
  hu_ct : collapse_top b = u_ct u; hu_cb : collapse_bottom b = u_cb u }.
(** The document [n] is laid out as [t]; its origin is at [(x, y)].  A hidden
    node has no box; the box of a skipped node, if it has one, is all zeros. *)
Inductive laid_out_as {S : Type} : Qc -> Qc -> node S -> utree -> Prop :=
| laid_out_as_box x y s i b ks u us :
    has_used b u -> nval (origin_left b) = x -> nval (origin_top b) = y ->
    Forall2 (laid_out_as (x + u_left u) (y + u_top u)) ks us ->
    laid_out_as x y (Node s i (Some b) ks) (UNode u us)
| laid_out_as_hidden x y s i ks : laid_out_as x y (Node s i None ks) UHidden
| laid_out_as_skipped x y n :
    (forall b, n_box n = Some b -> has_used b used0 /\ nval (origin_left b) = x /\ nval (origin_top b) = y) ->
    laid_out_as x y n USkipped.
(** [shows n t]: as [laid_out_as], whatever the origins. *)
Inductive shows {S : Type} : node S -> utree -> Prop :=
| shows_node s i b ks u us : has_used b u -> Forall2 shows ks us -> shows (Node s i (Some b) ks) (UNode u us)
| shows_hidden s i ks : shows (Node s i None ks) UHidden
| shows_skipped n : (forall b, n_box n = Some b -> has_used b used0) -> shows n USkipped.
