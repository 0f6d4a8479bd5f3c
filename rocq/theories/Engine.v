(** * The layout engine -- /repo/src/colosseum/engine.py *)
From Coq Require Import ZArith QArith Qcanon Bool List.
From Verif Require Import PyNum Units BoxModel.
Import ListNotations.
Open Scope Z_scope.

(** ** Computed style values read by the engine *)

(** constants.py:157-200, the DISPLAY_CHOICES other than None. *)
Inductive display_k :=
| DInline | DBlock | DListItem | DInlineBlock | DTable | DInlineTable
| DTableRowGroup | DTableHeaderGroup | DTableFooterGroup | DTableRow
| DTableColumnGroup | DTableColumn | DTableCell | DTableCaption
| DFlex | DInlineFlex | DGrid | DInlineGrid.
(** constants.py:207-212 *)
Inductive position_k := PStatic | PRelative | PAbsolute | PFixed.
(** constants.py:223-227 *)
Inductive side_k := FLeft | FRight.
(** constants.py:240-243 *)
Inductive direction_k := LTR | RTL.
(** constants.py:124-145, the BORDER_STYLE_CHOICES other than None. *)
Inductive bstyle := BHidden | BDotted | BDashed | BSolid | BDouble | BGroove
| BRidge | BInset | BOutset.
(** constants.py:105, 257-258: AUTO or a length/percentage. *)
Inductive lenauto := Auto | Len (u : unit_).
(** constants.py:122: THIN/MEDIUM/THICK or a length. *)
Inductive bwidth := BKw (k : bkw) | BLen (u : unit_).
(** constants.py:214-216: AUTO, INHERIT or a length/percentage. *)
Inductive offset := OAuto | OInherit | OLen (u : unit_).

(** The style attributes engine.py reads (declaration.py:290-585).  The initial
    value 0 of margins, paddings and border widths is represented by [0px]:
    calculate_size (engine.py:310) treats int 0 and 0px alike.  The border
    styles are never read by the engine; they are kept to state C63. *)
Record style := mkStyle {
  st_display : option display_k; st_position : position_k;
  st_float : option side_k; st_direction : direction_k;
  st_width : lenauto; st_height : lenauto;
  st_min_width : lenauto; st_min_height : lenauto;
  st_max_width : option unit_; st_max_height : option unit_;
  st_margin_top : lenauto; st_margin_right : lenauto;
  st_margin_bottom : lenauto; st_margin_left : lenauto;
  st_padding_top : unit_; st_padding_right : unit_;
  st_padding_bottom : unit_; st_padding_left : unit_;
  st_border_top : bwidth; st_border_right : bwidth;
  st_border_bottom : bwidth; st_border_left : bwidth;
  st_top : offset; st_right : offset; st_bottom : offset; st_left : offset;
  st_border_top_style : option bstyle; st_border_right_style : option bstyle;
  st_border_bottom_style : option bstyle; st_border_left_style : option bstyle }.

(** engine.py:24-30 *)
Definition is_block_level (s : style) : bool :=
  match st_display s with Some (DBlock | DListItem | DTable) => true | _ => false end.
(** engine.py:33-41 *)
Definition is_block_container (s : style) (i : size) : bool :=
  match st_display s with
  | Some (DBlock | DListItem | DInlineBlock | DTableCell | DTableCaption) => negb (s_replaced i)
  | _ => false
  end.
(** engine.py:53-54 *)
Definition is_inline_block (s : style) : bool :=
  match st_display s with Some DInlineBlock => true | _ => false end.
(** engine.py:57-58 *)
Definition is_inline (s : style) : bool :=
  match st_display s with Some DInline => true | _ => false end.
(** engine.py:61-62 *)
Definition is_float (s : style) : bool :=
  match st_float s with Some _ => true | None => false end.
(** engine.py:65-66 *)
Definition is_abspos (s : style) : bool :=
  match st_position s with PAbsolute | PFixed => true | _ => false end.
(** node.style.position is RELATIVE (engine.py:216, 264) *)
Definition is_relative (s : style) : bool :=
  match st_position s with PRelative => true | _ => false end.

(** engine.py:108-109: DummyFont(-1). *)
Definition dummy_font : font_t := mkFont (NI (-1)).

(** engine.py:305-314 for a margin (AUTO or a length), a border width
    (keyword or length) and a padding (length); [value == 0] (310) holds only
    for pixel units (units.py:92-93). *)
Definition calc_len (c : ctx) (u : unit_) : res num :=
  if u_eq_int u 0 then Ok n0 else px c u.
(** calculate_size of a margin (engine.py:187-190, 305-314). *)
Definition calc_margin (c : ctx) (v : lenauto) : res lval :=
  match v with
  | Auto => Ok LAuto
  | Len u => n <-r calc_len c u ;; Ok (LNum n)
  end.
(** calculate_size of a border width (engine.py:192-203, 305-314). *)
Definition calc_border (c : ctx) (v : bwidth) : res num :=
  match v with
  | BKw k => Ok (fixed_size (c_disp c) k)
  | BLen u => calc_len c u
  end.

(** ** Computations on one box: state is kept when an exception is raised *)
Definition BM A := box -> box * res A.
(** A value. *)
Definition bret {A} (a : A) : BM A := fun b => (b, Ok a).
(** raise *)
Definition bfail {A} (e : exn) : BM A := fun b => (b, Err e).
(** Sequencing; an exception keeps the assignments made so far. *)
Definition bbind {A B} (m : BM A) (f : A -> BM B) : BM B :=
  fun b => match m b with (b', Ok a) => f a b' | (b', Err e) => (b', Err e) end.
(** An expression that may raise. *)
Definition blift {A} (r : res A) : BM A := fun b => (b, r).
(** An assignment. *)
Definition bmod (f : box -> box) : BM unit := fun b => (f b, Ok tt).
(** Reading an attribute. *)
Definition bget {A} (f : box -> A) : BM A := fun b => (b, Ok (f b)).
(** read an attribute and use it as a number *)
Definition bnum (f : box -> lval) : BM num := fun b => (b, as_num (f b)).
Declare Scope bm_scope.
Delimit Scope bm_scope with bm.
(** Notation for sequencing. *)
Notation "x <- m ;; k" := (bbind m (fun x => k))
  (at level 61, m at next level, right associativity) : bm_scope.
(** Notation for sequencing without a result. *)
Notation "m ;;; k" := (bbind m (fun _ => k)) (at level 61, right associativity) : bm_scope.

(** Substitute 0 for AUTO: the recurring [if ... AUTO: ... = 0]. *)
Definition auto_left0 : BM unit := bmod (fun b => if is_auto (margin_left b) then set_margin_left l0 b else b).
(** engine.py:359-360, 371-372, 436-437, 513-514 *)
Definition auto_right0 : BM unit := bmod (fun b => if is_auto (margin_right b) then set_margin_right l0 b else b).
(** engine.py:635-636, 664-665 *)
Definition auto_top0 : BM unit := bmod (fun b => if is_auto (margin_top b) then set_margin_top l0 b else b).
(** engine.py:638-639, 667-668 *)
Definition auto_bottom0 : BM unit := bmod (fun b => if is_auto (margin_bottom b) then set_margin_bottom l0 b else b).

(** engine.py:187-208.  Percentages of border right/left and padding
    right/left use the vertical context, border/padding top/bottom the
    horizontal one, exactly as the source does. *)
Definition copy_edges (s : style) (hz vt : ctx) : BM unit := (
  (v <- blift (calc_margin vt (st_margin_top s)) ;; bmod (set_margin_top v)) ;;;
  (v <- blift (calc_margin hz (st_margin_right s)) ;; bmod (set_margin_right v)) ;;;
  (v <- blift (calc_margin vt (st_margin_bottom s)) ;; bmod (set_margin_bottom v)) ;;;
  (v <- blift (calc_margin hz (st_margin_left s)) ;; bmod (set_margin_left v)) ;;;
  (v <- blift (calc_border hz (st_border_top s)) ;; bmod (upd_border_top_width v)) ;;;
  (v <- blift (calc_border vt (st_border_right s)) ;; bmod (upd_border_right_width v)) ;;;
  (v <- blift (calc_border hz (st_border_bottom s)) ;; bmod (upd_border_bottom_width v)) ;;;
  (v <- blift (calc_border vt (st_border_left s)) ;; bmod (upd_border_left_width v)) ;;;
  (v <- blift (calc_len hz (st_padding_top s)) ;; bmod (upd_padding_top v)) ;;;
  (v <- blift (calc_len vt (st_padding_right s)) ;; bmod (upd_padding_right v)) ;;;
  (v <- blift (calc_len hz (st_padding_bottom s)) ;; bmod (upd_padding_bottom v)) ;;;
  (v <- blift (calc_len vt (st_padding_left s)) ;; bmod (upd_padding_left v)))%bm.

(** ** Section 10.3: widths
    Each function returns [Some left] when the source then assigns
    node.layout.content_left = left (an assignment that moves the children and
    is therefore done at the node level), [None] when it does not. *)

(** engine.py:354-363 *)
Definition inline_non_replaced_width (i : size) : BM (option num) := (
  auto_left0 ;;; auto_right0 ;;;
  bmod (upd_content_width (lopt (s_width i))) ;;;
  bret None)%bm.

(** margin_left + border_left_width + padding_left (403-407, 544-548) *)
Definition left_edge : BM num := (
  ml <- bnum margin_left ;; bl <- bget border_left_width ;; pl <- bget padding_left ;;
  bret (nadd (nadd ml bl) pl))%bm.

(** size - margin_left - border_left - padding_left - padding_right -
    border_right - margin_right (384-392, 485-493, 516-524) *)
Definition avail_width (c : ctx) : BM num := (
  sz <- blift (as_num (c_size c)) ;; ml <- bnum margin_left ;;
  bl <- bget border_left_width ;; pl <- bget padding_left ;;
  pr <- bget padding_right ;; br <- bget border_right_width ;; mr <- bnum margin_right ;;
  bret (nsub (nsub (nsub (nsub (nsub (nsub sz ml) bl) pl) pr) br) mr))%bm.

(** engine.py:366-407 *)
Definition inline_replaced_width (s : style) (i : size) (c : ctx) : BM (option num) := (
  auto_left0 ;;; auto_right0 ;;;
  cw <- match st_width s with
        | Auto =>
            match st_height s, s_width i, s_height i, s_ratio i with
            | Auto, Some w, _, _ => bret w                                 (* 377 *)
            | Auto, None, Some h, Some r => bret (NI (nround (nmul h r)))  (* 379-382 *)
            | Auto, None, None, Some r => avail_width c                    (* 383-392 *)
            | _, Some w, _, _ => bret w                                    (* 395 *)
            | _, None, _, _ => bret (NI 300)                               (* 398 *)
            end
        | Len u => blift (px c u)                                          (* 400 *)
        end ;;
  bmod (upd_content_width (LNum cw)) ;;;
  l <- left_edge ;; bret (Some l))%bm.

(** engine.py:413-421: explicit width limited by max-width then min-width. *)
Definition clamped_width (s : style) (u : unit_) (c : ctx) : res num :=
  w <-r px c u ;;
  w1 <-r match st_max_width s with
         | None => Ok w
         | Some m => mx <-r px c m ;; Ok (if nltb mx w then mx else w)
         end ;;
  match st_min_width s with
  | Auto => Ok w1
  | Len m => mn <-r px c m ;; Ok (if nltb w1 mn then mn else w1)
  end.

(** engine.py:429-432 and the like: add a margin unless it is AUTO. *)
Definition add_unless_auto (acc : num) (f : box -> lval) : BM num :=
  fun b => if is_auto (f b) then (b, Ok acc)
           else (b, bindr (as_num (f b)) (fun m => Ok (nadd acc m))).

(** engine.py:422-437: over-wide boxes lose their auto margins. *)
Definition drop_auto_margins (cw : num) (c : ctx) : BM unit := (
  bl <- bget border_left_width ;; pl <- bget padding_left ;;
  pr <- bget padding_right ;; br <- bget border_right_width ;;
  sz1 <- add_unless_auto (nadd (nadd (nadd (nadd bl pl) cw) pr) br) margin_left ;;
  sz2 <- add_unless_auto sz1 margin_right ;;
  sz <- blift (as_num (c_size c)) ;;
  if nltb sz sz2 then auto_left0 ;;; auto_right0 else bret tt)%bm.

(** engine.py:445-453, 500-508: the right margin that solves the equation *)
Definition solve_right (cw : num) (c : ctx) : BM unit := (
  sz <- blift (as_num (c_size c)) ;; ml <- bnum margin_left ;;
  bl <- bget border_left_width ;; pl <- bget padding_left ;;
  pr <- bget padding_right ;; br <- bget border_right_width ;;
  bmod (set_margin_right (LNum (nsub (nsub (nsub (nsub (nsub (nsub sz ml) bl) pl) cw) pr) br))))%bm.

(** engine.py:455-463, 470-478: the left margin that solves the equation *)
Definition solve_left (cw : num) (c : ctx) : BM unit := (
  sz <- blift (as_num (c_size c)) ;;
  bl <- bget border_left_width ;; pl <- bget padding_left ;;
  pr <- bget padding_right ;; br <- bget border_right_width ;; mr <- bnum margin_right ;;
  bmod (set_margin_left (LNum (nsub (nsub (nsub (nsub (nsub (nsub sz bl) pl) cw) pr) br) mr))))%bm.

(** engine.py:526-536: both margins auto; each gets half, floored *)
Definition split_margins (cw : num) (c : ctx) : BM unit := (
  sz <- blift (as_num (c_size c)) ;;
  bl <- bget border_left_width ;; pl <- bget padding_left ;;
  pr <- bget padding_right ;; br <- bget border_right_width ;;
  let avail := nsub (nsub (nsub (nsub (nsub sz bl) pl) cw) pr) br in
  bmod (set_margin_left (LNum (nhalf avail))) ;;;
  bmod (set_margin_right (LNum (nhalf avail))))%bm.

(** engine.py:410-548 *)
Definition block_non_replaced_width (s : style) (c : ctx) : BM (option num) := (
  ocw <- match st_width s with
         | Auto => bret None
         | Len u => cw <- blift (clamped_width s u c) ;; drop_auto_margins cw c ;;; bret (Some cw)
         end ;;
  la <- bget (fun b => is_auto (margin_left b)) ;;
  ra <- bget (fun b => is_auto (margin_right b)) ;;
  cw <- match ocw, la, ra with
        | Some cw, false, false =>                                  (* 439-463 *)
            match st_direction s with LTR => solve_right cw c | RTL => solve_left cw c end ;;;
            bret cw
        | Some cw, true, false => solve_left cw c ;;; bret cw       (* 465-478 *)
        | None, false, false => avail_width c                       (* 480-493 *)
        | Some cw, false, true => solve_right cw c ;;; bret cw      (* 495-508 *)
        | None, _, _ => auto_left0 ;;; auto_right0 ;;; avail_width c (* 510-524 *)
        | Some cw, true, true => split_margins cw c ;;; bret cw     (* 526-536 *)
        end ;;
  bmod (upd_content_width (LNum cw)) ;;;
  l <- left_edge ;; bret (Some l))%bm.

(** engine.py:320-351 and the NotImplementedError stubs 551-583 *)
Definition calculate_width (s : style) (i : size) (c : ctx) : BM (option num) :=
  if is_float s then bfail NotImplementedError
  else if is_abspos s then bfail NotImplementedError
  else if is_inline s then
    if s_replaced i then inline_replaced_width s i c else inline_non_replaced_width i
  else if is_block_level s then
    if s_replaced i then bfail NotImplementedError else block_non_replaced_width s c
  else if is_inline_block s then bfail NotImplementedError
  else bfail PlainException.

(** ** Section 10.6: heights
    Each function returns the increment of node.layout.content_top (an
    assignment that moves the children, done at the node level). *)

(** margin_top + border_top_width + padding_top (628-630, 657-659) *)
Definition top_edge : BM num := (
  mt <- bnum margin_top ;; bt <- bget border_top_width ;; pt <- bget padding_top ;;
  bret (nadd (nadd mt bt) pt))%bm.

(** engine.py:625-630 *)
Definition inline_non_replaced_height (i : size) : BM num := (
  bmod (upd_content_height (lopt (s_height i))) ;;; top_edge)%bm.

(** The truth value of node.intrinsic.ratio / height (engine.py:647, 649): neither None nor 0. *)
Definition truthy (o : option num) : bool :=
  match o with Some n => negb (neqb n n0) | None => false end.

(** engine.py:633-659 *)
Definition inline_replaced_height (s : style) (i : size) (c : ctx) : BM num := (
  auto_top0 ;;; auto_bottom0 ;;;
  ch <- match st_height s with
        | Auto =>
            match st_width s, s_height i with
            | Auto, Some h => bret h                                     (* 641-646 *)
            | _, _ =>
                match s_ratio i with
                | Some r =>
                    if truthy (s_ratio i)
                    then w <- bnum content_width ;; bret (nmul w r)      (* 647-648 *)
                    else match s_height i with
                         | Some h =>
                             if truthy (s_height i) then bret h          (* 649-650 *)
                             else w <- bnum content_width ;; bret (nmin (nhalf w) (NI 150))
                         | None => w <- bnum content_width ;; bret (nmin (nhalf w) (NI 150))
                         end
                | None =>
                    match s_height i with
                    | Some h =>
                        if truthy (s_height i) then bret h               (* 649-650 *)
                        else w <- bnum content_width ;; bret (nmin (nhalf w) (NI 150))
                    | None => w <- bnum content_width ;; bret (nmin (nhalf w) (NI 150)) (* 651-652 *)
                    end
                end
            end
        | Len u => blift (px c u)                                        (* 654 *)
        end ;;
  bmod (upd_content_height (LNum ch)) ;;; top_edge)%bm.

(** engine.py:670-700.  [last]: None without children, otherwise the layout of
    the last child; [ph]: the parent's height when the node has a parent whose
    height is not AUTO (690). *)
Definition block_content_height (s : style) (ph : option unit_) (last : option (option box))
    (c : ctx) : BM num := (
  match st_height s with
  | Auto =>
      match last with
      | Some None => bfail AttributeError                                (* 676 *)
      | Some (Some lb) =>
          h <- blift (border_box_bottom lb) ;;
          bmod (set_collapse_bottom (LNum (NI (collapse_bottom lb)))) ;;; bret h
      | None =>
          match st_min_height s with
          | Auto => bret n0                                              (* 688 *)
          | Len u => blift (px c u)                                      (* 686 *)
          end
      end
  | Len u =>
      h <- match ph with
           | Some pu =>
               p <- blift (px c pu) ;;
               blift (px (mkCtx (c_disp c) (c_font c) (LNum p)) u)       (* 691-694 *)
           | None => blift (px c u)                                      (* 696 *)
           end ;;
      match st_max_height s with
      | None => bret h
      | Some m => mx <- blift (px c m) ;; bret (if nltb mx h then mx else h)  (* 697-700 *)
      end
  end)%bm.

(** engine.py:662-703 *)
Definition block_non_replaced_height (s : style) (ph : option unit_)
    (last : option (option box)) (c : ctx) : BM num := (
  auto_top0 ;;; auto_bottom0 ;;;
  h <- block_content_height s ph last c ;;
  bmod (upd_content_height (LNum h)) ;;;
  bt <- bget border_top_width ;; pt <- bget padding_top ;; bret (nadd bt pt))%bm.

(** engine.py:589-622 and the NotImplementedError stubs 706-738 *)
Definition calculate_height (s : style) (i : size) (ph : option unit_)
    (last : option (option box)) (c : ctx) : BM num :=
  if is_float s then bfail NotImplementedError
  else if is_abspos s then bfail NotImplementedError
  else if is_inline s then
    if s_replaced i then inline_replaced_height s i c else inline_non_replaced_height i
  else if is_block_level s then
    if s_replaced i then bfail NotImplementedError else block_non_replaced_height s ph last c
  else if is_inline_block s then bfail NotImplementedError
  else bfail PlainException.

(** ** Section 9.4.3: relative positioning *)
(** engine.py:267-280, 285-298: [start]/[end_] are left/right or top/bottom,
    [cs]/[ce] the content_left/content_right (content_top/content_bottom) of
    the containing block's layout; a display object has neither. *)
Definition rel_offset (c : ctx) (start end_ : offset) (cs ce : res num) : res num :=
  match start, end_ with
  | OAuto, OAuto => Ok n0
  | OAuto, OInherit => v <-r ce ;; Ok (nneg v)
  | OAuto, OLen u => v <-r px c u ;; Ok (nneg v)
  | OInherit, OAuto => cs
  | OLen u, OAuto => px c u
  | OLen u, _ => px c u
  | OInherit, _ => Err AttributeError         (* 280: INHERIT.px *)
  end.

Section Layout.
Context {S : Type} (sty : S -> style).
(** Nodes with styles of type [S]. *)
Notation node := (node S).

(** engine.py:69-76 *)
Definition establishes_inline (n : node) : bool :=
  if is_block_container (sty (n_style n)) (n_intr n)
  then negb (existsb (fun k => is_block_level (sty (n_style k))) (n_kids n))
  else true.

(** The containing block: the viewport (engine.py:83-87, 108) or a node, of
    which the style and the current layout are read. *)
Inductive cblock := CBView | CBNode (s : S) (b : box).

(** containing_block.layout.content_width (engine.py:179, 87) *)
Definition cb_width (d : display_t) (cb : cblock) : lval :=
  match cb with CBView => LNum (disp_width d) | CBNode _ b => content_width b end.
(** containing_block.layout.content_height (engine.py:185, 87) *)
Definition cb_height (d : display_t) (cb : cblock) : lval :=
  match cb with CBView => LNum (disp_height d) | CBNode _ b => content_height b end.
(** engine.py:690: node.parent is the containing block's node, if any.
    Simplified: the node given to layout() has no parent; Rooted.v has
    layout() of a node with one. *)
Definition cb_style_height (cb : cblock) : option unit_ :=
  match cb with
  | CBView => None
  | CBNode s _ => match st_height (sty s) with Auto => None | Len u => Some u end
  end.
(** containing_block.layout.content_right etc. (engine.py:271, 276, 289, 294); a display has no such attribute. *)
Definition cb_attr (f : box -> res num) (cb : cblock) : res num :=
  match cb with CBView => Err AttributeError | CBNode _ b => f b end.

(** engine.py:176-186 *)
Definition hctx (d : display_t) (f : font_t) (cb : cblock) : ctx := mkCtx d f (cb_width d cb).
(** engine.py:182-186 *)
Definition vctx (d : display_t) (f : font_t) (cb : cblock) : ctx := mkCtx d f (cb_height d cb).

(** Computations on a node (its box and its children). *)
Definition M A := node -> node * res A.
(** A value. *)
Definition mret {A} (a : A) : M A := fun n => (n, Ok a).
(** Sequencing; an exception keeps the changes made so far. *)
Definition mbind {A B} (m : M A) (f : A -> M B) : M B :=
  fun n => match m n with (n', Ok a) => f a n' | (n', Err e) => (n', Err e) end.
(** An expression that may raise. *)
Definition mlift {A} (r : res A) : M A := fun n => (n, r).
(** An assignment. *)
Definition mmod (f : node -> node) : M unit := fun n => (f n, Ok tt).
(** run a box computation on node.layout *)
Definition on_box {A} (m : BM A) : M A := fun n =>
  match n with
  | Node s i (Some b) ks => let (b', r) := m b in (Node s i (Some b') ks, r)
  | Node s i None ks => (n, Err AttributeError)
  end.
Declare Scope m_scope.
Delimit Scope m_scope with m.
(** Notation for sequencing. *)
Notation "x <- m ;; k" := (mbind m (fun x => k))
  (at level 61, m at next level, right associativity) : m_scope.
(** Notation for sequencing without a result. *)
Notation "m ;;; k" := (mbind m (fun _ => k)) (at level 61, right associativity) : m_scope.

(** node.layout.content_top += v *)
Definition add_content_top (v : num) : M unit := fun n =>
  match n_box n with
  | Some b => (set_content_top (nadd (content_top b) v) n, Ok tt)
  | None => (n, Err AttributeError)
  end.
(** node.layout.content_left += v (engine.py:282) *)
Definition add_content_left (v : num) : M unit := fun n =>
  match n_box n with
  | Some b => (set_content_left (nadd (content_left b) v) n, Ok tt)
  | None => (n, Err AttributeError)
  end.

(** engine.py:320-351 with the assignment of content_left (403, 544). *)
Definition calculate_width_and_margins (c : ctx) : M unit := fun n =>
  (ol <- on_box (calculate_width (sty (n_style n)) (n_intr n) c) ;;
   match ol with Some l => mmod (set_content_left l) | None => mret tt end)%m n.

(** node.children[-1].layout, engine.py:674-675.  Nodes are truthy. *)
Definition last_layout (n : node) : option (option box) :=
  match rev (n_kids n) with [] => None | k :: _ => Some (n_box k) end.

(** engine.py:589-622 with the increment of content_top (628, 657, 703). *)
Definition calculate_height_and_margins (c : ctx) (cb : cblock) : M unit := fun n =>
  (d <- on_box (calculate_height (sty (n_style n)) (n_intr n) (cb_style_height cb) (last_layout n) c) ;;
   add_content_top d)%m n.

(** engine.py:228-229: lay out every child in turn. *)
Fixpoint lay_all (lay : node -> node * res unit) (ks : list node) : list node * res unit :=
  match ks with
  | [] => ([], Ok tt)
  | k :: ks' =>
      match lay k with
      | (k', Ok _) => let (ks'', r) := lay_all lay ks' in (k' :: ks'', r)
      | (k', Err e) => (k' :: ks', Err e)
      end
  end.

(** engine.py:247-259: place a child that has just been laid out.
    Returns the child, the parent's box, and the new (offset_top, bottom_margin). *)
Definition place_child (k : node) (b : box) (off : num) (bm : option Z)
    : node * box * res (num * option Z) :=
  match n_box k with
  | None => (k, b, Err AttributeError)
  | Some kb =>
      let '(b1, off1) :=
        match bm with
        | None => (set_collapse_top (LNum (NI (collapse_top kb))) b, Ok off)
        | Some m => (b, mt <-r as_num (margin_top kb) ;; Ok (nadd off (nmax (NI m) mt)))
        end in
      match off1 with
      | Err e => (k, b1, Err e)
      | Ok o =>
          (set_content_top (nadd (content_top kb) o) k, b1,
           h <-r border_box_height kb ;; Ok (nadd o h, Some (collapse_bottom kb)))
      end
  end.

(** engine.py:148-162 fused with the loop 239-259: [pend] says that an
    anonymous block holding non-block children has been started; it is laid
    out just before the next block-level child, which raises AttributeError
    because an AnonymousBlockBox has no style (132-137, 167).  A pending
    anonymous block at the end of the list is dropped (162).
    Anonymize.v proves the equivalence with the literal [anonymize]. *)
Fixpoint flow (lay : box -> node -> node * res unit) (ks : list node) (pend : bool)
    (b : box) (off : num) (bm : option Z) : list node * box * res unit :=
  match ks with
  | [] => ([], b, Ok tt)
  | k :: ks' =>
      if is_block_level (sty (n_style k)) then
        if pend then (ks, b, Err AttributeError)
        else
          match lay b k with
          | (k1, Err e) => (k1 :: ks', b, Err e)
          | (k1, Ok _) =>
              match place_child k1 b off bm with
              | (k2, b2, Err e) => (k2 :: ks', b2, Err e)
              | (k2, b2, Ok (off', bm')) =>
                  let '(ks2, b3, r) := flow lay ks' false b2 off' bm' in
                  (k2 :: ks2, b3, r)
              end
          end
      else
        let '(ks2, b2, r) := flow lay ks' true b off bm in (k :: ks2, b2, r)
  end.

(** engine.py:226-259 *)
Definition layout_children (lay : cblock -> node -> node * res unit) : M unit := fun n =>
  match n with
  | Node s i None ks => (n, Err AttributeError)
  | Node s i (Some b) ks =>
      if establishes_inline n then
        let (ks', r) := lay_all (lay (CBNode s b)) ks in (Node s i (Some b) ks', r)
      else
        let '(ks', b', r) := flow (fun b0 => lay (CBNode s b0)) ks false b n0 None in
        (Node s i (Some b') ks', r)
  end.

(** engine.py:264-300 *)
Definition relative_shift (d : display_t) (f : font_t) (cb : cblock) : M unit := fun n =>
  let s := sty (n_style n) in
  if is_relative s then
    (vl <- mlift (rel_offset (hctx d f cb) (st_left s) (st_right s)
                    (cb_attr (fun b => Ok (content_left b)) cb) (cb_attr content_right cb)) ;;
     add_content_left vl ;;;
     vt <- mlift (rel_offset (vctx d f cb) (st_top s) (st_bottom s)
                    (cb_attr (fun b => Ok (content_top b)) cb) (cb_attr content_bottom cb)) ;;
     add_content_top vt)%m n
  else (n, Ok tt).

(** engine.py:171-173: make sure the node has a box. *)
Definition ensure_box (n : node) : node :=
  match n_box n with Some _ => n | None => reset_self n end.

(** engine.py:165-300.  [fuel] bounds the recursion depth (see [layout]). *)
Fixpoint layout_box (fuel : nat) (d : display_t) (f : font_t) (cb : cblock) (n : node)
    {struct fuel} : node * res unit :=
  match fuel with
  | O => (n, Err OutOfFuel)
  | Datatypes.S fuel' =>
      let s := sty (n_style n) in
      match st_display s with
      | None => (with_box None n, Ok tt)
      | Some _ =>
          (mmod ensure_box ;;;
           on_box (copy_edges s (hctx d f cb) (vctx d f cb)) ;;;
           calculate_width_and_margins (hctx d f cb) ;;;
           (if is_relative s then calculate_height_and_margins (vctx d f cb) cb else mret tt) ;;;
           (if is_abspos s then mlift (Err NotImplementedError)
            else if is_float s then mlift (Err NotImplementedError)
            else layout_children (layout_box fuel' d f)) ;;;
           calculate_height_and_margins (vctx d f cb) cb ;;;
           relative_shift d f cb)%m n
      end
  end.

(** engine.py:116-129 *)
Definition finish_root (d : display_t) (html5 : bool) : M unit := fun n =>
  match n_box n with
  | None => (n, Err AttributeError)
  | Some b =>
      let n1 := set_content_top (nadd (content_top b) (NI (collapse_top b))) n in
      (if html5
       then on_box (bmod (upd_content_height
              (LNum (nsub (nsub (disp_height d) (NI (collapse_top b))) (NI (collapse_bottom b))))))
       else mret tt)%m n1
  end.

(** engine.py:107-129: layout(display, node, standard). *)
Definition layout (d : display_t) (html5 : bool) (n : node) : node * res unit :=
  match n_box n with
  | None => (n, Err AttributeError)                    (* node.layout.reset() on None *)
  | Some _ =>
      (mmod reset ;;;
       layout_box (height n) d dummy_font CBView ;;;
       finish_root d html5)%m n
  end.
End Layout.
Arguments CBView {S}.
Arguments CBNode {S} s b.
