(** * The layout engine over an arithmetic -- /repo/src/colosseum/engine.py, dimensions.py

    Engine.v and BoxModel.v compute with exact rational numbers.  This file
    models the same lines once more with the arithmetic as a parameter: the
    sum, difference, product and floor half of two Python numbers, and the
    conversion of a length to pixels.  [exact_arith] is the arithmetic of
    Engine.v; [float_arith] rounds every result to binary64, as Python does, so
    that [layoutA float_arith] is what CPython computes; [checked_arith] is the
    exact arithmetic that stops at an operand of more than 2^46 px and at a
    length whose two conversions differ.

    Simplifications: negation, [round], [min], [max] and comparisons of floats
    are exact in Python and are not parameters; when an arithmetic operation
    itself raises (an int beyond the largest double in a sum with a float) the
    boxes written by the assignment being evaluated are not modelled; a sum
    that overflows to an infinity is [Err Unmodelled] because layout numbers
    are finite. *)
From Coq Require Import ZArith QArith Qcanon Qabs Bool List.
From Verif Require Import PyNum Float64 Units FloatUnits BoxModel Engine.
Import ListNotations.
Open Scope Z_scope.

(** The operations of layout on numbers (dimensions.py:373-534, engine.py:116-703, units.py:58-62). *)
Record arith := mkArith {
  a_add : num -> num -> res num; a_sub : num -> num -> res num; a_mul : num -> num -> res num;
  a_half : num -> res num; a_px : ctx -> unit_ -> res num }.

(** Exact rational arithmetic (PyNum.v, Units.v: units.py:58-62). *)
Definition exact_arith : arith :=
  mkArith (fun x y => Ok (nadd x y)) (fun x y => Ok (nsub x y)) (fun x y => Ok (nmul x y))
          (fun x => Ok (nhalf x)) px.

(** A Python number as a layout number; an infinity or NaN is not one (see the header). *)
Definition num_of_py (p : pynum) : res num :=
  match p with PI z => Ok (NI z) | PF (Fin q) => Ok (NF q) | PF _ => Err Unmodelled end.
(** Python's own arithmetic on ints and floats (FloatUnits.v: dimensions.py:373-534, engine.py:116-703, units.py:58-62). *)
Definition float_arith : arith :=
  mkArith (fun x y => r <-r fadd (py_of_num x) (py_of_num y) ;; num_of_py r)
          (fun x y => r <-r fsub (py_of_num x) (py_of_num y) ;; num_of_py r)
          (fun x y => r <-r fmul (py_of_num x) (py_of_num y) ;; num_of_py r)
          (fun x => num_of_py (fhalf (py_of_num x))) px_f.

Section Arith.
Variable A : arith.

(** x + y1 + ... + yn, evaluated from the left. *)
Fixpoint a_sum (x : num) (ys : list num) : res num :=
  match ys with [] => Ok x | y :: ys' => z <-r a_add A x y ;; a_sum z ys' end.
(** x - y1 - ... - yn, evaluated from the left. *)
Fixpoint a_diff (x : num) (ys : list num) : res num :=
  match ys with [] => Ok x | y :: ys' => z <-r a_sub A x y ;; a_diff z ys' end.

(** dimensions.py:386-392 *)
Definition border_box_bottomA (b : box) : res num :=
  h <-r as_num (content_height b) ;; a_sum (content_top b) [h; padding_bottom b; border_bottom_width b].
(** dimensions.py:409-416 *)
Definition border_box_heightA (b : box) : res num :=
  h <-r as_num (content_height b) ;; a_sum (border_top_width b) [padding_top b; h; padding_bottom b; border_bottom_width b].
(** dimensions.py:513-514 *)
Definition content_bottomA (b : box) : res num :=
  h <-r as_num (content_height b) ;; a_add A (content_top b) h.
(** dimensions.py:517-518 *)
Definition content_rightA (b : box) : res num :=
  w <-r as_num (content_width b) ;; a_add A (content_left b) w.

(** A loop over the children whose body may raise. *)
Definition rmap {X} (f : X -> res X) : list X -> res (list X) :=
  fix go (l : list X) : res (list X) :=
    match l with [] => Ok [] | x :: l' => y <-r f x ;; r <-r go l' ;; Ok (y :: r) end.

(** dimensions.py:246-252; the sum (521-522) is evaluated for each child that has a layout. *)
Fixpoint set_origin_topA {S} (v : num) (n : node S) : res (node S) :=
  match n with
  | Node s i None ks => Ok n
  | Node s i (Some b) ks =>
      if neqb v (origin_top b) then Ok n
      else
        ks' <-r rmap (fun k => match n_box k with
                              | None => Ok k
                              | Some _ => w <-r a_add A v (content_top b) ;; set_origin_topA w k
                              end) ks ;;
        Ok (Node s i (Some (upd_origin_top v b)) ks')
  end.
(** dimensions.py:258-264, 533-534 *)
Fixpoint set_origin_leftA {S} (v : num) (n : node S) : res (node S) :=
  match n with
  | Node s i None ks => Ok n
  | Node s i (Some b) ks =>
      if neqb v (origin_left b) then Ok n
      else
        ks' <-r rmap (fun k => match n_box k with
                              | None => Ok k
                              | Some _ => w <-r a_add A v (content_left b) ;; set_origin_leftA w k
                              end) ks ;;
        Ok (Node s i (Some (upd_origin_left v b)) ks')
  end.
(** dimensions.py:273-279, 521-522 *)
Definition set_content_topA {S} (v : num) (n : node S) : res (node S) :=
  match n with
  | Node s i None ks => Ok n
  | Node s i (Some b) ks =>
      if neqb v (content_top b) then Ok n
      else
        ks' <-r rmap (fun k => match n_box k with
                              | None => Ok k
                              | Some _ => w <-r a_add A (origin_top b) v ;; set_origin_topA w k
                              end) ks ;;
        Ok (Node s i (Some (upd_content_top v b)) ks')
  end.
(** dimensions.py:285-291, 533-534 *)
Definition set_content_leftA {S} (v : num) (n : node S) : res (node S) :=
  match n with
  | Node s i None ks => Ok n
  | Node s i (Some b) ks =>
      if neqb v (content_left b) then Ok n
      else
        ks' <-r rmap (fun k => match n_box k with
                              | None => Ok k
                              | Some _ => w <-r a_add A (origin_left b) v ;; set_origin_leftA w k
                              end) ks ;;
        Ok (Node s i (Some (upd_content_left v b)) ks')
  end.
(** dimensions.py:180-231: the new box of a node; 0 + 0 is propagated to the children. *)
Definition reset_selfA {S} (n : node S) : res (node S) :=
  let 'Node s i _ ks := n in
  ks' <-r rmap (fun k => match n_box k with
                        | None => Ok k
                        | Some _ => w <-r a_add A n0 n0 ;; k1 <-r set_origin_topA w k ;;
                                    v <-r a_add A n0 n0 ;; set_origin_leftA v k1
                        end) ks ;;
  Ok (Node s i (Some box0) ks').

(** engine.py:305-314 *)
Definition calc_lenA (c : ctx) (u : unit_) : res num :=
  if u_eq_int u 0 then Ok n0 else a_px A c u.
(** engine.py:187-190, 305-314 *)
Definition calc_marginA (c : ctx) (v : lenauto) : res lval :=
  match v with
  | Auto => Ok LAuto
  | Len u => n <-r calc_lenA c u ;; Ok (LNum n)
  end.
(** engine.py:192-203, 305-314 *)
Definition calc_borderA (c : ctx) (v : bwidth) : res num :=
  match v with
  | BKw k => Ok (fixed_size (c_disp c) k)
  | BLen u => calc_lenA c u
  end.
(** engine.py:187-208 *)
Definition copy_edgesA (s : style) (hz vt : ctx) : BM unit := (
  (v <- blift (calc_marginA vt (st_margin_top s)) ;; bmod (set_margin_top v)) ;;;
  (v <- blift (calc_marginA hz (st_margin_right s)) ;; bmod (set_margin_right v)) ;;;
  (v <- blift (calc_marginA vt (st_margin_bottom s)) ;; bmod (set_margin_bottom v)) ;;;
  (v <- blift (calc_marginA hz (st_margin_left s)) ;; bmod (set_margin_left v)) ;;;
  (v <- blift (calc_borderA hz (st_border_top s)) ;; bmod (upd_border_top_width v)) ;;;
  (v <- blift (calc_borderA vt (st_border_right s)) ;; bmod (upd_border_right_width v)) ;;;
  (v <- blift (calc_borderA hz (st_border_bottom s)) ;; bmod (upd_border_bottom_width v)) ;;;
  (v <- blift (calc_borderA vt (st_border_left s)) ;; bmod (upd_border_left_width v)) ;;;
  (v <- blift (calc_lenA hz (st_padding_top s)) ;; bmod (upd_padding_top v)) ;;;
  (v <- blift (calc_lenA vt (st_padding_right s)) ;; bmod (upd_padding_right v)) ;;;
  (v <- blift (calc_lenA hz (st_padding_bottom s)) ;; bmod (upd_padding_bottom v)) ;;;
  (v <- blift (calc_lenA vt (st_padding_left s)) ;; bmod (upd_padding_left v)))%bm.

(** engine.py:403-407, 544-548 *)
Definition left_edgeA : BM num := (
  ml <- bnum margin_left ;; bl <- bget border_left_width ;; pl <- bget padding_left ;;
  blift (a_sum ml [bl; pl]))%bm.
(** engine.py:384-392, 485-493, 516-524 *)
Definition avail_widthA (c : ctx) : BM num := (
  sz <- blift (as_num (c_size c)) ;; ml <- bnum margin_left ;;
  bl <- bget border_left_width ;; pl <- bget padding_left ;;
  pr <- bget padding_right ;; br <- bget border_right_width ;; mr <- bnum margin_right ;;
  blift (a_diff sz [ml; bl; pl; pr; br; mr]))%bm.
(** engine.py:366-407 *)
Definition inline_replaced_widthA (s : style) (i : size) (c : ctx) : BM (option num) := (
  auto_left0 ;;; auto_right0 ;;;
  cw <- match st_width s with
        | Auto =>
            match st_height s, s_width i, s_height i, s_ratio i with
            | Auto, Some w, _, _ => bret w                                 (* 377 *)
            | Auto, None, Some h, Some r => p <- blift (a_mul A h r) ;; bret (NI (nround p))  (* 379-382 *)
            | Auto, None, None, Some r => avail_widthA c                   (* 383-392 *)
            | _, Some w, _, _ => bret w                                    (* 395 *)
            | _, None, _, _ => bret (NI 300)                               (* 398 *)
            end
        | Len u => blift (a_px A c u)                                      (* 400 *)
        end ;;
  bmod (upd_content_width (LNum cw)) ;;;
  l <- left_edgeA ;; bret (Some l))%bm.
(** engine.py:413-421 *)
Definition clamped_widthA (s : style) (u : unit_) (c : ctx) : res num :=
  w <-r a_px A c u ;;
  w1 <-r match st_max_width s with
         | None => Ok w
         | Some m => mx <-r a_px A c m ;; Ok (if nltb mx w then mx else w)
         end ;;
  match st_min_width s with
  | Auto => Ok w1
  | Len m => mn <-r a_px A c m ;; Ok (if nltb w1 mn then mn else w1)
  end.
(** engine.py:429-432 *)
Definition add_unless_autoA (acc : num) (f : box -> lval) : BM num :=
  fun b => if is_auto (f b) then (b, Ok acc)
           else (b, bindr (as_num (f b)) (fun m => a_add A acc m)).
(** engine.py:422-437 *)
Definition drop_auto_marginsA (cw : num) (c : ctx) : BM unit := (
  bl <- bget border_left_width ;; pl <- bget padding_left ;;
  pr <- bget padding_right ;; br <- bget border_right_width ;;
  acc <- blift (a_sum bl [pl; cw; pr; br]) ;;
  sz1 <- add_unless_autoA acc margin_left ;;
  sz2 <- add_unless_autoA sz1 margin_right ;;
  sz <- blift (as_num (c_size c)) ;;
  if nltb sz sz2 then auto_left0 ;;; auto_right0 else bret tt)%bm.
(** engine.py:445-453, 500-508 *)
Definition solve_rightA (cw : num) (c : ctx) : BM unit := (
  sz <- blift (as_num (c_size c)) ;; ml <- bnum margin_left ;;
  bl <- bget border_left_width ;; pl <- bget padding_left ;;
  pr <- bget padding_right ;; br <- bget border_right_width ;;
  m <- blift (a_diff sz [ml; bl; pl; cw; pr; br]) ;; bmod (set_margin_right (LNum m)))%bm.
(** engine.py:455-463, 470-478 *)
Definition solve_leftA (cw : num) (c : ctx) : BM unit := (
  sz <- blift (as_num (c_size c)) ;;
  bl <- bget border_left_width ;; pl <- bget padding_left ;;
  pr <- bget padding_right ;; br <- bget border_right_width ;; mr <- bnum margin_right ;;
  m <- blift (a_diff sz [bl; pl; cw; pr; br; mr]) ;; bmod (set_margin_left (LNum m)))%bm.
(** engine.py:526-536 *)
Definition split_marginsA (cw : num) (c : ctx) : BM unit := (
  sz <- blift (as_num (c_size c)) ;;
  bl <- bget border_left_width ;; pl <- bget padding_left ;;
  pr <- bget padding_right ;; br <- bget border_right_width ;;
  avail <- blift (a_diff sz [bl; pl; cw; pr; br]) ;;
  h <- blift (a_half A avail) ;; bmod (set_margin_left (LNum h)) ;;;
  h' <- blift (a_half A avail) ;; bmod (set_margin_right (LNum h')))%bm.
(** engine.py:410-548 *)
Definition block_non_replaced_widthA (s : style) (c : ctx) : BM (option num) := (
  ocw <- match st_width s with
         | Auto => bret None
         | Len u => cw <- blift (clamped_widthA s u c) ;; drop_auto_marginsA cw c ;;; bret (Some cw)
         end ;;
  la <- bget (fun b => is_auto (margin_left b)) ;;
  ra <- bget (fun b => is_auto (margin_right b)) ;;
  cw <- match ocw, la, ra with
        | Some cw, false, false =>                                   (* 439-463 *)
            match st_direction s with LTR => solve_rightA cw c | RTL => solve_leftA cw c end ;;;
            bret cw
        | Some cw, true, false => solve_leftA cw c ;;; bret cw       (* 465-478 *)
        | None, false, false => avail_widthA c                       (* 480-493 *)
        | Some cw, false, true => solve_rightA cw c ;;; bret cw      (* 495-508 *)
        | None, _, _ => auto_left0 ;;; auto_right0 ;;; avail_widthA c (* 510-524 *)
        | Some cw, true, true => split_marginsA cw c ;;; bret cw     (* 526-536 *)
        end ;;
  bmod (upd_content_width (LNum cw)) ;;;
  l <- left_edgeA ;; bret (Some l))%bm.
(** engine.py:320-351, 551-583 *)
Definition calculate_widthA (s : style) (i : size) (c : ctx) : BM (option num) :=
  if is_float s then bfail NotImplementedError
  else if is_abspos s then bfail NotImplementedError
  else if is_inline s then
    if s_replaced i then inline_replaced_widthA s i c else inline_non_replaced_width i
  else if is_block_level s then
    if s_replaced i then bfail NotImplementedError else block_non_replaced_widthA s c
  else if is_inline_block s then bfail NotImplementedError
  else bfail PlainException.

(** engine.py:628-630, 657-659 *)
Definition top_edgeA : BM num := (
  mt <- bnum margin_top ;; bt <- bget border_top_width ;; pt <- bget padding_top ;;
  blift (a_sum mt [bt; pt]))%bm.
(** engine.py:625-630 *)
Definition inline_non_replaced_heightA (i : size) : BM num := (
  bmod (upd_content_height (lopt (s_height i))) ;;; top_edgeA)%bm.
(** engine.py:651-652 *)
Definition half_width_heightA : BM num := (
  w <- bnum content_width ;; h <- blift (a_half A w) ;; bret (nmin h (NI 150)))%bm.
(** engine.py:633-659 *)
Definition inline_replaced_heightA (s : style) (i : size) (c : ctx) : BM num := (
  auto_top0 ;;; auto_bottom0 ;;;
  ch <- match st_height s with
        | Auto =>
            match st_width s, s_height i with
            | Auto, Some h => bret h                                     (* 641-646 *)
            | _, _ =>
                match s_ratio i with
                | Some r =>
                    if truthy (s_ratio i)
                    then w <- bnum content_width ;; blift (a_mul A w r)  (* 647-648 *)
                    else match s_height i with
                         | Some h => if truthy (s_height i) then bret h else half_width_heightA   (* 649-652 *)
                         | None => half_width_heightA
                         end
                | None =>
                    match s_height i with
                    | Some h => if truthy (s_height i) then bret h else half_width_heightA        (* 649-652 *)
                    | None => half_width_heightA
                    end
                end
            end
        | Len u => blift (a_px A c u)                                    (* 654 *)
        end ;;
  bmod (upd_content_height (LNum ch)) ;;; top_edgeA)%bm.
(** engine.py:670-700 *)
Definition block_content_heightA (s : style) (ph : option unit_) (last : option (option box))
    (c : ctx) : BM num := (
  match st_height s with
  | Auto =>
      match last with
      | Some None => bfail AttributeError                                (* 676 *)
      | Some (Some lb) =>
          h <- blift (border_box_bottomA lb) ;;
          bmod (set_collapse_bottom (LNum (NI (collapse_bottom lb)))) ;;; bret h
      | None =>
          match st_min_height s with
          | Auto => bret n0                                              (* 688 *)
          | Len u => blift (a_px A c u)                                  (* 686 *)
          end
      end
  | Len u =>
      h <- match ph with
           | Some pu =>
               p <- blift (a_px A c pu) ;;
               blift (a_px A (mkCtx (c_disp c) (c_font c) (LNum p)) u)   (* 691-694 *)
           | None => blift (a_px A c u)                                  (* 696 *)
           end ;;
      match st_max_height s with
      | None => bret h
      | Some m => mx <- blift (a_px A c m) ;; bret (if nltb mx h then mx else h)  (* 697-700 *)
      end
  end)%bm.
(** engine.py:662-703 *)
Definition block_non_replaced_heightA (s : style) (ph : option unit_)
    (last : option (option box)) (c : ctx) : BM num := (
  auto_top0 ;;; auto_bottom0 ;;;
  h <- block_content_heightA s ph last c ;;
  bmod (upd_content_height (LNum h)) ;;;
  bt <- bget border_top_width ;; pt <- bget padding_top ;; blift (a_add A bt pt))%bm.
(** engine.py:589-622, 706-738 *)
Definition calculate_heightA (s : style) (i : size) (ph : option unit_)
    (last : option (option box)) (c : ctx) : BM num :=
  if is_float s then bfail NotImplementedError
  else if is_abspos s then bfail NotImplementedError
  else if is_inline s then
    if s_replaced i then inline_replaced_heightA s i c else inline_non_replaced_heightA i
  else if is_block_level s then
    if s_replaced i then bfail NotImplementedError else block_non_replaced_heightA s ph last c
  else if is_inline_block s then bfail NotImplementedError
  else bfail PlainException.
(** engine.py:267-280, 285-298 *)
Definition rel_offsetA (c : ctx) (start end_ : offset) (cs ce : res num) : res num :=
  match start, end_ with
  | OAuto, OAuto => Ok n0
  | OAuto, OInherit => v <-r ce ;; Ok (nneg v)
  | OAuto, OLen u => v <-r a_px A c u ;; Ok (nneg v)
  | OInherit, OAuto => cs
  | OLen u, OAuto => a_px A c u
  | OLen u, _ => a_px A c u
  | OInherit, _ => Err AttributeError
  end.

Context {S : Type} (sty : S -> style).
(** Nodes with styles of type [S]. *)
Notation node := (node S).

Declare Scope m_scope.
Delimit Scope m_scope with m.
(** Notation for sequencing. *)
Notation "x <- m ;; k" := (mbind m (fun x => k))
  (at level 61, m at next level, right associativity) : m_scope.
(** Notation for sequencing without a result. *)
Notation "m ;;; k" := (mbind m (fun _ => k)) (at level 61, right associativity) : m_scope.

(** An assignment whose propagation to the children may raise (see the header). *)
Definition mset (f : node -> res node) : M (S := S) unit := fun n =>
  match f n with Ok n' => (n', Ok tt) | Err e => (n, Err e) end.
(** node.layout.content_top += v (engine.py:300, 628, 657, 703) *)
Definition add_content_topA (v : num) : M (S := S) unit := fun n =>
  match n_box n with
  | Some b => mset (fun n => w <-r a_add A (content_top b) v ;; set_content_topA w n) n
  | None => (n, Err AttributeError)
  end.
(** node.layout.content_left += v (engine.py:282) *)
Definition add_content_leftA (v : num) : M (S := S) unit := fun n =>
  match n_box n with
  | Some b => mset (fun n => w <-r a_add A (content_left b) v ;; set_content_leftA w n) n
  | None => (n, Err AttributeError)
  end.
(** engine.py:320-351, 403, 544 *)
Definition calculate_width_and_marginsA (c : ctx) : M (S := S) unit := fun n =>
  (ol <- on_box (calculate_widthA (sty (n_style n)) (n_intr n) c) ;;
   match ol with Some l => mset (set_content_leftA l) | None => mret tt end)%m n.
(** engine.py:589-622, 628, 657, 703 *)
Definition calculate_height_and_marginsA (c : ctx) (cb : cblock (S := S)) : M (S := S) unit := fun n =>
  (d <- on_box (calculate_heightA (sty (n_style n)) (n_intr n) (cb_style_height sty cb) (last_layout n) c) ;;
   add_content_topA d)%m n.
(** engine.py:247-259 *)
Definition place_childA (k : node) (b : box) (off : num) (bm : option Z)
    : node * box * res (num * option Z) :=
  match n_box k with
  | None => (k, b, Err AttributeError)
  | Some kb =>
      let '(b1, off1) :=
        match bm with
        | None => (set_collapse_top (LNum (NI (collapse_top kb))) b, Ok off)
        | Some m => (b, mt <-r as_num (margin_top kb) ;; a_add A off (nmax (NI m) mt))
        end in
      match off1 with
      | Err e => (k, b1, Err e)
      | Ok o =>
          match (w <-r a_add A (content_top kb) o ;; set_content_topA w k) with
          | Err e => (k, b1, Err e)
          | Ok k' =>
              (k', b1, h <-r border_box_heightA kb ;; o' <-r a_add A o h ;; Ok (o', Some (collapse_bottom kb)))
          end
      end
  end.
(** engine.py:148-162, 239-259 *)
Fixpoint flowA (lay : box -> node -> node * res unit) (ks : list node) (pend : bool)
    (b : box) (off : num) (bm : option Z) : list node * box * res unit :=
  match ks with
  | [] => ([], b, Ok tt)
  | k :: ks' =>
      if is_block_level (sty (n_style k)) then
        if pend then (ks, b, Err AttributeError)
        else
          match lay b k with
          | (k1, Err e) => (k1 :: ks', b, Err e)
          | (k1, Ok _) =>
              match place_childA k1 b off bm with
              | (k2, b2, Err e) => (k2 :: ks', b2, Err e)
              | (k2, b2, Ok (off', bm')) =>
                  let '(ks2, b3, r) := flowA lay ks' false b2 off' bm' in
                  (k2 :: ks2, b3, r)
              end
          end
      else
        let '(ks2, b2, r) := flowA lay ks' true b off bm in (k :: ks2, b2, r)
  end.
(** engine.py:226-259 *)
Definition layout_childrenA (lay : cblock (S := S) -> node -> node * res unit) : M (S := S) unit := fun n =>
  match n with
  | Node s i None ks => (n, Err AttributeError)
  | Node s i (Some b) ks =>
      if establishes_inline sty n then
        let (ks', r) := lay_all (lay (CBNode s b)) ks in (Node s i (Some b) ks', r)
      else
        let '(ks', b', r) := flowA (fun b0 => lay (CBNode s b0)) ks false b n0 None in
        (Node s i (Some b') ks', r)
  end.
(** engine.py:264-300 *)
Definition relative_shiftA (d : display_t) (f : font_t) (cb : cblock (S := S)) : M (S := S) unit := fun n =>
  let s := sty (n_style n) in
  if is_relative s then
    (vl <- mlift (rel_offsetA (hctx d f cb) (st_left s) (st_right s)
                    (cb_attr (fun b => Ok (content_left b)) cb) (cb_attr content_rightA cb)) ;;
     add_content_leftA vl ;;;
     vt <- mlift (rel_offsetA (vctx d f cb) (st_top s) (st_bottom s)
                    (cb_attr (fun b => Ok (content_top b)) cb) (cb_attr content_bottomA cb)) ;;
     add_content_topA vt)%m n
  else (n, Ok tt).
(** engine.py:171-173 *)
Definition ensure_boxA (n : node) : res node :=
  match n_box n with Some _ => Ok n | None => reset_selfA n end.
(** engine.py:165-300 *)
Fixpoint layout_boxA (fuel : nat) (d : display_t) (f : font_t) (cb : cblock (S := S)) (n : node)
    {struct fuel} : node * res unit :=
  match fuel with
  | O => (n, Err OutOfFuel)
  | Datatypes.S fuel' =>
      let s := sty (n_style n) in
      match st_display s with
      | None => (with_box None n, Ok tt)
      | Some _ =>
          (mset ensure_boxA ;;;
           on_box (copy_edgesA s (hctx d f cb) (vctx d f cb)) ;;;
           calculate_width_and_marginsA (hctx d f cb) ;;;
           (if is_relative s then calculate_height_and_marginsA (vctx d f cb) cb else mret tt) ;;;
           (if is_abspos s then mlift (Err NotImplementedError)
            else if is_float s then mlift (Err NotImplementedError)
            else layout_childrenA (layout_boxA fuel' d f)) ;;;
           calculate_height_and_marginsA (vctx d f cb) cb ;;;
           relative_shiftA d f cb)%m n
      end
  end.
(** engine.py:116-129 *)
Definition finish_rootA (d : display_t) (html5 : bool) : M (S := S) unit := fun n =>
  match n_box n with
  | None => (n, Err AttributeError)
  | Some b =>
      (mset (fun n => w <-r a_add A (content_top b) (NI (collapse_top b)) ;; set_content_topA w n) ;;;
       if html5
       then h <- mlift (a_diff (disp_height d) [NI (collapse_top b); NI (collapse_bottom b)]) ;;
            on_box (bmod (upd_content_height (LNum h)))
       else mret tt)%m n
  end.
(** engine.py:107-129: layout(display, node, standard).  The reset (108) only stores zeros and adds 0 + 0. *)
Definition layoutA (d : display_t) (html5 : bool) (n : node) : node * res unit :=
  match n_box n with
  | None => (n, Err AttributeError)
  | Some _ =>
      (mmod reset ;;;
       layout_boxA (height n) d dummy_font CBView ;;;
       finish_rootA d html5)%m n
  end.
End Arith.

(** ** An arithmetic that stops where binary64 could differ *)
(** At most 2^46 px in absolute value (units.py:58-62 gives multiples of 1/64 px, which are doubles up to there). *)
Definition small (x : num) : bool := Qle_bool (Qabs (this (nval x))) (qpow2 46).
(** Equality of two layout numbers, int or float. *)
Definition same_num (x y : num) : bool :=
  match x, y with NI a, NI b => Z.eqb a b | NF p, NF q => qc_eqb p q | _, _ => false end.
(** The exact result of an operation (dimensions.py:373-534, engine.py:116-703) unless an operand or the result is too large for [small]. *)
Definition guarded (r : num) (xs : list num) : res num :=
  if forallb small (r :: xs) then Ok r else Err Unmodelled.
(** Equality of exception classes. *)
Definition exn_eq_dec (a b : exn) : {a = b} + {a <> b}.
Proof. decide equality. Defined.
(** The conversion (units.py:58-62) where the exact and the binary64 one agree. *)
Definition agreed_px (c : ctx) (u : unit_) : res num :=
  match px c u, px_f c u with
  | Ok x, Ok y => if same_num x y then Ok x else Err Unmodelled
  | Err e, Err e' => if exn_eq_dec e e' then Err e else Err Unmodelled
  | _, _ => Err Unmodelled
  end.
(** The exact operations, stopping at large operands and at conversions that differ (units.py:58-62, dimensions.py:373-534, engine.py:116-703). *)
Definition checked_arith : arith :=
  mkArith (fun x y => guarded (nadd x y) [x; y]) (fun x y => guarded (nsub x y) [x; y])
          (fun x y => guarded (nmul x y) [x; y]) (fun x => guarded (nhalf x) [x]) agreed_px.
(** The binary64 conversion with the exact operations, stopping at large operands only (units.py:58-62, dimensions.py:373-534, engine.py:116-703). *)
Definition rounded_arith : arith :=
  mkArith (fun x y => guarded (nadd x y) [x; y]) (fun x y => guarded (nsub x y) [x; y])
          (fun x y => guarded (nmul x y) [x; y]) (fun x => guarded (nhalf x) [x]) px_f.
