(** * Counting the work of layout() -- /repo/src/colosseum/engine.py, dimensions.py

    The functions of [Engine.v] that set positions, again, with a count: each call of layout_box()
    costs [call], and each execution of one of the setters that go through the
    children (content_top, content_left, _origin_top, _origin_left,
    dimensions.py:246-291) costs [turn].  Everything else layout() does at a node
    is a fixed number of steps per call of layout_box() and per child. *)
From Coq Require Import ZArith QArith Qcanon Bool List.
From Verif Require Import PyNum Units BoxModel Engine.
Import ListNotations.

Section Cost.
Context {S : Type} (sty : S -> style) (call turn : nat).
(** Nodes with styles of type [S]. *)
Notation node := (node S).

(** A loop over the children (dimensions.py:235-237, 250-252): the sum of what it costs for each. *)
Definition over {A} (f : A -> nat) (ks : list A) : nat := fold_right Nat.add 0%nat (map f ks).
(** dimensions.py:246-252: the _origin_top setter of the layout of [n], if it has one. *)
Fixpoint origin_top_cost (v : num) (n : node) : nat :=
  match n with
  | Node s i None ks => 0
  | Node s i (Some b) ks =>
      turn + if neqb v (origin_top b) then 0
             else fold_right Nat.add 0%nat (map (origin_top_cost (absolute_content_top (upd_origin_top v b))) ks)
  end.
(** dimensions.py:258-264 *)
Fixpoint origin_left_cost (v : num) (n : node) : nat :=
  match n with
  | Node s i None ks => 0
  | Node s i (Some b) ks =>
      turn + if neqb v (origin_left b) then 0
             else fold_right Nat.add 0%nat (map (origin_left_cost (absolute_content_left (upd_origin_left v b))) ks)
  end.
(** dimensions.py:273-279 *)
Definition content_top_cost (v : num) (n : node) : nat :=
  match n with
  | Node s i None ks => 0
  | Node s i (Some b) ks =>
      turn + if neqb v (content_top b) then 0 else over (origin_top_cost (absolute_content_top (upd_content_top v b))) ks
  end.
(** dimensions.py:285-291 *)
Definition content_left_cost (v : num) (n : node) : nat :=
  match n with
  | Node s i None ks => 0
  | Node s i (Some b) ks =>
      turn + if neqb v (content_left b) then 0 else over (origin_left_cost (absolute_content_left (upd_content_left v b))) ks
  end.
(** dimensions.py:230-231: the two assignments at the end of _reset; the
    origins were None, so both go through the children. *)
Definition reset_self_cost (n : node) : nat :=
  (turn + over (origin_top_cost n0) (n_kids n))
  + (turn + over (fun k => origin_left_cost n0 (set_origin_top n0 k)) (n_kids n)).

(** Computations on a node, with what they cost so far. *)
Definition CM A := node -> node * res A * nat.
(** A value (no part of the repository: plumbing of the count). *)
Definition cret {A} (a : A) : CM A := fun n => (n, Ok a, 0%nat).
(** Sequencing (plumbing of the count): an exception keeps the changes and the cost. *)
Definition cbind {A B} (m : CM A) (f : A -> CM B) : CM B := fun n =>
  match m n with
  | (n', Ok a, x) => let '(n'', r, y) := f a n' in (n'', r, (x + y)%nat)
  | (n', Err e, x) => (n', Err e, x)
  end.
(** A step that costs nothing (plumbing of the count). *)
Definition free {A} (m : M A) : CM A := fun n => (m n, 0%nat).
Local Notation "x <- m ;; k" := (cbind m (fun x => k)) (at level 61, m at next level, right associativity).
Local Notation "m ;;; k" := (cbind m (fun _ => k)) (at level 61, right associativity).

(** node.layout.content_top = v (dimensions.py:273-279) *)
Definition set_topC (v : num) : CM unit := fun n => (set_content_top v n, Ok tt, content_top_cost v n).
(** node.layout.content_left = v (dimensions.py:285-291) *)
Definition set_leftC (v : num) : CM unit := fun n => (set_content_left v n, Ok tt, content_left_cost v n).
(** node.layout.content_top += v (engine.py:300 and the height functions 624-718) *)
Definition add_topC (v : num) : CM unit := fun n =>
  match n_box n with Some b => set_topC (nadd (content_top b) v) n | None => (n, Err AttributeError, 0%nat) end.
(** node.layout.content_left += v (engine.py:282) *)
Definition add_leftC (v : num) : CM unit := fun n =>
  match n_box n with Some b => set_leftC (nadd (content_left b) v) n | None => (n, Err AttributeError, 0%nat) end.
(** engine.py:320-351 *)
Definition widthC (c : ctx) : CM unit := fun n =>
  (ol <- free (on_box (calculate_width (sty (n_style n)) (n_intr n) c)) ;;
   match ol with Some l => set_leftC l | None => cret tt end) n.
(** engine.py:589-622 *)
Definition heightC (c : ctx) (cb : cblock (S:=S)) : CM unit := fun n =>
  (d <- free (on_box (calculate_height (sty (n_style n)) (n_intr n) (cb_style_height sty cb) (last_layout n) c)) ;;
   add_topC d) n.
(** engine.py:228-229, dimensions.py:235-237: a call for every child in turn. *)
Fixpoint lay_allC (lay : node -> node * res unit * nat) (ks : list node) : list node * res unit * nat :=
  match ks with
  | [] => ([], Ok tt, 0%nat)
  | k :: ks' =>
      match lay k with
      | (k', Ok _, x) => let '(ks'', r, y) := lay_allC lay ks' in (k' :: ks'', r, (x + y)%nat)
      | (k', Err e, x) => (k' :: ks', Err e, x)
      end
  end.
(** engine.py:247-259: what placing a child costs. *)
Definition place_cost (k : node) (b : box) (off : num) (bm : option Z) : nat :=
  match n_box k with
  | None => 0
  | Some kb =>
      match (match bm with None => Ok off | Some m => mt <-r as_num (margin_top kb) ;; Ok (nadd off (nmax (NI m) mt)) end) with
      | Err _ => 0
      | Ok o => content_top_cost (nadd (content_top kb) o) k
      end
  end.
(** engine.py:148-162 and 239-259, as [Engine.flow]. *)
Fixpoint flowC (lay : box -> node -> node * res unit * nat) (ks : list node) (pend : bool)
    (b : box) (off : num) (bm : option Z) : list node * box * res unit * nat :=
  match ks with
  | [] => ([], b, Ok tt, 0%nat)
  | k :: ks' =>
      if is_block_level (sty (n_style k)) then
        if pend then (ks, b, Err AttributeError, 0%nat)
        else
          match lay b k with
          | (k1, Err e, x) => (k1 :: ks', b, Err e, x)
          | (k1, Ok _, x) =>
              match place_child k1 b off bm with
              | (k2, b2, Err e) => (k2 :: ks', b2, Err e, (x + place_cost k1 b off bm)%nat)
              | (k2, b2, Ok (off', bm')) =>
                  let '(ks2, b3, r, y) := flowC lay ks' false b2 off' bm' in
                  (k2 :: ks2, b3, r, (x + place_cost k1 b off bm + y)%nat)
              end
          end
      else
        let '(ks2, b2, r, y) := flowC lay ks' true b off bm in (k :: ks2, b2, r, y)
  end.
(** engine.py:226-259 *)
Definition childrenC (lay : cblock (S:=S) -> node -> node * res unit * nat) : CM unit := fun n =>
  match n with
  | Node s i None ks => (n, Err AttributeError, 0%nat)
  | Node s i (Some b) ks =>
      if establishes_inline sty n then
        let '(ks', r, x) := lay_allC (lay (CBNode s b)) ks in (Node s i (Some b) ks', r, x)
      else
        let '(ks', b', r, x) := flowC (fun b0 => lay (CBNode s b0)) ks false b n0 None in
        (Node s i (Some b') ks', r, x)
  end.
(** engine.py:264-300 *)
Definition shiftC (d : display_t) (f : font_t) (cb : cblock (S:=S)) : CM unit := fun n =>
  let s := sty (n_style n) in
  if is_relative s then
    (vl <- free (mlift (rel_offset (hctx d f cb) (st_left s) (st_right s)
                    (cb_attr (fun b => Ok (content_left b)) cb) (cb_attr content_right cb))) ;;
     add_leftC vl ;;;
     vt <- free (mlift (rel_offset (vctx d f cb) (st_top s) (st_bottom s)
                    (cb_attr (fun b => Ok (content_top b)) cb) (cb_attr content_bottom cb))) ;;
     add_topC vt) n
  else (n, Ok tt, 0%nat).
(** engine.py:171-173 *)
Definition ensureC : CM unit := fun n =>
  match n_box n with Some _ => (n, Ok tt, 0%nat) | None => (reset_self n, Ok tt, reset_self_cost n) end.
(** engine.py:165-300 *)
Fixpoint layout_boxC (fuel : nat) (d : display_t) (f : font_t) (cb : cblock (S:=S)) (n : node)
    {struct fuel} : node * res unit * nat :=
  match fuel with
  | O => (n, Err OutOfFuel, 0%nat)
  | Datatypes.S fuel' =>
      let s := sty (n_style n) in
      match st_display s with
      | None => (with_box None n, Ok tt, call)
      | Some _ =>
          ((fun n => (n, Ok tt, call)) ;;;
           ensureC ;;;
           free (on_box (copy_edges s (hctx d f cb) (vctx d f cb))) ;;;
           widthC (hctx d f cb) ;;;
           (if is_relative s then heightC (vctx d f cb) cb else cret tt) ;;;
           (if is_abspos s then free (mlift (Err NotImplementedError))
            else if is_float s then free (mlift (Err NotImplementedError))
            else childrenC (layout_boxC fuel' d f)) ;;;
           heightC (vctx d f cb) cb ;;;
           shiftC d f cb) n
      end
  end.
(** dimensions.py:233-237, literally: _reset(), then reset() of the children
    that have a layout.  [fuel] bounds the recursion depth. *)
Fixpoint resetC (fuel : nat) (n : node) : node * res unit * nat :=
  match fuel with
  | O => (n, Err OutOfFuel, 0%nat)
  | Datatypes.S fuel' =>
      match n with
      | Node s i None ks => (n, Ok tt, 0%nat)
      | Node s i (Some _) ks =>
          let '(ks', r, x) := lay_allC (resetC fuel') (n_kids (reset_self n)) in
          (Node s i (Some box0) ks', r, (reset_self_cost n + x)%nat)
      end
  end.
(** engine.py:116-129 *)
Definition finishC (d : display_t) (html5 : bool) : CM unit := fun n =>
  match n_box n with
  | None => (n, Err AttributeError, 0%nat)
  | Some b =>
      (set_topC (nadd (content_top b) (NI (collapse_top b))) ;;;
       free (if html5
             then on_box (bmod (upd_content_height
                    (LNum (nsub (nsub (disp_height d) (NI (collapse_top b))) (NI (collapse_bottom b))))))
             else mret tt)) n
  end.
(** engine.py:107-129 *)
Definition layoutC (d : display_t) (html5 : bool) (n : node) : node * res unit * nat :=
  match n_box n with
  | None => (n, Err AttributeError, 0%nat)
  | Some _ => (resetC (height n) ;;; layout_boxC (height n) d dummy_font CBView ;;; finishC d html5) n
  end.
End Cost.
