(** * layout() of a node that has a parent -- /repo/src/colosseum/engine.py

    [Engine.layout] takes the node given to layout() to have no parent.  Here it
    may have one; the only place where the parent is read is engine.py:690-691,
    so only the height of that node is computed differently. *)
From Coq Require Import ZArith QArith Qcanon Bool List.
From Verif Require Import PyNum Units BoxModel Engine.

Section Rooted.
Context {S : Type} (sty : S -> style).
Notation node := (node S).
Local Notation "x <- m ;; k" := (mbind m (fun x => k)) (at level 61, m at next level, right associativity).
Local Notation "m ;;; k" := (mbind m (fun _ => k)) (at level 61, right associativity).

(** engine.py:690: the height of the parent's style, unless there is no parent
    or it is AUTO. *)
Definition parent_height (parent : option S) : option unit_ :=
  match parent with None => None | Some s => match st_height (sty s) with Auto => None | Len u => Some u end end.
(** engine.py:589-622 for the node given to layout(). *)
Definition top_height (parent : option S) (c : ctx) : M unit := fun n : node =>
  (d <- on_box (calculate_height (sty (n_style n)) (n_intr n) (parent_height parent) (last_layout n) c) ;;
   add_content_top d) n.
(** engine.py:165-300 for the node given to layout(); its children are laid out
    by [layout_box]. *)
Definition top_box (parent : option S) (fuel : nat) (d : display_t) (f : font_t) (n : node) : node * res unit :=
  match fuel with
  | O => (n, Err OutOfFuel)
  | Datatypes.S fuel' =>
      let s := sty (n_style n) in
      match st_display s with
      | None => (with_box None n, Ok tt)
      | Some _ =>
          (mmod ensure_box ;;;
           on_box (copy_edges s (hctx d f (@CBView S)) (vctx d f (@CBView S))) ;;;
           calculate_width_and_margins sty (hctx d f (@CBView S)) ;;;
           (if is_relative s then top_height parent (vctx d f (@CBView S)) else mret tt) ;;;
           (if is_abspos s then mlift (Err NotImplementedError)
            else if is_float s then mlift (Err NotImplementedError)
            else layout_children sty (layout_box sty fuel' d f)) ;;;
           top_height parent (vctx d f (@CBView S)) ;;;
           relative_shift sty d f CBView) n
      end
  end.
(** engine.py:107-129: layout(display, node, standard). *)
Definition layout_below (parent : option S) (d : display_t) (html5 : bool) (n : node) : node * res unit :=
  match n_box n with
  | None => (n, Err AttributeError)
  | Some _ => (mmod reset ;;; top_box parent (height n) d dummy_font ;;; finish_root d html5) n
  end.
End Rooted.
