(** * What C196 says: arrangements of rectangles *)
From Coq Require Import ZArith QArith Qcanon Bool List.
From Verif Require Import PyNum Units UnitsSpec BoxModel Engine EngineSpec EngineExamples RefLayout PixelSpec.
Import ListNotations.
Open Scope Qc_scope.

(** A rectangle with its position in the rectangle around, and the rectangles inside, from top to bottom. *)
Inductive plan := Plan (left top width height : Qc) (inside : list plan).
(** Multiples of 1/64 px; the rectangles inside another begin at its top or
    below, each at the bottom of the one before or below.  They may stick out
    at the left, at the right and at the bottom. *)
Inductive drawable : Qc -> list plan -> Prop :=
| drawable_nil from : drawable from []
| drawable_cons from l t w h inside rest :
    on_grid l -> on_grid t -> on_grid w -> on_grid h -> from <= t -> 0 <= w -> 0 <= h ->
    drawable 0 inside -> drawable (t + h) rest -> drawable from (Plan l t w h inside :: rest).
(** The content boxes of a laid out document are the rectangles. *)
Inductive drawn {S : Type} : node S -> plan -> Prop :=
| drawn_box s i b ks l t w h ps :
    nval (content_left b) = l -> nval (content_top b) = t -> is_num (content_width b) w -> is_num (content_height b) h ->
    Forall2 drawn ks ps -> drawn (Node s i (Some b) ks) (Plan l t w h ps).
(** The document for it: every rectangle is a block with its width and height,
    its distance from the left as left margin and the gap above as top padding. *)
Definition pxs (q : Qc) : unit_ := pixels (NF q).
Definition rectangle (gap l w h : Qc) : style :=
  s_size (Len (pxs w)) (Len (pxs h)) (s_margin (Len zero_px) (Len zero_px) (Len zero_px) (Len (pxs l)) (s_padding (pxs gap) zero_px zero_px zero_px block_style)).
Fixpoint block_of (from : Qc) (p : plan) : doc :=
  let 'Plan l t w h inside := p in
  el (rectangle (t - from) l w h)
    ((fix blocks (from : Qc) (ps : list plan) : list doc :=
        match ps with
        | [] => []
        | p :: rest => block_of from p :: blocks (let 'Plan _ t _ h _ := p in t + h) rest
        end) 0 inside).
Fixpoint blocks_of (from : Qc) (ps : list plan) : list doc :=
  match ps with
  | [] => []
  | p :: rest => block_of from p :: blocks_of (let 'Plan _ t _ h _ := p in t + h) rest
  end.
Definition page_of (ps : list plan) : doc := el block_style (blocks_of 0 ps).
