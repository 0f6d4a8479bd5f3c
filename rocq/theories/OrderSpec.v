(** * What C146 says: the order of keyword arguments *)
From Coq Require Import ZArith QArith Qcanon Bool String Ascii List.
From Verif Require Import PyNum Units Float64 PyStr Colors Values Parser Choices Shorthand Decl DeclSpec.
Import ListNotations.
Open Scope string_scope.

(** [existed n v]: every object in v was created before the n-th one. *)
Definition oid_before (n : nat) (o : oid) : Prop := match o with ONamed _ => True | OId i => (i < n)%nat end.
Fixpoint existed (n : nat) (v : pyval) : Prop :=
  match v with
  | VColor o _ | VSpacing o _ _ | VUri o _ | VObject o => oid_before n o
  | VTuple l | VList l | VCursor l => (fix all l := match l with [] => True | x :: r => existed n x /\ all r end) l
  | _ => True
  end.
(** No longhand is given by both. *)
Definition apart (x y : string * pyval) : Prop :=
  forall p q, names_prop (fst x) p -> names_prop (fst y) q -> forall l, In l (longhands_of p) -> ~ In l (longhands_of q).
(** The same value, but colours, border spacings and URLs may be other objects
    with the same contents. *)
Inductive same_item_contents : pyval -> pyval -> Prop :=
| item_same v : same_item_contents v v
| item_url o o' x : same_item_contents (VUri o x) (VUri o' x).
Inductive same_contents : pyval -> pyval -> Prop :=
| contents_same v : same_contents v v
| contents_color o o' c : same_contents (VColor o c) (VColor o' c)
| contents_spacing o o' h v : same_contents (VSpacing o h v) (VSpacing o' h v)
| contents_cursor l m : Forall2 same_item_contents l m -> same_contents (VCursor l) (VCursor m).
Inductive same_reading : reading -> reading -> Prop :=
| reading_value v w : same_contents v w -> same_reading (RValue v) (RValue w)
| reading_sides l m : Forall2 same_contents l m -> same_reading (RSides l) (RSides m)
| reading_parts l m : Forall2 (fun x y => fst x = fst y /\ same_contents (snd x) (snd y)) l m -> same_reading (RParts l) (RParts m).
Definition read_same (a b : res reading) : Prop :=
  match a, b with Ok x, Ok y => same_reading x y | Err e, Err f => e = f | _, _ => False end.
