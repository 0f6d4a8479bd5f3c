(** * What C198 says: undoing edits *)
From Coq Require Import ZArith Bool String Ascii List.
From Verif Require Import PyNum PyStr Units Values Choices Shorthand Decl DeclSpec TableSpec EditSpec.
Import ListNotations.
Open Scope string_scope.

(** How to undo the edits of a longhand: assign the value it had in [a], or
    delete it if it had none of its own. *)
Definition restore (a : css) (q : longhand) : op :=
  match c_store a q with Some v => OpSet (Long q) v | None => OpDel (Long q) end.
(** Every longhand of [a] that has a value of its own among [qs] can be assigned that value. *)
Definition restorable (a : css) (qs : list longhand) : Prop := forall q v, In q qs -> c_store a q = Some v -> fixed_point v.
(** All longhands read the same, up to equality of values. *)
Definition reads_equal (ho : hash_order) (a b : css) : Prop :=
  forall q, exists x y, get_prop ho a (Long q) = Ok (RValue x) /\ get_prop ho b (Long q) = Ok (RValue y) /\ (x = y \/ equals x y).
(** [b] is [a] after edits [l] that changed at most the longhands [qs], and after undoing them. *)
Definition undone (ho : hash_order) (a b : css) : Prop :=
  exists l0 l qs n c1 n1, Forall library_op l0 /\ Forall library_op l
    /\ run_ops ho l0 fresh_css first_free = (a, n) /\ run_ops ho l a n = (c1, n1) /\ has_layout c1
    /\ (forall q, ~ In q qs -> c_store c1 q = c_store a q) /\ restorable a qs
    /\ b = fst (run_ops ho (map (restore a) qs) c1 n1).
