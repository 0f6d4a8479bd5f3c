(** * What C180 says: operations on different properties can be reordered *)
From Coq Require Import ZArith Bool String Ascii List Permutation.
From Verif Require Import PyNum PyStr Units Values Choices Shorthand Decl DeclSpec TableSpec EditSpec.
Import ListNotations.
Open Scope string_scope.

(** The operation is about the longhand q: it names q, or a property that
    stands for q among others. *)
Definition about (o : op) (q : longhand) : Prop :=
  match o with
  | OpSet p _ | OpDel p => In q (longhands_of p)
  | OpUpdate l => exists name v p, In (name, v) l /\ names_prop name p /\ In q (longhands_of p)
  | OpSetItem name _ | OpDelItem name => exists p, names_prop name p /\ In q (longhands_of p)
  | OpBind _ => False
  end.
(** The two operations have no longhand in common. *)
Definition independent (a b : op) : Prop := forall q, about a q -> about b q -> False.

(** The second program is the first with neighbouring independent operations
    exchanged any number of times. *)
Inductive reordered : list op -> list op -> Prop :=
| reordered_same l : reordered l l
| reordered_swap l1 a b l2 : independent a b -> reordered (l1 ++ a :: b :: l2) (l1 ++ b :: a :: l2)
| reordered_then k l m : reordered k l -> reordered l m -> reordered k m.

(** Two declarations made by a program and by a reordering of it. *)
Definition made_reordered (ho : hash_order) (a b : css) : Prop :=
  exists l m, with_layouts l /\ Forall spares_quotes l /\ Forall library_op l /\ reordered l m
    /\ a = fst (run_ops ho l fresh_css first_free) /\ b = fst (run_ops ho m fresh_css first_free).
