(** * What C167 says: documents whose declarations end with the same writes *)
From Coq Require Import ZArith Bool String Ascii List.
From Verif Require Import PyNum PyStr Units Values Choices Shorthand Decl DeclSpec ParseSpec ParserSpec GrammarSpec ComputedSpec TableSpec.
Import ListNotations.
Open Scope string_scope.

(** The unit objects of the library, and values without any other. *)
Definition library_unit (u : unit_) : Prop := exists t, In (t, u_kind u) css_units.
Inductive within : pyval -> pyval -> Prop :=
| within_self v : within v v
| within_member x v l y : members v l -> In y l -> within x y -> within x v.
Definition library_value (v : pyval) : Prop := forall u, within (VUnit u) v -> library_unit u.
Definition library_op (o : op) : Prop :=
  match o with
  | OpSet _ v | OpSetItem _ v => library_value v
  | OpUpdate l => forall name v, In (name, v) l -> library_value v
  | _ => True
  end.

(** The value q reads as after the change. *)
Inductive means (q : longhand) : change -> pyval -> Prop :=
| means_unset : means q Reset (css_initial q)
| means_given v n w m : written q n v w m -> means q (Give v) w.
Definition same_meaning (q : longhand) (x y : change) : Prop :=
  exists v w, means q x v /\ means q y w /\ (v = w \/ equals v w).

(** [edited_alike]: two declarations made by two programs whose last writes to
    each property the engine reads mean the same. *)
Definition edited_alike (h1 h2 : hash_order) (a b : css) : Prop :=
  exists l1 l2 E1 E2 rs1 rs2, Forall library_op l1 /\ Forall library_op l2 /\ with_layouts l1 /\ with_layouts l2
    /\ program l1 E1 rs1 /\ program l2 E2 rs2
    /\ a = fst (run_ops h1 l1 fresh_css first_free) /\ b = fst (run_ops h2 l2 fresh_css first_free)
    /\ forall q, engine_reads q = true -> same_meaning q (over Reset (E1 q)) (over Reset (E2 q)).
