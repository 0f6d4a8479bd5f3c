(** * Written percentages: a reader's specification

    C178: what a percentage that a program wrote as a text comes to. *)
From Coq Require Import ZArith QArith Qcanon Bool String List.
From Verif Require Import PyNum Units BoxModel Engine Values Shorthand Decl DeclSpec Computed RefLayout EdgeSpec.
Import ListNotations.
Open Scope Qc_scope.

(** The properties whose percentages refer to a width. *)
Definition of_width (p : longhand) : bool :=
  match p with
  | L_width | L_padding STop | L_padding SBottom | L_border_width STop | L_border_width SBottom => true
  | _ => false
  end.
(** What percentages of the property [p] refer to; [op] is the parent, None for
    the root.  A height refers to the height that is declared for the parent,
    0 if that is automatic; a percentage counts as 0 there. *)
Definition refers_to (ho : hash_order) (d : display_t) (op : option (node css)) (p : longhand) : Qc :=
  if of_width p then width_around d op else
  match p, op with
  | L_height, Some q => match st_height (declared_style ho (n_style q)) with Len u => len d 0 u | Auto => 0 end
  | _, _ => height_around d op
  end.
