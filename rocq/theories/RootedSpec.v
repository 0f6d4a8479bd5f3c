(** * Specification for C181: laying out a node that has a parent *)
From Coq Require Import ZArith QArith Qcanon Bool List.
From Verif Require Import PyNum Units BoxModel Engine RefLayout OkSpec.
Open Scope Qc_scope.

(** The length is a number of some unit, not infinite and not NaN. *)
Definition finite_length (v : lenauto) : Prop := forall u, v = Len u -> exists q, pval (u_val u) = Fin q.
(** The length can be converted to pixels: finite, no angle, no unknown font unit. *)
Definition convertible (v : lenauto) : Prop := measurable_or_auto true v = true.
(** What percentages of the height of a node refer to, if layout() is called on
    it: the height declared for its parent, if there is one and it is not auto,
    else the height of the display. *)
Definition reference (d : display_t) (parent : option lenauto) : Qc :=
  match parent with Some (Len u) => len d (nval (disp_height d)) u | _ => nval (disp_height d) end.
(** The declared height of a block, not more than its max-height. *)
Definition declared_height (d : display_t) (ref : Qc) (s : style) (u : unit_) : Qc :=
  let h := len d ref u in
  match st_max_height s with None => h | Some m => qc_min h (len d (nval (disp_height d)) m) end.
(** The height declared for the parent. *)
Definition above {S} (sty : S -> style) (parent : option S) : option lenauto := option_map (fun s => st_height (sty s)) parent.
