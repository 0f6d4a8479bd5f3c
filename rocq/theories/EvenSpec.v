(** * What C201 says: equal items are evenly spaced *)
From Coq Require Import ZArith QArith Qcanon Bool List.
From Verif Require Import PyNum Units BoxModel Engine EngineSpec RefLayout PushSpec.
Import ListNotations.
Open Scope Qc_scope.

(** Every box is the one before, with everything in it, [step] px lower. *)
Inductive spaced (step : Qc) : list utree -> Prop :=
| spaced_none : spaced step []
| spaced_one u us : spaced step [UNode u us]
| spaced_next u us l : spaced step (slide step (UNode u us) :: l) -> spaced step (UNode u us :: slide step (UNode u us) :: l).
(** The distance from one box to an equal one after it: the height of the box from border edge to border
    edge, and the larger one of its top margin and what collapses at its bottom. *)
Definition pitch (u : used) : Qc := border_height u + (if qc_ltb (Z2Qc (u_cb u)) (u_mt u) then u_mt u else Z2Qc (u_cb u)).

Section Even.
Context {S : Type} (sty : S -> style).
Notation node := (node S).
(** The element [k] is a block or a list item, and has [group] among its children: at least one
    block, all with the same declarations, contents and intrinsic sizes (whatever their boxes). *)
Definition equal_items (k : node) (before group rest : list node) : Prop :=
  (st_display (sty (n_style k)) = Some DBlock \/ st_display (sty (n_style k)) = Some DListItem)
  /\ n_kids k = before ++ group ++ rest
  /\ exists g, block_level (sty (n_style g)) = true /\ group <> [] /\ forall x, In x group -> inputs x = inputs g.
End Even.
