(** * Specification for C184: a session of edits and layouts in Python's floats *)
From Coq Require Import ZArith QArith Qabs Qcanon Bool String List.
From Verif Require Import PyNum Units UnitsSpec FloatSpec BoxModel BoxSpec Engine EngineSpec EngineFSpec EngineGSpec EngineArith Values Decl DeclSpec Computed ComputedSpec HistSpec ScriptSpec PyPageSpec.
Import ListNotations.

(** A document of pixel declarations made by programs, in any state in which no
    box is left below a node without one; [sty] says what was written last. *)
Record pixel_state (ho : hash_order) (sty : css -> style) (B : Q) (n : node css) : Prop := {
  ps_boxes : no_stale_boxes n;
  ps_sizes : measured_sizes n;
  ps_scripted : scripted_document ho sty n;
  ps_nodes : forall p m, get_path p n = Some m -> pixel_declaration ho B (n_style m) /\ plain_size B (n_intr m) }.
(** The documents that arise from a new one by edits (any declarations and
    intrinsic sizes anywhere, children removed, added and reordered) and
    layouts in Python's floats of documents that are then in such a state. *)
Inductive session (ho : hash_order) : node css -> Prop :=
| session_new n : brand_new n -> session ho n
| session_edit n m : session ho n -> edited n m -> session ho m
| session_layout sty d h5 B n : session ho n -> (300 <= B)%Q -> pixel_display B d -> pixel_state ho sty B n -> room B n ->
    session ho (fst (layoutA float_arith (declared_style ho) d h5 n)).
