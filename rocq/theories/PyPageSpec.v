(** * Specification for C182: the page Python computes for a pixel document *)
From Coq Require Import ZArith QArith Qabs Qcanon Bool String List.
From Verif Require Import PyNum Units UnitsSpec FloatSpec BoxModel BoxSpec Engine EngineSpec EngineFSpec EngineGSpec Values Decl DeclSpec ComputedSpec HistSpec.
Import ListNotations.

(** A length in px, a Python int or float, at least one px below [B]. *)
Definition pixel_length (B : Q) (u : unit_) : Prop :=
  exists p v, u = mkU KPx p /\ magnitude p v /\ binary64 v /\ (Qabs (this v) + 1 <= B)%Q.
(** Every length in the properties the engine reads is such a length, and no
    offset is inherit. *)
Definition pixel_declaration (ho : hash_order) (B : Q) (c : css) : Prop :=
  (forall q u, engine_reads q = true -> get_long ho c q = Ok (VUnit u) -> pixel_length B u)
  /\ forall s, get_long ho c (L_offset s) <> Ok (VStr "inherit").
(** A new document of such declarations, with intrinsic sizes of at most [B] px
    in layout units and without ratios. *)
Record pixel_document (ho : hash_order) (B : Q) (n : node css) : Prop := {
  pd_new : brand_new n;
  pd_sizes : measured_sizes n;
  pd_nodes : forall p m, get_path p n = Some m -> pixel_declaration ho B (n_style m) /\ plain_size B (n_intr m) }.
(** A display of at most [B] px in layout units. *)
Definition pixel_display (B : Q) (d : display_t) : Prop := measured_display d /\ plain_display B d.
