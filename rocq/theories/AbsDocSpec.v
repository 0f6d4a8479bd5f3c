(** * What C186 says: documents without percentages, in Python's floats *)
From Coq Require Import ZArith QArith Qcanon Bool List.
From Verif Require Import PyNum Units FloatUnits BoxModel BoxSpec Engine EngineFSpec PixelSpec.
Import ListNotations.

(** The display [d] with some containing block; the lengths below do not depend on it. *)
Definition somewhere (d : display_t) : ctx := mkCtx d dummy_font (LNum (NI 0)).
(** A length that is no percentage and that units.py converts, in floats, to at most [B] px. *)
Definition absolute_length (d : display_t) (B : Q) (u : unit_) : Prop :=
  u_kind u <> KPct /\ forall x, px_f (somewhere d) u = Ok x -> at_most B x.
(** A document of such lengths without the offset inherit, with intrinsic sizes of at most [B] px and no ratios. *)
Definition absolute_style (d : display_t) (B : Q) (s : style) : Prop :=
  (forall u, In u (lengths_of s) -> absolute_length d B u)
  /\ st_top s <> OInherit /\ st_right s <> OInherit /\ st_bottom s <> OInherit /\ st_left s <> OInherit.
Definition absolute_document {S} (sty : S -> style) (d : display_t) (B : Q) (n : node S) : Prop :=
  forall p m, get_path p n = Some m -> absolute_style d B (sty (n_style m)) /\ plain_size B (n_intr m).
(** The style with every length replaced by the pixels its conversion in floats yields. *)
Definition converted (d : display_t) (s : style) : style :=
  style_in_px px_f (somewhere d) (somewhere d) (somewhere d) s.
