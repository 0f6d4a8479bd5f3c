(** * What C137 and C138 say: documents small enough for binary64 *)
From Coq Require Import ZArith QArith Qcanon Qabs Bool List.
From Verif Require Import PyNum Float64 Units FloatUnits BoxModel BoxSpec Engine.
Import ListNotations.
Open Scope Z_scope.

(** At most [B] pixels in absolute value. *)
Definition at_most (B : Q) (x : num) : Prop := (Qabs (this (nval x)) <= B)%Q.
(** A length that does not depend on the containing block, has the same value
    in binary64 and exactly, and is at most [B] px. *)
Definition plain_length (d : display_t) (B : Q) (u : unit_) : Prop :=
  forall sz, let c := mkCtx d dummy_font sz in
    px_f c u = px c u /\ forall x, px c u = Ok x -> at_most B x.
(** The lengths of a style. *)
Definition of_lenauto (v : lenauto) : list unit_ := match v with Auto => [] | Len u => [u] end.
Definition of_option (v : option unit_) : list unit_ := match v with None => [] | Some u => [u] end.
Definition of_border (v : bwidth) : list unit_ := match v with BKw _ => [] | BLen u => [u] end.
Definition of_offset (v : offset) : list unit_ := match v with OLen u => [u] | _ => [] end.
Definition lengths_of (s : style) : list unit_ :=
  (of_lenauto (st_width s) ++ of_lenauto (st_height s) ++ of_lenauto (st_min_width s) ++ of_lenauto (st_min_height s))
  ++ (of_option (st_max_width s) ++ of_option (st_max_height s))
  ++ (of_lenauto (st_margin_top s) ++ of_lenauto (st_margin_right s) ++ of_lenauto (st_margin_bottom s) ++ of_lenauto (st_margin_left s))
  ++ [st_padding_top s; st_padding_right s; st_padding_bottom s; st_padding_left s]
  ++ (of_border (st_border_top s) ++ of_border (st_border_right s) ++ of_border (st_border_bottom s) ++ of_border (st_border_left s))
  ++ (of_offset (st_top s) ++ of_offset (st_right s) ++ of_offset (st_bottom s) ++ of_offset (st_left s)).
(** Every length of the style is plain and no offset is INHERIT. *)
Definition plain_style (d : display_t) (B : Q) (s : style) : Prop :=
  (forall u, In u (lengths_of s) -> plain_length d B u)
  /\ st_top s <> OInherit /\ st_right s <> OInherit /\ st_bottom s <> OInherit /\ st_left s <> OInherit.
(** An intrinsic size of at most [B] px and without a ratio. *)
Definition plain_size (B : Q) (i : size) : Prop :=
  (forall x, s_width i = Some x -> at_most B x) /\ (forall x, s_height i = Some x -> at_most B x) /\ s_ratio i = None.
(** A document of plain lengths. *)
Definition plain_doc {S} (sty : S -> style) (d : display_t) (B : Q) (n : node S) : Prop :=
  forall p m, get_path p n = Some m -> plain_style d B (sty (n_style m)) /\ plain_size B (n_intr m).
Definition plain_display (B : Q) (d : display_t) : Prop :=
  at_most B (disp_width d) /\ at_most B (disp_height d) /\ forall k, at_most B (fixed_size d k).
(** The number of nodes. *)
Fixpoint count {S} (n : node S) : nat :=
  let 'Node _ _ _ ks := n in Datatypes.S (fold_right Nat.add 0%nat (map count ks)).
(** Below a node without a box there is no box left from an earlier layout. *)
Definition no_stale_boxes {S} (n : node S) : Prop :=
  forall p q m k, get_path p n = Some m -> n_box m = None -> get_path q m = Some k ->
    n_box k = None \/ n_box k = Some box0.
(** The number of nodes times the square of the depth times [B] px is small
    against 2^46 px. *)
Definition room {S} (B : Q) (n : node S) : Prop :=
  (140 * inject_Z (Z.of_nat (count n)) * (inject_Z (Z.of_nat (height n)) * inject_Z (Z.of_nat (height n))) * B <= qpow2 46)%Q.
