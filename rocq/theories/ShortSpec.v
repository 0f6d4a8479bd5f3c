(** * What C164 and C165 say: which values the shorthands accept, and what they do *)
From Coq Require Import ZArith Bool String Ascii List.
From Verif Require Import PyNum PyStr StrFacts Units Values Choices Shorthand Decl DeclSpec ParseSpec ParserSpec ParserProps AcceptSpec RaiseSpec GrammarSpec.
Import ListNotations.
Open Scope string_scope.

(** ** border, border_top, ..., outline *)
(** The parts of a value: the words of a text that is not empty, or the members
    of a sequence that is not empty. *)
Inductive parts_given : pyval -> list pyval -> Prop :=
| given_words s ts : s <> "" -> Forall word ts -> spaced ts s -> parts_given (VStr s) (map VStr ts)
| given_members v l : members v l -> l <> [] -> parts_given v l.
(** [fits sh k part]: the part is a value of component k.  The word inherit,
    which all three components of outline accept, counts as its colour. *)
Definition fits (sh : shorthand) (k : comp) (part : pyval) : Prop :=
  (forall q, In q (component sh k) -> exists n w m, written q n part w m)
  /\ (sh = S_outline -> part = VStr "inherit" -> k = CColor).
(** A text that denotes an angle. *)
Definition angle_text (part : pyval) : Prop := exists s u, part = VStr s /\ len_text s u /\ is_angle u.
(** The parts fill different components: the i-th part is for the i-th of ks. *)
Definition filled (sh : shorthand) (ks : list comp) (l : list pyval) : Prop := NoDup ks /\ Forall2 (fits sh) ks l.
(** [now ho c q v]: q reads as the value that v is written for. *)
Definition now (ho : hash_order) (c : css) (q : longhand) (v : pyval) : Prop :=
  exists n w m r, written q n v w m /\ get_prop ho c (Long q) = Ok (RValue r) /\ (r = w \/ equals w r).
(** A part that raises e, something other than ValueError, after at most two
    parts that are in order. *)
Definition raising (sh : shorthand) (v : pyval) (e : exn) : Prop :=
  exists pre part post ks, parts_given v (pre ++ part :: post) /\ (List.length pre <= 2)%nat /\ filled sh ks pre
    /\ exists q, In q (component sh CColor) /\ raises q part e.

(** ** margin, padding, border_width, border_color, border_style *)
(** [stopped d f done s]: the sides in [done], in the order top, right, bottom,
    left, have values the property accepts; the next side s has not. *)
Definition stopped (d : directional) (f : side -> pyval) (done : list side) (s : side) : Prop :=
  (exists rest, (done ++ s :: rest)%list = [STop; SRight; SBottom; SLeft])
  /\ (forall r, In r done -> exists n w m, written (side_prop d r) n (f r) w m)
  /\ (forall n w m, ~ written (side_prop d s) n (f s) w m).
