(** * Specification for C189: strings written side by side in a word of quotes *)
From Coq Require Import Arith String Ascii List.
From Verif Require Import EscapeSpec.
Import ListNotations.
Open Scope string_scope.

(** [side_by_side w t]: w consists of one or more string literals without
    anything between them, t of their texts.  An empty literal must not come before
    one in the same quotation marks: three marks in a row open another
    kind of literal. *)
Inductive side_by_side : string -> string -> Prop :=
| side_last w t : literal_of w t -> side_by_side w t
| side_more w t v u : literal_of w t -> side_by_side v u ->
    ~ (exists q r, w = String q (String q "") /\ v = String q r) -> side_by_side (w ++ v) (t ++ u).
(** [joined w t]: the same, and possibly the sign # and whatever comes after
    it (no NUL), which counts as a comment *)
Definition joined (w t : string) : Prop :=
  side_by_side w t \/ exists v r, side_by_side v t /\ ~ In (ascii_of_nat 0) (list_ascii_of_string r) /\ w = v ++ String "#" r.
(** [followed w]: literals and then some other character.  Left out are the
    comma, which makes the word a tuple, and the letters that can be the prefix of
    a further literal. *)
Definition followed (w : string) : Prop :=
  exists v t x r, side_by_side v t /\ ~ In x (list_ascii_of_string "'""#,brfutBRFUT") /\ w = v ++ String x r.
