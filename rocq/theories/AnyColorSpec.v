(** * What C162 says: every text that is a colour *)
From Coq Require Import ZArith QArith Qcanon Bool String Ascii List.
From Verif Require Import PyNum PyStr Colors Values ColorSpec ColorProps FuncSpec.
Import ListNotations.
Open Scope string_scope.

(** [color_of n s v m]: the text s denotes v; n is the next identity, m the one
    after (names denote shared objects, everything else a new one). *)
Inductive color_of (n : nat) : string -> pyval -> nat -> Prop :=
| of_hash l v : hex_color l = Some v -> color_of n (hash l) (VColor (OId n) (byte_color v)) (S n)
| of_function name x ts y c : opened name x -> commas_ok ts -> denotes name ts c ->
    color_of n (applied name x ts y) (VColor (OId n) c) (S n)
| of_name name hex r g b s : In (name, hex) css_colors -> spells hex r g b -> same_ignoring_case s name = true ->
    color_of n s (VColor (ONamed name) (Rgb (PI r) (PI g) (PI b) full_alpha)) n.
(** The text of a functional colour whose percentage is no float. *)
Definition overflowing (s : string) : Prop :=
  exists name x ts y, opened name x /\ commas_ok ts /\ overflows name ts /\ s = applied name x ts y.
