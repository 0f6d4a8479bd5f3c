(** * What C169-C171 say *)
From Coq Require Import ZArith QArith Qcanon Bool String Ascii List.
From Verif Require Import PyNum PyStr BoxModel Values Decl DeclSpec Misc.
Import ListNotations.
Open Scope string_scope.

(** ** C169: a property without validation *)
Inductive plain_op := PSet (v : pyval) | PDel.
Definition plain_step (initial : pyval) (o : plain_op) (p : plain) : plain :=
  match o with PSet v => fst (plain_set initial v p) | PDel => fst (plain_del p) end.
Definition plain_run (initial : pyval) (l : list plain_op) (p : plain) : plain := fold_left (fun p o => plain_step initial o p) l p.
(** The value the last operation stands for. *)
Definition last_value (initial : pyval) (l : list plain_op) : pyval :=
  match rev l with PSet v :: _ => v | _ => initial end.
(** The layout of the declaration's node is marked dirty. *)
Definition is_dirty (c : css) : Prop := c_node c = Some (Some true).
Definition is_clean (c : css) : Prop := c_node c = Some (Some false).

(** ** C170: the text of a box *)
(** Python's text of a finite float: injective, never the text of an int, and
    made of digits, a point, signs and the letter e. *)
Definition float_char (c : ascii) : Prop := is_digit c = true \/ In c ["."; "-"; "+"; "e"]%char.
Definition float_repr (show : xq -> string) : Prop :=
  (forall q r, show (Fin q) = show (Fin r) -> q = r) /\ (forall q z, show (Fin q) <> show_Z z)
  /\ (forall q c, In c (list_ascii_of_string (show (Fin q))) -> float_char c).
(** [t] is Python's text of a number, of a size (a number, auto or None). *)
Definition says (show : xq -> string) (n : num) (t : string) : Prop :=
  (forall z, n = NI z -> t = show_Z z) /\ (forall q, n = NF q -> t = show (Fin q)).
Definition says_size (show : xq -> string) (v : lval) (t : string) : Prop :=
  (forall n, v = LNum n -> says show n t) /\ (v = LAuto -> t = "auto") /\ (v = LNone -> t = "None").
(** The character does not occur in the text. *)
Definition without (c : ascii) (s : string) : Prop := ~ In c (list_ascii_of_string s).
(** [<Box (WxH @ X,Y)>], cut at the marks. *)
Definition box_form (w h x y t : string) : Prop :=
  t = ("<Box (" ++ w ++ "x" ++ h ++ " @ " ++ x ++ "," ++ y ++ ")>")%string
  /\ without "x" w /\ without " " h /\ without "," x /\ without ")" y.
