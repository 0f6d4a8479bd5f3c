(** * What C210 says: only the last child of a row matters to anything outside *)
From Coq Require Import Bool List.
From Verif Require Import PyNum Units BoxModel Engine RefLayout RowSpec.
Import ListNotations.

Section Lone.
Context {S : Type} (sty : S -> style).
Notation node := (node S).
(** The second document is the first one in which all children but the last of some rows are replaced by any others, any number of them. *)
Inductive rows_replaced : node -> node -> Prop :=
| replaced_node s i b b' ks ks' : Forall2 rows_replaced ks ks' -> rows_replaced (Node s i b ks) (Node s i b' ks')
| replaced_row s i b b' l l' k k' : row sty s (l ++ [k]) -> row sty s (l' ++ [k']) -> rows_replaced k k' ->
    rows_replaced (Node s i b (l ++ [k])) (Node s i b' (l' ++ [k'])).
(** The used values of two such documents: the same, except for the replaced children. *)
Inductive same_but_replaced : node -> utree -> node -> utree -> Prop :=
| same_kept s i b b' ks us ks' us' u : all4 same_but_replaced ks us ks' us' -> same_but_replaced (Node s i b ks) (UNode u us) (Node s i b' ks') (UNode u us')
| same_row s i b b' l l' k k' x x' us us' u : row sty s (l ++ [k]) -> row sty s (l' ++ [k']) -> length us = length l -> length us' = length l' ->
    same_but_replaced k x k' x' -> same_but_replaced (Node s i b (l ++ [k])) (UNode u (us ++ [x])) (Node s i b' (l' ++ [k'])) (UNode u (us' ++ [x']))
| same_hidden n m : n_style n = n_style m -> same_but_replaced n UHidden m UHidden
| same_skipped n m : n_style n = n_style m -> same_but_replaced n USkipped m USkipped.
End Lone.
