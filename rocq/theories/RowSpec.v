(** * What C207 says: inline children do not see each other *)
From Coq Require Import Bool List Permutation.
From Verif Require Import PyNum Units BoxModel Engine RefLayout.
Import ListNotations.

Inductive all4 {A B C D} (R : A -> B -> C -> D -> Prop) : list A -> list B -> list C -> list D -> Prop :=
| all4_nil : all4 R [] [] [] []
| all4_cons a b c d la lb lc ld : R a b c d -> all4 R la lb lc ld -> all4 R (a :: la) (b :: lb) (c :: lc) (d :: ld).

Section Row.
Context {S : Type} (sty : S -> style).
Notation node := (node S).
(** A row: the children of something other than a block or list item, or children none of which is block-level. *)
Definition row (s : S) (ks : list node) : Prop :=
  match st_display (sty s) with Some (DBlock | DListItem) => forall k, In k ks -> block_level (sty (n_style k)) = false | _ => True end.
(** The second document has the children of some rows in another order, but the last one stays the last. *)
Inductive rows_mixed : node -> node -> Prop :=
| rows_node s i b b' ks qs ks' : Forall2 rows_mixed ks qs ->
    qs = ks' \/ row s ks /\ (exists l l' z, qs = l ++ [z] /\ ks' = l' ++ [z] /\ Permutation l l') ->
    rows_mixed (Node s i b ks) (Node s i b' ks').
(** Each element has the same used values as its counterpart; the children of both may be in another order. *)
Inductive same_boxes_mixed : node -> utree -> node -> utree -> Prop :=
| same_mixed_box s i b b' ks us qs ws ks' us' u : all4 same_boxes_mixed ks us qs ws -> length us' = length ks' ->
    Permutation (combine qs ws) (combine ks' us') ->
    same_boxes_mixed (Node s i b ks) (UNode u us) (Node s i b' ks') (UNode u us')
| same_mixed_hidden n m : n_style n = n_style m -> same_boxes_mixed n UHidden m UHidden
| same_mixed_skipped n m : n_style n = n_style m -> same_boxes_mixed n USkipped m USkipped.
End Row.
