(** * Specification for C130: which displayed children are left out *)
From Coq Require Import List.
From Verif Require Import PyNum Units BoxModel Engine RefLayout.
Import ListNotations.

Section Skip.
Context {S : Type} (sty : S -> style).
(** [k] is a child of the block or list item [p], not block-level, after all
    the block-level children, of which there is one at least. *)
Inductive trailing (p k : node S) : Prop :=
| trailing_intro before after : n_kids p = before ++ k :: after ->
    In (st_display (sty (n_style p))) [Some DBlock; Some DListItem] ->
    block_level (sty (n_style k)) = false ->
    Exists (fun c => block_level (sty (n_style c)) = true) before ->
    Forall (fun c => block_level (sty (n_style c)) = false) after ->
    trailing p k.
End Skip.
