(** * Text after the last block: a reader's specification

    C176: a block of automatic height with block-level children whose last child
    is not block-level (text, an image, a hidden node) gets the height 0; what such
    trailing children are makes no difference. *)
From Coq Require Import ZArith QArith Qcanon Bool List.
From Verif Require Import PyNum Units BoxModel Engine EngineSpec RefLayout LocalSpec.
Import ListNotations.
Open Scope Qc_scope.

(** [retailed_at p t t']: the laid out trees are the same but for how many
    children are left out at the end of the node at [p]. *)
Inductive retailed_at : list nat -> utree -> utree -> Prop :=
| retailed_here u us tl tl' : (forall x, In x (tl ++ tl') -> x = USkipped) -> retailed_at [] (UNode u (us ++ tl)) (UNode u (us ++ tl'))
| retailed_below p u before t t' rest : retailed_at p t t' ->
    retailed_at (length before :: p) (UNode u (before ++ t :: rest)) (UNode u (before ++ t' :: rest))
| retailed_away p t : t = UHidden \/ t = USkipped -> retailed_at p t t.

Section Tail.
Context {S : Type} (sty : S -> style).
Notation node := (node S).

(** A block of automatic height with a block-level child, but another kind of
    child at the end. *)
Definition trailing (k : node) : Prop :=
  (st_display (sty (n_style k)) = Some DBlock \/ st_display (sty (n_style k)) = Some DListItem)
  /\ st_height (sty (n_style k)) = Auto
  /\ exists ks x, n_kids k = ks ++ [x] /\ block_level (sty (n_style x)) = false /\ exists b, In b ks /\ block_level (sty (n_style b)) = true.
(** [retailed p n m]: the documents (whatever their boxes) differ in the
    children after the last block-level child of the block at [p]; if it has
    automatic height there are such children in both or in neither. *)
Inductive retailed : list nat -> node -> node -> Prop :=
| tail_here s i b b' ks ks' tl tl' :
    st_display (sty s) = Some DBlock \/ st_display (sty s) = Some DListItem ->
    map inputs ks = map inputs ks' -> (exists x, In x ks /\ block_level (sty (n_style x)) = true) ->
    (forall x, In x (tl ++ tl') -> block_level (sty (n_style x)) = false) ->
    st_height (sty s) <> Auto \/ (tl = [] <-> tl' = []) ->
    retailed [] (Node s i b (ks ++ tl)) (Node s i b' (ks' ++ tl'))
| tail_below p s i b b' before before' k k' rest rest' :
    map inputs before = map inputs before' -> retailed p k k' -> map inputs rest = map inputs rest' ->
    retailed (length before :: p) (Node s i b (before ++ k :: rest)) (Node s i b' (before' ++ k' :: rest')).
End Tail.
