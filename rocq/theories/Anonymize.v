(** * The block formatting loop in the source's own terms -- engine.py:132-162, 235-259
    [Engine.flow] fuses anonymize() with the loop over its result.  Here both
    are written as in the source, and shown to do the same. *)
From Coq Require Import ZArith QArith Qcanon Bool List.
From Verif Require Import PyNum Units BoxModel Engine.
Import ListNotations.

Section Anon.
Context {S : Type} (sty : S -> style).
(** Nodes with styles of type [S]. *)
Notation node := (node S).

(** The members of the list anonymize() returns: AnonymousBlockBox objects
    (engine.py:132-137), which have children and no style, and nodes. *)
Inductive container := Anon (children : list node) | Block (k : node).

(** One round of the loop of anonymize() (engine.py:151-160); the state is
    (anon_block, containers). *)
Definition anon_step (st : option (list node) * list container) (k : node) : option (list node) * list container :=
  let (anon_block, containers) := st in
  if is_block_level (sty (n_style k)) then
    match anon_block with
    | Some l => (None, containers ++ [Anon l] ++ [Block k])
    | None => (None, containers ++ [Block k])
    end
  else
    match anon_block with
    | None => (Some [k], containers)
    | Some l => (Some (l ++ [k]), containers)
    end.
(** engine.py:148-162 *)
Definition anonymize (nodes : list node) : list container := snd (fold_left anon_step nodes (None, [])).

(** engine.py:239-259 over the containers.  layout_box reads
    node.style.display first (167), which an AnonymousBlockBox does not have. *)
Fixpoint flow_containers (lay : box -> node -> node * res unit) (cs : list container)
    (b : box) (off : num) (bm : option Z) : list container * box * res unit :=
  match cs with
  | [] => ([], b, Ok tt)
  | Anon l :: r => (cs, b, Err AttributeError)
  | Block k :: r =>
      match lay b k with
      | (k1, Err e) => (Block k1 :: r, b, Err e)
      | (k1, Ok _) =>
          match place_child k1 b off bm with
          | (k2, b2, Err e) => (Block k2 :: r, b2, Err e)
          | (k2, b2, Ok (off', bm')) =>
              let '(r2, b3, x) := flow_containers lay r b2 off' bm' in (Block k2 :: r2, b3, x)
          end
      end
  end.
(** The nodes are mutated in place: the children of the parent after the loop
    are its children with the block-level ones replaced, in order, by their new
    states. *)
Fixpoint drop_anon (cs : list container) : list container :=
  match cs with Anon _ :: r => drop_anon r | _ => cs end.
(** The children of the node after the loop changed the boxes of the containers (engine.py:239-259). *)
Fixpoint mutated (ks : list node) (cs : list container) : list node :=
  match ks with
  | [] => []
  | k :: ks' =>
      if is_block_level (sty (n_style k)) then
        match drop_anon cs with
        | Block k' :: r => k' :: mutated ks' r
        | _ => k :: mutated ks' []
        end
      else k :: mutated ks' cs
  end.

(** ** Equivalence *)
Fixpoint rest (ks : list node) (a : option (list node)) : list container :=
  match ks with
  | [] => []
  | k :: ks' =>
      if is_block_level (sty (n_style k)) then
        match a with Some l => Anon l :: Block k :: rest ks' None | None => Block k :: rest ks' None end
      else rest ks' (Some (match a with Some l => l ++ [k] | None => [k] end))
  end.
Lemma anon_fold ks : forall a cs, snd (fold_left anon_step ks (a, cs)) = cs ++ rest ks a.
Proof.
  induction ks as [|k ks IH]; intros a cs; cbn [fold_left rest snd]; [symmetry; apply app_nil_r|].
  unfold anon_step at 2. destruct (is_block_level (sty (n_style k))).
  - destruct a as [l|]; rewrite IH, <- !app_assoc; reflexivity.
  - destruct a as [l|]; apply IH.
Qed.
Lemma anonymize_rest ks : anonymize ks = rest ks None.
Proof. unfold anonymize. rewrite anon_fold. reflexivity. Qed.
Lemma mutated_rest ks : forall a, mutated ks (rest ks a) = ks.
Proof.
  induction ks as [|k ks IH]; intros a; cbn [mutated rest]; [reflexivity|]. destruct (is_block_level (sty (n_style k))).
  - destruct a; cbn [drop_anon]; rewrite IH; reflexivity.
  - rewrite IH. reflexivity.
Qed.
Lemma flow_rest lay ks : forall a b off bm,
  flow sty lay ks (match a with Some _ => true | None => false end) b off bm
  = let '(cs, b', r) := flow_containers lay (rest ks a) b off bm in (mutated ks cs, b', r).
Proof.
  induction ks as [|k ks IH]; intros a b off bm; cbn [flow rest]; [reflexivity|].
  destruct (is_block_level (sty (n_style k))) eqn:L.
  - destruct a as [l|]; cbn [flow_containers].
    + cbn [mutated drop_anon]. rewrite L, mutated_rest. reflexivity.
    + destruct (lay b k) as [k1 [u|e]].
      * destruct (place_child k1 b off bm) as [[k2 b2] [[off' bm']|e]].
        -- rewrite (IH None). destruct (flow_containers lay (rest ks None) b2 off' bm') as [[cs b3] r]. cbn [mutated drop_anon]. rewrite L. reflexivity.
        -- cbn [mutated drop_anon]. rewrite L, mutated_rest. reflexivity.
      * cbn [mutated drop_anon]. rewrite L, mutated_rest. reflexivity.
  - rewrite (IH (Some (match a with Some l => l ++ [k] | None => [k] end))). destruct (flow_containers lay _ b off bm) as [[cs b3] r]. cbn [mutated]. rewrite L. reflexivity.
Qed.
(** The loop of the source over anonymize(children) and the fused loop do the same. *)
Theorem flow_anonymize lay ks b off bm :
  flow sty lay ks false b off bm
  = let '(cs, b', r) := flow_containers lay (anonymize ks) b off bm in (mutated ks cs, b', r).
Proof. rewrite anonymize_rest. apply (flow_rest lay ks None). Qed.
End Anon.
Print Assumptions flow_anonymize.
