(** * Lemmas about boxes and trees of boxes *)
From Coq Require Import ZArith QArith Qcanon Lqa Lia Bool List.
From Verif Require Import PyNum NumFacts BoxModel BoxSpec.
Import ListNotations.
Open Scope Z_scope.

Section Trees.
Context {S : Type}.
Notation node := (node S).
Implicit Types n m k : node.

(** Induction over trees. *)
Lemma node_ind' (P : node -> Prop) :
  (forall s i b ks, (forall k, In k ks -> P k) -> P (Node s i b ks)) -> forall n, P n.
Proof.
  intros H. fix IH 1. intros [s i b ks]. apply H.
  induction ks as [|k ks IHks]; intros k' Hin; [destruct Hin|].
  destruct Hin as [E|Hin].
  - rewrite <- E. apply IH.
  - apply IHks. exact Hin.
Qed.

(** ** The literal recursive equation of Box.reset (dimensions.py:233-237) *)
Lemma reset_origin_top v n : reset (set_origin_top v n) = reset n.
Proof.
  revert v. induction n as [s i b ks IH] using node_ind'. intros v. destruct b as [b|]; [|reflexivity].
  cbn [set_origin_top]. destruct (neqb v (origin_top b)); [reflexivity|].
  cbn [reset]. f_equal. rewrite map_map. apply map_ext_in. intros k Hk. apply IH, Hk.
Qed.
Lemma reset_origin_left v n : reset (set_origin_left v n) = reset n.
Proof.
  revert v. induction n as [s i b ks IH] using node_ind'. intros v. destruct b as [b|]; [|reflexivity].
  cbn [set_origin_left]. destruct (neqb v (origin_left b)); [reflexivity|].
  cbn [reset]. f_equal. rewrite map_map. apply map_ext_in. intros k Hk. apply IH, Hk.
Qed.

(** node.layout.reset(): _reset() on the node, then reset() of each child
    having a layout. *)
Lemma reset_unfold (s : S) i b ks :
  reset (Node s i (Some b) ks) =
  let 'Node s' i' b' ks' := reset_self (Node s i (Some b) ks) in Node s' i' b' (map reset ks').
Proof.
  cbn. f_equal. rewrite map_map. apply map_ext. intros k.
  rewrite reset_origin_left, reset_origin_top. reflexivity.
Qed.

(** ** Boxes at the root of a node after propagation *)
Lemma n_box_set_origin_top v n :
  n_box (set_origin_top v n) =
  match n_box n with
  | Some b => Some (if neqb v (origin_top b) then b else upd_origin_top v b)
  | None => None
  end.
Proof. destruct n as [s i [b|] ks]; cbn; [|reflexivity]. destruct (neqb v (origin_top b)); reflexivity. Qed.
Lemma n_box_set_origin_left v n :
  n_box (set_origin_left v n) =
  match n_box n with
  | Some b => Some (if neqb v (origin_left b) then b else upd_origin_left v b)
  | None => None
  end.
Proof. destruct n as [s i [b|] ks]; cbn; [|reflexivity]. destruct (neqb v (origin_left b)); reflexivity. Qed.

Lemma upd_origin_top_fields v b :
  origin_top (upd_origin_top v b) = v /\ content_top (upd_origin_top v b) = content_top b
  /\ origin_left (upd_origin_top v b) = origin_left b /\ content_left (upd_origin_top v b) = content_left b
  /\ dirty (upd_origin_top v b) = dirty b.
Proof. destruct b; repeat split. Qed.
Lemma upd_origin_left_fields v b :
  origin_left (upd_origin_left v b) = v /\ content_left (upd_origin_left v b) = content_left b
  /\ origin_top (upd_origin_left v b) = origin_top b /\ content_top (upd_origin_left v b) = content_top b
  /\ dirty (upd_origin_left v b) = dirty b.
Proof. destruct b; repeat split. Qed.
Lemma upd_content_top_fields v b :
  content_top (upd_content_top v b) = v /\ origin_top (upd_content_top v b) = origin_top b
  /\ origin_left (upd_content_top v b) = origin_left b /\ content_left (upd_content_top v b) = content_left b
  /\ dirty (upd_content_top v b) = dirty b.
Proof. destruct b; repeat split. Qed.
Lemma upd_content_left_fields v b :
  content_left (upd_content_left v b) = v /\ origin_left (upd_content_left v b) = origin_left b
  /\ origin_top (upd_content_left v b) = origin_top b /\ content_top (upd_content_left v b) = content_top b
  /\ dirty (upd_content_left v b) = dirty b.
Proof. destruct b; repeat split. Qed.

(** After setting the origin, the origin has the value assigned. *)
Lemma origin_after_set v n b' : n_box (set_origin_top v n) = Some b' ->
  exists b, n_box n = Some b /\ nval (origin_top b') = nval v /\ content_top b' = content_top b
    /\ origin_left b' = origin_left b /\ content_left b' = content_left b /\ dirty b' = dirty b.
Proof.
  rewrite n_box_set_origin_top. destruct (n_box n) as [b|]; [|discriminate].
  intros [= <-]. exists b. split; [reflexivity|].
  destruct (neqb_spec v (origin_top b)) as [E|_].
  - repeat split. symmetry; exact E.
  - destruct (upd_origin_top_fields v b) as (-> & -> & -> & -> & ->). repeat split.
Qed.
Lemma origin_left_after_set v n b' : n_box (set_origin_left v n) = Some b' ->
  exists b, n_box n = Some b /\ nval (origin_left b') = nval v /\ content_left b' = content_left b
    /\ origin_top b' = origin_top b /\ content_top b' = content_top b /\ dirty b' = dirty b.
Proof.
  rewrite n_box_set_origin_left. destruct (n_box n) as [b|]; [|discriminate].
  intros [= <-]. exists b. split; [reflexivity|].
  destruct (neqb_spec v (origin_left b)) as [E|_].
  - repeat split. symmetry; exact E.
  - destruct (upd_origin_left_fields v b) as (-> & -> & -> & -> & ->). repeat split.
Qed.

(** ** Consistency (C39) *)
(** Child origin = parent's absolute content position. *)
Definition linked (b kb : box) : Prop :=
  nval (origin_top kb) = nval (absolute_content_top b)
  /\ nval (origin_left kb) = nval (absolute_content_left b).

Lemma linked_iff b kb : linked b kb <->
  (nval (absolute_content_top kb) = (nval (absolute_content_top b) + nval (content_top kb))%Qc
   /\ nval (absolute_content_left kb) = (nval (absolute_content_left b) + nval (content_left kb))%Qc).
Proof.
  unfold linked, absolute_content_top, absolute_content_left. rewrite !nval_add.
  split; intros [A B]; split; qclra.
Qed.

Lemma consistent_iff (s : S) i bx ks : consistent (Node s i bx ks) <->
  (forall k, In k ks -> consistent k)
  /\ (forall b k kb, bx = Some b -> In k ks -> n_box k = Some kb -> linked b kb).
Proof.
  split.
  - inversion 1; subst. split; [assumption|]. intros. apply linked_iff. eauto.
  - intros [A B]. constructor; [exact A|]. intros. apply linked_iff. eauto.
Qed.

Lemma consistent_kids (s : S) i (s' : S) i' bx bx' ks : consistent (Node s i bx ks) ->
  (forall b b', bx = Some b -> bx' = Some b' -> 
     nval (absolute_content_top b') = nval (absolute_content_top b) /\
     nval (absolute_content_left b') = nval (absolute_content_left b)) ->
  (bx = None -> bx' = None) ->
  consistent (Node s' i' bx' ks).
Proof.
  rewrite !consistent_iff. intros [A B] H N. split; [exact A|].
  intros b' k kb Hb Hk Hkb. destruct bx as [b|]; [|rewrite N in Hb by reflexivity; discriminate].
  destruct (H b b' eq_refl Hb) as [E1 E2]. destruct (B b k kb eq_refl Hk Hkb) as [L1 L2].
  unfold linked. rewrite E1, E2. split; assumption.
Qed.

Lemma consistent_origin_top v n : consistent n -> consistent (set_origin_top v n).
Proof.
  revert v. induction n as [s i b ks IH] using node_ind'. intros v H. destruct b as [b|]; [|exact H].
  cbn [set_origin_top]. destruct (neqb v (origin_top b)); [exact H|].
  apply consistent_iff in H as [A B]. apply consistent_iff. split.
  - intros k Hk. apply in_map_iff in Hk as (k0 & <- & Hk0). apply IH; auto.
  - intros b' k kb [= <-] Hk Hkb. apply in_map_iff in Hk as (k0 & <- & Hk0).
    apply origin_after_set in Hkb as (kb0 & Hkb0 & E1 & _ & E2 & _ & _).
    destruct (B b k0 kb0 eq_refl Hk0 Hkb0) as [_ L2]. split; [exact E1|]. rewrite E2.
    rewrite L2. unfold absolute_content_left.
    destruct (upd_origin_top_fields v b) as (_ & _ & -> & -> & _). reflexivity.
Qed.
Lemma consistent_origin_left v n : consistent n -> consistent (set_origin_left v n).
Proof.
  revert v. induction n as [s i b ks IH] using node_ind'. intros v H. destruct b as [b|]; [|exact H].
  cbn [set_origin_left]. destruct (neqb v (origin_left b)); [exact H|].
  apply consistent_iff in H as [A B]. apply consistent_iff. split.
  - intros k Hk. apply in_map_iff in Hk as (k0 & <- & Hk0). apply IH; auto.
  - intros b' k kb [= <-] Hk Hkb. apply in_map_iff in Hk as (k0 & <- & Hk0).
    apply origin_left_after_set in Hkb as (kb0 & Hkb0 & E1 & _ & E2 & _ & _).
    destruct (B b k0 kb0 eq_refl Hk0 Hkb0) as [L1 _]. split; [|exact E1]. rewrite E2.
    rewrite L1. unfold absolute_content_top.
    destruct (upd_origin_left_fields v b) as (_ & _ & -> & -> & _). reflexivity.
Qed.

Lemma consistent_content_top v n : consistent n -> consistent (set_content_top v n).
Proof.
  intros H. destruct n as [s i [b|] ks]; [|exact H].
  cbn [set_content_top]. destruct (neqb v (content_top b)); [exact H|].
  apply consistent_iff in H as [A B]. apply consistent_iff. split.
  - intros k Hk. apply in_map_iff in Hk as (k0 & <- & Hk0). apply consistent_origin_top; auto.
  - intros b' k kb [= <-] Hk Hkb. apply in_map_iff in Hk as (k0 & <- & Hk0).
    apply origin_after_set in Hkb as (kb0 & Hkb0 & E1 & _ & E2 & _ & _).
    destruct (B b k0 kb0 eq_refl Hk0 Hkb0) as [_ L2]. split; [exact E1|]. rewrite E2.
    rewrite L2. unfold absolute_content_left.
    destruct (upd_content_top_fields v b) as (_ & _ & -> & -> & _). reflexivity.
Qed.
Lemma consistent_content_left v n : consistent n -> consistent (set_content_left v n).
Proof.
  intros H. destruct n as [s i [b|] ks]; [|exact H].
  cbn [set_content_left]. destruct (neqb v (content_left b)); [exact H|].
  apply consistent_iff in H as [A B]. apply consistent_iff. split.
  - intros k Hk. apply in_map_iff in Hk as (k0 & <- & Hk0). apply consistent_origin_left; auto.
  - intros b' k kb [= <-] Hk Hkb. apply in_map_iff in Hk as (k0 & <- & Hk0).
    apply origin_left_after_set in Hkb as (kb0 & Hkb0 & E1 & _ & E2 & _ & _).
    destruct (B b k0 kb0 eq_refl Hk0 Hkb0) as [L1 _]. split; [|exact E1]. rewrite E2.
    rewrite L1. unfold absolute_content_top.
    destruct (upd_content_left_fields v b) as (_ & _ & -> & -> & _). reflexivity.
Qed.

Lemma n_box_reset n : n_box (reset n) = match n_box n with Some _ => Some box0 | None => None end.
Proof. destruct n as [s i [b|] ks]; reflexivity. Qed.

(** reset gives a consistent tree provided the subtrees below nodes without a
    layout (which reset does not enter) are consistent. *)
Lemma consistent_reset n : consistent n -> consistent (reset n).
Proof.
  induction n as [s i b ks IH] using node_ind'. intros H. destruct b as [b|]; [|exact H].
  cbn [reset]. apply consistent_iff in H as [A B]. apply consistent_iff. split.
  - intros k Hk. apply in_map_iff in Hk as (k0 & <- & Hk0). apply IH; auto.
  - intros b' k kb [= <-] Hk Hkb. apply in_map_iff in Hk as (k0 & <- & Hk0).
    rewrite n_box_reset in Hkb. destruct (n_box k0); [|discriminate]. injection Hkb as <-.
    split; reflexivity.
Qed.

Lemma consistent_set_dirty v n : consistent n -> consistent (set_dirty v n).
Proof.
  induction n as [s i b ks IH] using node_ind'. intros H. destruct b as [b|]; [|exact H].
  cbn [set_dirty]. destruct (dirt_eqb v (dirty b)); [exact H|].
  apply consistent_iff in H as [A B]. apply consistent_iff. split.
  - intros k Hk. apply in_map_iff in Hk as (k0 & <- & Hk0). apply IH; auto.
  - intros b' k kb [= <-] Hk Hkb. apply in_map_iff in Hk as (k0 & <- & Hk0).
    destruct k0 as [s0 i0 [b0|] ks0]; [|discriminate].
    destruct (B b _ b0 eq_refl Hk0 eq_refl) as [L1 L2].
    cbn [set_dirty] in Hkb. destruct (dirt_eqb v (dirty b0)); injection Hkb as <-;
      destruct b, b0; split; assumption.
Qed.

(** *** Paths *)
Definition frame_box (b b' : box) : Prop :=
  nval (origin_top b') = nval (origin_top b) /\ nval (origin_left b') = nval (origin_left b).

Lemma at_path_cons j p f (s : S) i b ks : at_path (j :: p) f (Node s i b ks) =
  Node s i b (upd_nth j (at_path p f) ks).
Proof. reflexivity. Qed.

Lemma at_path_kids j p f (ks : list node) k' : In k' (upd_nth j (at_path p f) ks) ->
  exists k, In k ks /\ (k' = k \/ k' = at_path p f k).
Proof.
  revert j. induction ks as [|k ks IH]; intros j H; [destruct H|].
  destruct j as [|j].
  - destruct H as [<-|H].
    + exists k. split; [left; reflexivity | right; reflexivity].
    + exists k'. split; [right; exact H | left; reflexivity].
  - destruct H as [<-|H].
    + exists k. split; [left; reflexivity | left; reflexivity].
    + destruct (IH j H) as (k0 & Hin & E). exists k0. split; [right; exact Hin | exact E].
Qed.

(** What an operation at a path does to the box at the root. *)
Lemma n_box_at_path p f n : n_box (at_path p f n) = match p with [] => n_box (f n) | _ => n_box n end.
Proof. destruct p as [|j p]; [reflexivity|]. destruct n. reflexivity. Qed.

Lemma consistent_at_path f : (forall n, consistent n -> consistent (f n)) ->
  (forall n b', n_box (f n) = Some b' -> exists b, n_box n = Some b /\ frame_box b b') ->
  forall p n, consistent n -> consistent (at_path p f n).
Proof.
  intros Hf Hb. induction p as [|j p IH]; intros n H; [apply Hf; exact H|].
  destruct n as [s i b ks]. rewrite at_path_cons. apply consistent_iff in H as [A B].
  apply consistent_iff. split.
  - intros k' Hk'. apply at_path_kids in Hk' as (k & Hk & [-> | ->]); auto.
  - intros b0 k' kb' -> Hk' Hkb'. apply at_path_kids in Hk' as (k & Hk & [-> | ->]).
    + eapply B; eauto.
    + rewrite n_box_at_path in Hkb'. destruct p as [|j' p'].
      * apply Hb in Hkb' as (kb & Hkb & F1 & F2).
        destruct (B b0 k kb eq_refl Hk Hkb) as [L1 L2]. unfold linked. rewrite F1, F2. split; assumption.
      * eapply B; eauto.
Qed.

Lemma frame_content_top v n b' : n_box (set_content_top v n) = Some b' ->
  exists b, n_box n = Some b /\ frame_box b b'.
Proof.
  destruct n as [s i [b|] ks]; cbn; [|discriminate]. destruct (neqb v (content_top b)); intros [= <-];
    exists b; split; trivial; destruct b; split; reflexivity.
Qed.
Lemma frame_content_left v n b' : n_box (set_content_left v n) = Some b' ->
  exists b, n_box n = Some b /\ frame_box b b'.
Proof.
  destruct n as [s i [b|] ks]; cbn; [|discriminate]. destruct (neqb v (content_left b)); intros [= <-];
    exists b; split; trivial; destruct b; split; reflexivity.
Qed.
Lemma frame_set_dirty v n b' : n_box (set_dirty v n) = Some b' ->
  exists b, n_box n = Some b /\ frame_box b b'.
Proof.
  destruct n as [s i [b|] ks]; cbn; [|discriminate]. destruct (dirt_eqb v (dirty b)); intros [= <-];
    exists b; split; trivial; destruct b; split; reflexivity.
Qed.

Lemma run_op_consistent o n : (forall p, o <> OpResetAt p) -> consistent n -> consistent (run_op o n).
Proof.
  intros NR H. destruct o as [p v|p v| |p|p v]; cbn [run_op].
  - apply consistent_at_path; auto using consistent_content_top. intros; eapply frame_content_top; eauto.
  - apply consistent_at_path; auto using consistent_content_left. intros; eapply frame_content_left; eauto.
  - apply consistent_reset, H.
  - exfalso. exact (NR p eq_refl).
  - apply consistent_at_path; auto using consistent_set_dirty. intros; eapply frame_set_dirty; eauto.
Qed.

Lemma run_ops_consistent os n : (forall p, ~ In (OpResetAt p) os) -> consistent n -> consistent (run_ops os n).
Proof.
  revert n. induction os as [|o os IH]; intros n NR H; [exact H|].
  cbn [run_ops fold_left]. apply IH.
  - intros p Hp. apply (NR p). right; exact Hp.
  - apply run_op_consistent; [|exact H]. intros p ->. apply (NR p). left; reflexivity.
Qed.

(** ** Dirtiness (C41) *)
Lemma dirt_eqb_spec a b : reflect (a = b) (dirt_eqb a b).
Proof. destruct a as [[]|], b as [[]|]; constructor; congruence. Qed.
Lemma dirty_upd v b : dirty (upd_dirty v b) = v. Proof. destruct b; reflexivity. Qed.

Lemma n_box_set_dirty v n b' : n_box (set_dirty v n) = Some b' -> dirty b' = v.
Proof.
  destruct n as [s i [b|] ks]; cbn; [|discriminate].
  destruct (dirt_eqb_spec v (dirty b)) as [E|_]; intros [= <-]; [symmetry; exact E | apply dirty_upd].
Qed.
Lemma n_box_set_dirty_none v n : n_box (set_dirty v n) = None <-> n_box n = None.
Proof.
  destruct n as [s i [b|] ks]; cbn; [|tauto]. destruct (dirt_eqb v (dirty b)); split; discriminate.
Qed.

Lemma dirty_closed_iff (s : S) i bx ks : dirty_closed (Node s i bx ks) <->
  (forall k, In k ks -> dirty_closed k) /\
  (forall b k kb, bx = Some b -> dirty b = Some true -> In k ks -> n_box k = Some kb -> dirty kb = Some true).
Proof. split; [inversion 1; subst; split; assumption | intros [A B]; constructor; assumption]. Qed.

Lemma dirty_closed_set v n : dirty_closed n -> dirty_closed (set_dirty v n).
Proof.
  induction n as [s i b ks IH] using node_ind'. intros H. destruct b as [b|]; [|exact H].
  cbn [set_dirty]. destruct (dirt_eqb_spec v (dirty b)); [exact H|].
  apply dirty_closed_iff in H as [A B]. apply dirty_closed_iff. split.
  - intros k Hk. apply in_map_iff in Hk as (k0 & <- & Hk0). apply IH; auto.
  - intros b' k kb [= <-] D Hk Hkb. rewrite dirty_upd in D. apply in_map_iff in Hk as (k0 & <- & Hk0).
    apply n_box_set_dirty in Hkb. congruence.
Qed.

Lemma dirty_closed_path_true p n : dirty_closed n -> dirty_closed (at_path p (set_dirty (Some true)) n).
Proof.
  revert n. induction p as [|j p IH]; intros n H; [apply dirty_closed_set, H|].
  destruct n as [s i b ks]. rewrite at_path_cons. apply dirty_closed_iff in H as [A B].
  apply dirty_closed_iff. split.
  - intros k' Hk'. apply at_path_kids in Hk' as (k & Hk & [-> | ->]); auto.
  - intros b0 k' kb' -> D Hk' Hkb'. apply at_path_kids in Hk' as (k & Hk & [-> | ->]).
    + eapply B; eauto.
    + rewrite n_box_at_path in Hkb'. destruct p as [|j' p'].
      * apply n_box_set_dirty in Hkb'. exact Hkb'.
      * eapply B; eauto.
Qed.

Lemma closed_all_dirty n b : dirty_closed n -> n_box n = Some b -> dirty b = Some true -> all_dirty n.
Proof.
  revert b. induction n as [s i bx ks IH] using node_ind'. intros b H Hb D. cbn in Hb. subst bx.
  apply dirty_closed_iff in H as [A B]. constructor; [exact D|].
  intros k Hk NN. destruct (n_box k) as [kb|] eqn:Hkb; [|congruence].
  eapply IH; eauto.
Qed.

Lemma at_path_get p f n m : get_path p n = Some m -> get_path p (at_path p f n) = Some (f m).
Proof.
  revert n. induction p as [|j p IH]; intros n H.
  - cbn in *. congruence.
  - destruct n as [s i b ks]. rewrite at_path_cons. cbn [get_path n_kids] in *.
    revert j H. induction ks as [|k ks IHk]; intros [|j] H; cbn in *; try discriminate.
    + apply IH, H.
    + apply IHk, H.
Qed.
Lemma dirty_closed_sub p n m : dirty_closed n -> get_path p n = Some m -> dirty_closed m.
Proof.
  revert n. induction p as [|j p IH]; intros n H G; cbn in G; [congruence|].
  destruct (nth_error (n_kids n) j) as [k|] eqn:E; [|discriminate].
  apply (IH k); [|exact G]. destruct n as [s i b ks]. apply dirty_closed_iff in H as [A _].
  apply A. eapply nth_error_In, E.
Qed.

(** Operations that keep invalidations complete: dirty = True anywhere, any
    dirtiness assigned at the root, moves and root resets. *)
Definition invalidation_op (o : box_op) : Prop :=
  match o with
  | OpDirty p (Some true) => True
  | OpDirty p _ => p = []
  | OpTop _ _ | OpLeft _ _ | OpResetRoot => True
  | OpResetAt _ => True
  end.

Lemma dirty_closed_of_same_dirty (f : node -> node) :
  (forall n, dirty_closed n -> dirty_closed (f n)) ->
  (forall n b', n_box (f n) = Some b' -> exists b, n_box n = Some b /\ (dirty b = Some true -> dirty b' = Some true)) ->
  forall p n, dirty_closed n -> dirty_closed (at_path p f n).
Proof.
  intros Hf Hb. induction p as [|j p IH]; intros n H; [apply Hf; exact H|].
  destruct n as [s i b ks]. rewrite at_path_cons. apply dirty_closed_iff in H as [A B].
  apply dirty_closed_iff. split.
  - intros k' Hk'. apply at_path_kids in Hk' as (k & Hk & [-> | ->]); auto.
  - intros b0 k' kb' -> D Hk' Hkb'. apply at_path_kids in Hk' as (k & Hk & [-> | ->]).
    + eapply B; eauto.
    + rewrite n_box_at_path in Hkb'. destruct p as [|j' p'].
      * apply Hb in Hkb' as (kb & Hkb & F). apply F. eapply B; eauto.
      * eapply B; eauto.
Qed.

Lemma dirty_closed_origin_top v n : dirty_closed n -> dirty_closed (set_origin_top v n).
Proof.
  revert v. induction n as [s i b ks IH] using node_ind'. intros v H. destruct b as [b|]; [|exact H].
  cbn [set_origin_top]. destruct (neqb v (origin_top b)); [exact H|].
  apply dirty_closed_iff in H as [A B]. apply dirty_closed_iff. split.
  - intros k Hk. apply in_map_iff in Hk as (k0 & <- & Hk0). apply IH; auto.
  - intros b' k kb [= <-] D Hk Hkb. apply in_map_iff in Hk as (k0 & <- & Hk0).
    apply origin_after_set in Hkb as (kb0 & Hkb0 & _ & _ & _ & _ & ->).
    eapply B; eauto. destruct b; exact D.
Qed.
Lemma dirty_closed_origin_left v n : dirty_closed n -> dirty_closed (set_origin_left v n).
Proof.
  revert v. induction n as [s i b ks IH] using node_ind'. intros v H. destruct b as [b|]; [|exact H].
  cbn [set_origin_left]. destruct (neqb v (origin_left b)); [exact H|].
  apply dirty_closed_iff in H as [A B]. apply dirty_closed_iff. split.
  - intros k Hk. apply in_map_iff in Hk as (k0 & <- & Hk0). apply IH; auto.
  - intros b' k kb [= <-] D Hk Hkb. apply in_map_iff in Hk as (k0 & <- & Hk0).
    apply origin_left_after_set in Hkb as (kb0 & Hkb0 & _ & _ & _ & _ & ->).
    eapply B; eauto. destruct b; exact D.
Qed.
Lemma dirty_closed_content_top v n : dirty_closed n -> dirty_closed (set_content_top v n).
Proof.
  intros H. destruct n as [s i [b|] ks]; [|exact H].
  cbn [set_content_top]. destruct (neqb v (content_top b)); [exact H|].
  apply dirty_closed_iff in H as [A B]. apply dirty_closed_iff. split.
  - intros k Hk. apply in_map_iff in Hk as (k0 & <- & Hk0). apply dirty_closed_origin_top; auto.
  - intros b' k kb [= <-] D Hk Hkb. apply in_map_iff in Hk as (k0 & <- & Hk0).
    apply origin_after_set in Hkb as (kb0 & Hkb0 & _ & _ & _ & _ & ->).
    eapply B; eauto. destruct b; exact D.
Qed.
Lemma dirty_closed_content_left v n : dirty_closed n -> dirty_closed (set_content_left v n).
Proof.
  intros H. destruct n as [s i [b|] ks]; [|exact H].
  cbn [set_content_left]. destruct (neqb v (content_left b)); [exact H|].
  apply dirty_closed_iff in H as [A B]. apply dirty_closed_iff. split.
  - intros k Hk. apply in_map_iff in Hk as (k0 & <- & Hk0). apply dirty_closed_origin_left; auto.
  - intros b' k kb [= <-] D Hk Hkb. apply in_map_iff in Hk as (k0 & <- & Hk0).
    apply origin_left_after_set in Hkb as (kb0 & Hkb0 & _ & _ & _ & _ & ->).
    eapply B; eauto. destruct b; exact D.
Qed.
Lemma dirty_closed_reset n : dirty_closed n -> dirty_closed (reset n).
Proof.
  induction n as [s i b ks IH] using node_ind'. intros H. destruct b as [b|]; [|exact H].
  cbn [reset]. apply dirty_closed_iff in H as [A B]. apply dirty_closed_iff. split.
  - intros k Hk. apply in_map_iff in Hk as (k0 & <- & Hk0). apply IH; auto.
  - intros b' k kb [= <-] D Hk Hkb. apply in_map_iff in Hk as (k0 & <- & Hk0).
    rewrite n_box_reset in Hkb. destruct (n_box k0); [|discriminate]. injection Hkb as <-. reflexivity.
Qed.

Lemma run_op_dirty_closed o n : invalidation_op o -> dirty_closed n -> dirty_closed (run_op o n).
Proof.
  intros Ho H. destruct o as [p v|p v| |p|p v]; cbn [run_op].
  - apply dirty_closed_of_same_dirty; auto using dirty_closed_content_top.
    intros m b'. destruct m as [s i [b|] ks]; cbn; [|discriminate].
    destruct (neqb v (content_top b)); intros [= <-]; exists b; split; trivial; destruct b; trivial.
  - apply dirty_closed_of_same_dirty; auto using dirty_closed_content_left.
    intros m b'. destruct m as [s i [b|] ks]; cbn; [|discriminate].
    destruct (neqb v (content_left b)); intros [= <-]; exists b; split; trivial; destruct b; trivial.
  - apply dirty_closed_reset, H.
  - apply dirty_closed_of_same_dirty; auto using dirty_closed_reset.
    intros m b'. rewrite n_box_reset. destruct (n_box m) as [b|]; [|discriminate].
    intros [= <-]. exists b. split; trivial.
  - destruct v as [[]|]; cbn in Ho.
    + apply dirty_closed_path_true, H.
    + subst p. apply dirty_closed_set, H.
    + subst p. apply dirty_closed_set, H.
Qed.
Lemma run_ops_dirty_closed os n : Forall invalidation_op os -> dirty_closed n -> dirty_closed (run_ops os n).
Proof.
  revert n. induction os as [|o os IH]; intros n F H; [exact H|].
  inversion F; subst. cbn [run_ops fold_left]. apply IH; trivial. apply run_op_dirty_closed; trivial.
Qed.

Lemma dirty_true_all n b : dirty_closed n -> n_box n = Some b -> all_dirty (set_dirty (Some true) n).
Proof.
  intros H Hb. destruct (n_box (set_dirty (Some true) n)) as [b'|] eqn:E.
  - eapply closed_all_dirty; [apply dirty_closed_set, H | exact E | eapply n_box_set_dirty; exact E].
  - apply n_box_set_dirty_none in E. congruence.
Qed.

Lemma upd_dirty_twice u v b : upd_dirty u (upd_dirty v b) = upd_dirty u b.
Proof. destruct b; reflexivity. Qed.
Lemma erase_dirty_set v n : erase_dirty (set_dirty v n) = erase_dirty n.
Proof.
  induction n as [s i b ks IH] using node_ind'. destruct b as [b|]; [|reflexivity].
  cbn [set_dirty]. destruct (dirt_eqb v (dirty b)); [reflexivity|].
  cbn. rewrite upd_dirty_twice. f_equal. rewrite map_map. apply map_ext_in. exact IH.
Qed.

(** ** Intrinsic sizes *)
Lemma size_attr_same_spec a i : size_attr_same a i = true <-> same_attr a i.
Proof.
  assert (ON : forall x y, onum_eqb x y = true <-> same_opt_num x y).
  { intros [x|] [y|]; cbn; split; intros H; try discriminate; try inversion H; subst.
    - constructor. destruct (neqb_spec x y); congruence.
    - destruct (neqb_spec x y); congruence.
    - constructor.
    - reflexivity. }
  destruct a; cbn; rewrite ?ON, ?Bool.eqb_true_iff; tauto.
Qed.
End Trees.

(** ** Collapse extents *)
Lemma grow_ge v z : z <= grow v z.
Proof. unfold grow. destruct v as [[]| |]; try lia. destruct (Z.ltb_spec z z0); lia. Qed.

Lemma extent_margin_op s o b : extent_of s b <= extent_of s (run_margin_op o b).
Proof.
  assert (G : forall v z, z <= grow v z) by exact grow_ge.
  destruct o as [[] v|[] v]; cbn [run_margin_op];
    unfold set_margin_top, set_margin_right, set_margin_bottom, set_margin_left;
    try match goal with |- context[if ?c then _ else _] => destruct c end;
    unfold set_collapse_top, set_collapse_right, set_collapse_bottom, set_collapse_left;
    destruct b, s; cbn; try lia; apply G.
Qed.

Lemma run_margin_ops_mono s os b : extent_of s b <= extent_of s (run_margin_ops os b).
Proof.
  revert b. induction os as [|o os IH]; intros b; [apply Z.le_refl|].
  cbn [run_margin_ops fold_left]. etransitivity; [apply (extent_margin_op s o)|apply IH].
Qed.

Definition margin_of (s : side) (b : box) : lval :=
  match s with
  | Top => margin_top b | Right => margin_right b
  | Bottom => margin_bottom b | Left => margin_left b
  end.
Definition int_of (v : lval) : Z := match v with LNum (NI z) => z | _ => 0 end.
Definition normal_lval (v : lval) : Prop := match v with LNum n => normal_num n | _ => True end.

Lemma grow_max v z : grow v z = Z.max z (match v with LNum (NI x) => x | _ => z end).
Proof. unfold grow. destruct v as [[]| |]; try lia. destruct (Z.ltb_spec z z0); lia. Qed.

Lemma leqb_normal_int v w z : leqb v w = true -> v = LNum (NI z) -> normal_lval w -> w = LNum (NI z).
Proof.
  intros E -> N. destruct w as [[y|q]| |]; cbn in E; try discriminate.
  - destruct (neqb_spec (NI z) (NI y)) as [H|]; [|discriminate]. cbn in H. apply Z2Qc_inj in H. congruence.
  - destruct (neqb_spec (NI z) (NF q)) as [H|]; [|discriminate]. exfalso. exact (N z (eq_sym H)).
Qed.

Definition margin_inv (t : side) (b : box) : Prop :=
  normal_lval (margin_of t b) /\ int_of (margin_of t b) <= extent_of t b /\ 0 <= extent_of t b.

(** One assignment, seen from side [s]. *)
Lemma margin_op_extent s o b :
  normal_op o -> (forall t, margin_inv t b) ->
  extent_of s (run_margin_op o b) = Z.max (maxZ (ints_assigned s [o])) (extent_of s b)
  /\ (forall t, margin_inv t (run_margin_op o b)).
Proof.
  unfold margin_inv. intros No H.
  assert (H0 : 0 <= extent_of s b) by apply H.
  assert (C : forall (v w : lval) (e : Z), leqb v w = true -> normal_lval w -> int_of w <= e -> 0 <= e ->
     e = Z.max (maxZ (match v with LNum (NI x) => [x] | _ => [] end)) e).
  { intros v w e L Nw I P. destruct v as [[x|q]| |]; cbn [maxZ]; try lia.
    rewrite (leqb_normal_int _ _ x L eq_refl Nw) in I. cbn in I. lia. }
  assert (HT := H Top). assert (HR := H Right). assert (HB := H Bottom). assert (HL := H Left).
  assert (D : forall v e, 0 <= e -> grow v e = Z.max (maxZ (match v with LNum (NI x) => [x] | _ => [] end)) e).
  { intros v e He. rewrite grow_max. destruct v as [[x|q]| |]; cbn [maxZ]; lia. }
  assert (NL : forall v, match v with LNum n => normal_num n | _ => True end -> normal_lval v)
    by (intros [n| |]; exact (fun h => h)).
  assert (IG : forall v e, 0 <= e -> int_of v <= grow v e).
  { intros v e He. rewrite grow_max. destruct v as [[x|q]| |]; cbn [int_of]; lia. }
  assert (GG := grow_ge).
  split.
  - destruct o as [t v|t v].
    + assert (E : ints_assigned s [SetMargin t v] =
        match v with LNum (NI x) => match s, t with Top, Top | Right, Right | Bottom, Bottom | Left, Left => [x] | _, _ => [] end
        | _ => [] end) by (destruct v as [[]| |], s, t; reflexivity).
      rewrite E. clear E.
      destruct t; cbn [run_margin_op]; unfold set_margin_top, set_margin_right, set_margin_bottom, set_margin_left;
      match goal with |- context[leqb ?v ?w] => destruct (leqb v w) eqn:L end;
      unfold set_collapse_top, set_collapse_right, set_collapse_bottom, set_collapse_left;
      destruct b, s; cbn in *;
      try (destruct v as [[]| |]; cbn [maxZ]; lia);
      try (apply D; assumption);
      try (eapply C; [exact L | apply HT | apply HT | assumption]);
      try (eapply C; [exact L | apply HR | apply HR | assumption]);
      try (eapply C; [exact L | apply HB | apply HB | assumption]);
      try (eapply C; [exact L | apply HL | apply HL | assumption]).
    + assert (E : ints_assigned s [SetExtent t v] =
        match v with LNum (NI x) => match s, t with Top, Top | Right, Right | Bottom, Bottom | Left, Left => [x] | _, _ => [] end
        | _ => [] end) by (destruct v as [[]| |], s, t; reflexivity).
      rewrite E. clear E.
      destruct t; cbn [run_margin_op];
      unfold set_collapse_top, set_collapse_right, set_collapse_bottom, set_collapse_left;
      destruct b, s; cbn in *;
      try (destruct v as [[]| |]; cbn [maxZ]; lia);
      try (apply D; assumption).
  - intros t'. assert (Ht := H t').
    pose proof (extent_margin_op t' o b) as Mono.
    destruct o as [t v|t v].
    + destruct t, t'; cbn [run_margin_op] in *;
      unfold set_margin_top, set_margin_right, set_margin_bottom, set_margin_left in *;
      (match goal with |- context[leqb ?v ?w] => destruct (leqb v w) eqn:L end;
       [exact Ht|]);
      unfold set_collapse_top, set_collapse_right, set_collapse_bottom, set_collapse_left in *;
      destruct b; cbn in *; destruct Ht as (Ht1 & Ht2 & Ht3); (split; [|split]); try assumption; try lia;
      try (apply NL; exact No); rewrite ?grow_max in *;
      destruct v as [[]| |]; cbn [int_of]; lia.
    + destruct t, t'; cbn [run_margin_op] in *;
      unfold set_collapse_top, set_collapse_right, set_collapse_bottom, set_collapse_left in *;
      destruct b; cbn in *; destruct Ht as (Ht1 & Ht2 & Ht3); (split; [|split]); try assumption; lia.
Qed.

Lemma run_margin_ops_extent s os b :
  Forall normal_op os -> (forall t, margin_inv t b) ->
  extent_of s (run_margin_ops os b) = Z.max (maxZ (ints_assigned s os)) (extent_of s b).
Proof.
  revert b. induction os as [|o os IH]; intros b F H.
  - cbn. destruct (H s) as (_ & _ & ?). lia.
  - inversion F as [|? ? Fo Fos]; subst. cbn [run_margin_ops fold_left].
    destruct (margin_op_extent s o b Fo H) as [E I].
    change (fold_left _ os (run_margin_op o b)) with (run_margin_ops os (run_margin_op o b)).
    rewrite (IH _ Fos I), E.
    assert (A : maxZ (ints_assigned s (o :: os)) = Z.max (maxZ (ints_assigned s [o])) (maxZ (ints_assigned s os))
      \/ maxZ (ints_assigned s (o :: os)) = maxZ (ints_assigned s os) /\ maxZ (ints_assigned s [o]) = 0).
    { destruct o as [t [[]| |]|t [[]| |]], s, t; cbn [ints_assigned maxZ]; auto; left; 
        assert (0 <= maxZ (ints_assigned Top os)) by (clear; induction (ints_assigned Top os); cbn; lia);
        assert (0 <= maxZ (ints_assigned Right os)) by (clear; induction (ints_assigned Right os); cbn; lia);
        assert (0 <= maxZ (ints_assigned Bottom os)) by (clear; induction (ints_assigned Bottom os); cbn; lia);
        assert (0 <= maxZ (ints_assigned Left os)) by (clear; induction (ints_assigned Left os); cbn; lia); lia. }
    destruct (H s) as (_ & _ & ?). lia.
Qed.

Lemma margin_inv_reset t : margin_inv t box0.
Proof. destruct t; repeat split; cbn; lia. Qed.
