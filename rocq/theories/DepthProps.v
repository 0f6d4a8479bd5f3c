(** * How much work deep documents are (C188) *)
From Coq Require Import String ZArith QArith Qcanon Bool List Lia.
From Verif Require Import PyNum NumFacts Units BoxModel BoxSpec BoxFacts Engine EngineSpec EngineFacts EngineTree EngineInv EngineFSpec EngineExamples
  RefLayout HistSpec EdgeSpec EdgeProps EngineTProps Cost CostSpec CostFacts CostProps DepthSpec DepthFacts.
Import ListNotations.
Open Scope Qc_scope.

Section Props.
Context {S : Type} (sty : S -> style).
Notation node := (node S).

(** C188: at every element whose top border and padding take up space, the layout goes through
    all the boxes in it: a layout that raises nothing takes at least that many turns of the loops
    of the setters. *)
Theorem C188_insets d h5 (n n' : node) : boxed n -> layout sty d h5 n = (n', Ok tt) -> (inset_boxes sty n' <= turns sty d h5 n)%nat.
Proof.
  intros B L. pose proof (layout_total sty 0 1 d h5 n n' (boxed_ready' sty n B) (boxed_consistent n B) L).
  unfold turns, price. lia.
Qed.

Lemma boxed_boxes (n : node) : boxed n -> boxes n = count n.
Proof.
  induction 1 as [s i b ks Hk IH]. rewrite boxes_some. cbn [count]. f_equal. clear Hk.
  induction ks as [|k ks IHk]; [reflexivity|]. unfold over in *. cbn [map fold_right]. rewrite IH by (left; reflexivity). f_equal.
  apply IHk. intros k' H. apply IH. right. exact H.
Qed.
Lemma levels_weight (n : node) : forall k, levels (Datatypes.S k) n = (k * count n + weight n)%nat.
Proof.
  induction n as [s i b ks IH] using node_ind'. intros k. rewrite weight_unfold. cbn [levels count].
  assert (E : fold_right Nat.add 0%nat (map (levels (Datatypes.S (Datatypes.S k))) ks) = (Datatypes.S k * fold_right Nat.add 0 (map count ks) + over weight ks)%nat).
  { clear s i b. induction ks as [|x ks IHk]; [cbn; lia|]. unfold over in *. cbn [map fold_right].
    rewrite (IH x (or_introl eq_refl) (Datatypes.S k)), IHk; [lia|]. intros y Hy. apply IH. right. exact Hy. }
  rewrite E. lia.
Qed.
Lemma block_document_inputs (n : node) : block_document sty n -> forall m, inputs n = inputs m -> block_document sty m.
Proof.
  induction 1 as [s i bx ks D P F R C Hk IH]. intros [s' i' bx' ks'] E. cbn in E. injection E as -> -> E.
  constructor; try assumption. clear D P F R C Hk bx bx'. revert ks' E.
  induction ks as [|k ks IHk]; intros [|k' ks'] E k0 I; try discriminate; [destruct I|]. cbn [map] in E.
  injection E as E1 E2. destruct I as [<- | I]; [apply (IH k (or_introl eq_refl)), E1|].
  apply (IHk (fun x Hx => IH x (or_intror Hx)) ks' E2 k0 I).
Qed.
Lemma block_document_displayed (n : node) : block_document sty n -> all_displayed sty n.
Proof.
  induction 1 as [s i bx ks D P F R C Hk IH]. constructor; [|exact IH]. intros E. rewrite E in D. cbn in D. intuition discriminate.
Qed.
Lemma get_path_same p : forall (n m x : node), inputs n = inputs m -> get_path p m = Some x -> exists y, get_path p n = Some y /\ inputs y = inputs x.
Proof.
  induction p as [|j p IH]; intros n m x E H; cbn [get_path] in *; [injection H as <-; exists n; auto|].
  destruct n as [s i b ks], m as [s' i' b' ks']. cbn [n_kids] in *. cbn [inputs] in E. injection E as _ _ E.
  destruct (nth_error ks' j) as [k'|] eqn:J; [|discriminate].
  assert (Hk : nth_error (map inputs ks) j = Some (inputs k')) by (rewrite E; apply map_nth_error, J).
  destruct (nth_error ks j) as [k|] eqn:J1.
  - rewrite (map_nth_error inputs _ _ J1) in Hk. injection Hk as Hk. apply (IH k k' x Hk H).
  - apply nth_error_None in J1. assert (N : nth_error (map inputs ks) j <> None) by congruence. apply nth_error_Some in N. rewrite map_length in N. lia.
Qed.
Lemma all_inset (n n' : node) : history sty n -> (forall op k, laid sty n' op k -> exists b, n_box k = Some b /\ inset b = true) -> forall k op,
  laid sty n' op k -> boxed k -> block_document sty k -> (weight k <= inset_boxes sty k)%nat.
Proof.
  intros Hi Hl. induction k as [s i b ks IH] using node_ind'. intros op L B D.
  destruct (Hl op _ L) as (b0 & Eb & In0). cbn [n_box] in Eb. subst b.
  assert (Bl : forall k, block_document sty k -> is_block_level (sty (n_style k)) = true).
  { intros k [s1 i1 bx ks1 D1 _ _ _ _ _]. unfold is_block_level. cbn [n_style]. destruct D1 as [<- | [<- | [<- | []]]]; reflexivity. }
  rewrite total_some. pose proof (Bl _ D) as Hb. cbn [n_style] in Hb. rewrite Hb, In0. cbn [andb].
  rewrite (boxed_boxes _ B). rewrite weight_unfold. apply Nat.add_le_mono_l.
  inversion B as [s1 i1 b1 ks1 Bk]; subst. inversion D as [s1 i1 b1 ks1 _ _ _ _ _ Dk]; subst.
  assert (H : forall k, In k ks -> (weight k <= inset_boxes sty k)%nat).
  { intros k Hk. apply (IH k Hk (Some (Node s i (Some b0) ks))); [|apply Bk, Hk|apply Dk, Hk].
    apply (laid_kid _ _ op); [exact L|exact Hk| |right; apply Bl, Dk, Hk].
    specialize (Dk k Hk). apply block_document_displayed in Dk. destruct Dk. assumption. }
  clear - H. unfold over. induction ks as [|k ks IHk]; [apply le_n|]. cbn [map fold_right].
  pose proof (H k (or_introl eq_refl)). specialize (IHk (fun k' H' => H k' (or_intror H'))). lia.
Qed.

(** C188: a document of blocks whose top borders and paddings all take up space is laid out,
    and takes at least as many turns as the levels of its nodes add up to: one for every
    node and every element around it. *)
Theorem C188_levels d h5 (n : node) : history sty n -> boxed n -> block_document sty n -> inset_everywhere sty d n ->
  (exists n', layout sty d h5 n = (n', Ok tt)) /\ (levels 1 n <= turns sty d h5 n)%nat.
Proof.
  intros Hi B D I. destruct (C54_block_documents_lay_out sty d h5 n B D) as [n' L]. split; [exists n'; exact L|].
  pose proof (C188_insets d h5 n n' B L) as Low. refine (Nat.le_trans _ _ _ _ Low).
  rewrite levels_weight. cbn [Nat.mul Nat.add].
  assert (Ei : inputs n = inputs n') by (rewrite <- (layout_inputs sty d h5 n), L; reflexivity).
  rewrite (weight_eq n n' Ei).
  pose proof (block_document_inputs n D n' Ei) as D'.
  assert (B' : boxed n').
  { apply (ready_displayed_boxed sty); [|apply block_document_displayed, D'].
    pose proof (layout_keeps_ready sty d h5 n (boxed_ready' sty n B)) as R. rewrite L in R. exact R. }
  apply (all_inset n n' Hi) with (op := None); [| |exact B'|exact D'].
  - intros op k La. destruct (laid_edges sty d h5 n n' op k Hi L La) as (a & b & Eb & _ & Ed).
    exists b. split; [exact Eb|]. unfold inset. rewrite (ea_bt _ _ _ _ _ Ed), (ea_pt _ _ _ _ _ Ed).
    destruct (Qc_eq_dec _ _) as [Z|_]; [|reflexivity]. exfalso.
    assert (P : exists p m, get_path p n = Some m /\ n_style m = n_style k).
    { assert (P : exists p, get_path p n' = Some k).
      { clear - La. induction La as [_|op p k La [q Hq] Hk _ _]; [exists []; reflexivity|].
        destruct (In_nth_error _ _ Hk) as [j Hj]. exists (q ++ [j])%list.
        clear - Hq Hj. revert n' Hq. induction q as [|i q IH]; intros n' Hq; cbn [get_path app] in *.
        - injection Hq as ->. rewrite Hj. reflexivity.
        - destruct (nth_error (n_kids n') i); [|discriminate]. apply IH, Hq. }
      destruct P as [p Hp]. destruct (get_path_same p n n' k Ei Hp) as (y & Hy & Ey). exists p, y. split; [exact Hy|].
      destruct y, k. cbn in Ey. injection Ey as -> _ _. reflexivity. }
    destruct P as (p & m & Hp & Es). apply (I p m Hp (or0 (a_w a))). rewrite Es. exact Z.
  - apply laid_root. apply block_document_displayed in D'. destruct D'. assumption.
Qed.
End Props.

(** [m + 1] padded blocks, one in the other. *)
Fixpoint chain (m : nat) : node style :=
  match m with
  | O => el padded []
  | Datatypes.S m' => el padded [chain m']
  end.
Lemma chain_count m : count (chain m) = Datatypes.S m.
Proof. induction m as [|m IH]; [reflexivity|]. cbn [chain el count map fold_right]. rewrite IH. lia. Qed.
Lemma chain_levels m : forall k, (2 * levels k (chain m) = 2 * k * Datatypes.S m + m * Datatypes.S m)%nat.
Proof. induction m as [|m IH]; intros k; cbn [chain el levels map fold_right]; [lia|]. specialize (IH (Datatypes.S k)). lia. Qed.
Lemma chain_new m : brand_new (chain m).
Proof. induction m as [|m IH]; constructor; [intros k []|intros k [<- | []]; exact IH]. Qed.
Lemma chain_boxed m : boxed (chain m).
Proof. induction m as [|m IH]; constructor; [intros k []|intros k [<- | []]; exact IH]. Qed.
Lemma chain_blocks m : block_document idsty (chain m).
Proof.
  assert (C : convertible_style padded) by conv_style.
  induction m as [|m IH]; constructor; try (cbn; auto; fail); try exact C; [intros k []|intros k [<- | []]; exact IH].
Qed.
Lemma chain_inset d m : inset_everywhere idsty d (chain m).
Proof.
  intros p. induction m as [|m IH] in p |- *; intros x H; destruct p as [|j p]; cbn [get_path chain el n_kids] in H.
  - injection H as <-. intros W E. apply (f_equal this) in E. revert E. vm_compute. discriminate.
  - destruct j; discriminate.
  - injection H as <-. intros W E. apply (f_equal this) in E. revert E. vm_compute. discriminate.
  - destruct j as [|[|j]]; cbn [nth_error] in H; [|discriminate|discriminate]. apply (IH p x H).
Qed.

(** C188: there is no better bound than one with the depth in it: for every number there is a
    new document of so many blocks whose layout, on every display, takes at least half the
    square of that number of turns. *)
Theorem C188_quadratic (m : nat) : (1 <= m)%nat ->
  exists n : node style, brand_new n /\ count n = m /\ block_document idsty n /\
  forall d h5, (exists n', layout idsty d h5 n = (n', Ok tt)) /\ (m * Datatypes.S m <= 2 * turns idsty d h5 n)%nat.
Proof.
  intros H. destruct m as [|m]; [lia|]. exists (chain m). split; [apply chain_new|]. split; [apply chain_count|].
  split; [apply chain_blocks|]. intros d h5.
  destruct (C188_levels idsty d h5 (chain m) (history_new idsty _ (chain_new m)) (chain_boxed m) (chain_blocks m) (chain_inset d m)) as [L T].
  split; [exact L|]. pose proof (chain_levels m 1). lia.
Qed.

(** The hypotheses hold of a chain of twenty blocks; its levels add up to 210, its layout takes
    328 turns. *)
Example C188_example : history idsty (chain 19) /\ boxed (chain 19) /\ block_document idsty (chain 19) /\ inset_everywhere idsty screen (chain 19)
  /\ levels 1 (chain 19) = 210%nat /\ turns idsty screen true (chain 19) = 328%nat.
Proof.
  split; [apply history_new, chain_new|]. split; [apply chain_boxed|]. split; [apply chain_blocks|]. split; [apply chain_inset|].
  split; vm_compute; reflexivity.
Qed.

Print Assumptions C188_insets.
Print Assumptions C188_levels.
Print Assumptions C188_quadratic.
