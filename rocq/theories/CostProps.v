(** * The work of layout() (C185) *)
From Coq Require Import ZArith QArith Qcanon Bool List Lia.
From Verif Require Import PyNum Units BoxModel BoxSpec BoxFacts Engine EngineSpec EngineInv EngineFSpec EngineExamples
  Cost CostSpec CostFacts.
Import ListNotations.

Section Props.
Context {S : Type} (sty : S -> style).
Notation node := (node S).

(** C185: counting changes nothing: the counted layout does what layout() does. *)
Theorem C185_same call turn d h5 (n : node) : result (layoutC sty call turn d h5 n) = layout sty d h5 n.
Proof. apply layout_fst. Qed.

(** C185: whatever the document, and whether or not an exception is raised, the work is at most
    proportional to the number of nodes times the depth of the document. *)
Theorem C185_bound call turn d h5 (n : node) :
  (price (layoutC sty call turn d h5 n) <= call * count n + 11 * turn * (count n * height n))%nat.
Proof.
  pose proof (layout_bound sty call turn d h5 n). pose proof (weight_le n). unfold price. nia.
Qed.

(** C185: layout_box() is called at most once per node. *)
Theorem C185_calls d h5 (n : node) : (calls sty d h5 n <= count n)%nat.
Proof. unfold calls. pose proof (C185_bound 1 0 d h5 n). lia. Qed.

Section Exact.
Context (call turn : nat).
(** [m] costs at least [x] when it raises nothing. *)
Definition ex {A} (I : node) (m : @CM S A) (x : nat) : Prop :=
  forall n a, inputs n = I -> snd (fst (m n)) = Ok a -> (x <= snd (m n))%nat.
Lemma ex_bind {A B} I (m : @CM S A) (f : A -> @CM S B) x y z : bd I m z -> ex I m x -> (forall a, ex I (f a) y) -> ex I (cbind m f) (x + y).
Proof.
  intros Hb Hm Hf n a Hn H. unfold cbind in *. destruct (Hb n Hn) as [_ Hk]. specialize (Hm n).
  destruct (m n) as [[n' [a0|e]] c]; cbn [fst snd] in *; [|discriminate]. specialize (Hm a0 Hn eq_refl).
  specialize (Hf a0 n'). destruct (f a0 n') as [[n'' r] c']. cbn [fst snd] in *. specialize (Hf a Hk H). lia.
Qed.
Lemma ex_0 {A} I (m : @CM S A) : ex I m 0. Proof. intros n a _ _. lia. Qed.
(** Every node of the tree is block-level. *)
Fixpoint blocks (n : node) : Prop :=
  let 'Node s _ _ ks := n in is_block_level (sty s) = true /\ (fix all l := match l with [] => True | k :: l' => blocks k /\ all l' end) ks.
Lemma blocks_unfold s i b ks : blocks (Node s i b ks) <-> is_block_level (sty s) = true /\ (forall k, In k ks -> blocks k).
Proof.
  cbn [blocks]. split; intros [H1 H2]; (split; [exact H1|]).
  - clear H1. induction ks as [|k ks IH]; intros k' Hk; [destruct Hk|]. destruct H2 as [Ha Hb]. destruct Hk as [<- | Hk]; [exact Ha|]. exact (IH Hb k' Hk).
  - clear H1. induction ks as [|k ks IH]; [exact I|]. split; [apply H2; left; reflexivity|]. apply IH. intros k' H. apply H2. right. exact H.
Qed.
Lemma blocks_of (n : node) : all_block sty n -> blocks n.
Proof.
  induction n as [s i b ks IH] using node_ind'. intros H. apply blocks_unfold. split; [exact (H [] _ eq_refl)|].
  intros k Hk. apply IH; [exact Hk|]. intros p m Hp. destruct (In_nth_error _ _ Hk) as [j Hj]. apply (H (j :: p)). cbn [get_path n_kids]. rewrite Hj. exact Hp.
Qed.
Lemma blocks_inputs (n : node) : blocks n <-> blocks (inputs n).
Proof.
  induction n as [s i b ks IH] using node_ind'. cbn [inputs]. rewrite !blocks_unfold. split; intros [H1 H2]; (split; [exact H1|]).
  - intros k Hk. apply in_map_iff in Hk. destruct Hk as (k0 & <- & H0). apply (proj1 (IH k0 H0)). auto.
  - intros k Hk. apply (proj2 (IH k Hk)). apply H2, in_map, Hk.
Qed.
Lemma ex_all lay (X : node -> nat) ks a : (forall k a, In k ks -> snd (fst (lay k)) = Ok a -> (X k <= snd (lay k))%nat) ->
  snd (fst (lay_allC lay ks)) = Ok a -> (over X ks <= snd (lay_allC lay ks))%nat.
Proof.
  intros H. induction ks as [|k ks IH]; intros E; [apply le_n|]. cbn [lay_allC] in *.
  specialize (IH (fun k a H' => H k a (or_intror H'))). pose proof (fun a => H k a (or_introl eq_refl)) as H1.
  destruct (lay k) as [[k' [u|e]] x]; cbn [fst snd] in *; [|discriminate].
  destruct (lay_allC lay ks) as [[ks' r] y]. cbn [fst snd] in *. specialize (IH E). specialize (H1 u eq_refl).
  unfold over in *. cbn [map fold_right]. lia.
Qed.
Lemma ex_flow lay (X : node -> nat) ks a :
  (forall b k a, In k ks -> snd (fst (lay b k)) = Ok a -> (X k <= snd (lay b k))%nat) ->
  (forall k, In k ks -> is_block_level (sty (n_style k)) = true) -> forall b off bm,
  snd (fst (flowC sty turn lay ks false b off bm)) = Ok a -> (over X ks <= snd (flowC sty turn lay ks false b off bm))%nat.
Proof.
  intros H. induction ks as [|k ks IH]; intros Hb b off bm E; [apply le_n|]. cbn [flowC] in *.
  rewrite (Hb k (or_introl eq_refl)) in *.
  specialize (IH (fun b k a H' => H b k a (or_intror H')) (fun k H' => Hb k (or_intror H'))).
  pose proof (fun a => H b k a (or_introl eq_refl)) as H1.
  destruct (lay b k) as [[k' [u|e]] x]; cbn [fst snd] in *; [|discriminate].
  destruct (place_child k' b off bm) as [[k2 b2] [[off' bm']|e]]; cbn [fst snd] in *; [|discriminate].
  specialize (IH b2 off' bm'). destruct (flowC sty turn lay ks false b2 off' bm') as [[[ks2 b3] r] y]. cbn [fst snd] in *.
  specialize (IH E). specialize (H1 u eq_refl). unfold over in *. cbn [map fold_right]. lia.
Qed.
Lemma ex_layout_box fuel d f : forall cb I, inputs I = I -> blocks I ->
  ex I (layout_boxC sty call turn fuel d f cb) (call * count I).
Proof.
  induction fuel as [|fuel IH]; intros cb I HI HB n a Hn E; [discriminate|]. revert E. cbn [layout_boxC].
  assert (Hbn : is_block_level (sty (n_style n)) = true).
  { rewrite <- Hn in HB. apply (proj2 (blocks_inputs n)) in HB. destruct n as [s0 i0 b0 k0]. apply blocks_unfold in HB. apply HB. }
  destruct (st_display (sty (n_style n))) eqn:Ed; [|unfold is_block_level in Hbn; rewrite Ed in Hbn; discriminate].
  clear Ed Hbn. revert Hn. generalize (sty (n_style n)). intros st. revert n a.
  set (X := fun k : node => (call * count k)%nat).
  assert (HL : forall cb k a, blocks k -> snd (fst (layout_boxC sty call turn fuel d f cb k)) = Ok a ->
     (X k <= snd (layout_boxC sty call turn fuel d f cb k))%nat).
  { intros cb' k a Hk. assert (Hi : inputs (inputs k) = inputs k).
    { clear. induction k as [s i b ks IH] using node_ind'. cbn [inputs]. f_equal. rewrite map_map. apply map_ext_in. exact IH. }
    intros Ek. pose proof (IH cb' (inputs k) Hi (proj1 (blocks_inputs k) Hk) k a eq_refl Ek) as H1. rewrite count_inputs in H1. exact H1. }
  assert (HLb : forall cb k, (snd (layout_boxC sty call turn fuel d f cb k) <= call * count k + 8 * turn * weight k)%nat
     /\ inputs (fst (fst (layout_boxC sty call turn fuel d f cb k))) = inputs k).
  { intros cb' k. assert (Hi : inputs (inputs k) = inputs k).
    { clear. induction k as [s i b ks IH] using node_ind'. cbn [inputs]. f_equal. rewrite map_map. apply map_ext_in. exact IH. }
    pose proof (bd_layout_box sty call turn fuel d f cb' (inputs k) Hi k eq_refl) as H1. rewrite count_inputs, weight_inputs in H1. exact H1. }
  destruct I as [s i b0 ks0]. cbn [inputs] in HI. injection HI as <- Hks.
  set (I := Node s i None ks0).
  assert (HX : forall k : node, (call * count (inputs k) + 8 * turn * weight (inputs k))%nat = (call * count k + 8 * turn * weight k)%nat)
    by (intros k; rewrite count_inputs, weight_inputs; reflexivity).
  pose proof (bd_children sty turn (layout_boxC sty call turn fuel d f) (fun k => call * count k + 8 * turn * weight k)%nat s i ks0
    HX HLb) as HC. fold I in HC.
  assert (HCx : ex I (childrenC sty turn (layout_boxC sty call turn fuel d f)) (over X ks0)).
  { intros n a Hn. destruct n as [s' i' b ks]. cbn [inputs] in Hn. injection Hn as -> -> Hk.
    assert (EX : over X ks0 = over X ks).
    { rewrite <- Hk. unfold over. rewrite map_map. f_equal. apply map_ext. intros k. unfold X. rewrite count_inputs. reflexivity. }
    assert (HBk : forall k, In k ks -> blocks k).
    { intros k H. apply (proj2 (blocks_inputs k)). apply blocks_unfold in HB. apply HB. rewrite <- Hk. apply in_map, H. }
    assert (HBl : forall k, In k ks -> is_block_level (sty (n_style k)) = true).
    { intros k H. pose proof (HBk k H) as Hb. destruct k as [s1 i1 b1 k1]. apply blocks_unfold in Hb. apply Hb. }
    rewrite EX. destruct b as [b|]; cbn [childrenC]; [|intros; discriminate].
    destruct (establishes_inline sty (Node s i (Some b) ks)).
    - intros E. pose proof (ex_all (layout_boxC sty call turn fuel d f (CBNode s b)) X ks a (fun k a H => HL _ k a (HBk k H))) as H1.
      destruct (lay_allC _ ks) as [[ks' r] x]. exact (H1 E).
    - intros E. pose proof (ex_flow (fun b0 => layout_boxC sty call turn fuel d f (CBNode s b0)) X ks a (fun b0 k a H => HL _ k a (HBk k H))
        HBl b n0 None) as H1.
      destruct (flowC _ _ _ _ _ _ _ _) as [[[ks' b'] r] x]. exact (H1 E). }
  assert (Hx : ex I (cbind (fun n => (n, Ok tt, call)) (fun _ => cbind (ensureC turn) (fun _ =>
     cbind (free (on_box (copy_edges st (hctx d f cb) (vctx d f cb)))) (fun _ => cbind (widthC sty turn (hctx d f cb)) (fun _ =>
     cbind (if is_relative st then heightC sty turn (vctx d f cb) cb else cret tt) (fun _ =>
     cbind (if is_abspos st then free (mlift (Err NotImplementedError)) else if is_float st then free (mlift (Err NotImplementedError))
            else childrenC sty turn (layout_boxC sty call turn fuel d f)) (fun _ =>
     cbind (heightC sty turn (vctx d f cb) cb) (fun _ => shiftC sty turn d f cb)))))))) (call + (0 + (0 + (0 + (0 + (over X ks0 + 0))))))).
  { apply ex_bind with (z := call); [intros n Hn; split; [apply le_n|exact Hn]|intros n a _ _; apply le_n|]. intros _.
    eapply ex_bind; [apply bd_ensure|apply ex_0|]. intros _. eapply ex_bind; [apply bd_box|apply ex_0|]. intros _.
    eapply ex_bind; [apply bd_width|apply ex_0|]. intros _.
    eapply ex_bind with (z := (turn * count I)%nat); [destruct (is_relative st); [apply bd_height|eapply bd_le; [apply bd_ret|lia]]|apply ex_0|]. intros _.
    eapply ex_bind with (z := over (fun k => (call * count k + 8 * turn * weight k) + turn * count k)%nat ks0).
    { destruct (is_abspos st); [eapply bd_le; [apply bd_lift|lia]|]. destruct (is_float st); [eapply bd_le; [apply bd_lift|lia]|]. exact HC. }
    { destruct (is_abspos st); [intros n a _ H; discriminate H|]. destruct (is_float st); [intros n a _ H; discriminate H|]. exact HCx. }
    intros _. apply ex_0. }
  intros n a Hn E. specialize (Hx n a Hn E). etransitivity; [|exact Hx].
  unfold X. rewrite over_mul. subst I. rewrite count_unfold. lia.
Qed.
End Exact.

(** C185: when layout() of a document of block-level elements succeeds, layout_box() was
    called exactly once per node. *)
Theorem C185_once d h5 (n n' : node) :
  all_block sty n -> layout sty d h5 n = (n', Ok tt) -> calls sty d h5 n = count n.
Proof.
  intros HB E. apply Nat.le_antisymm; [apply C185_calls|].
  rewrite <- (C185_same 1 0) in E. unfold calls, price, result in *. revert E. unfold layoutC.
  destruct (n_box n); [|intros; discriminate].
  assert (Hi : inputs (inputs n) = inputs n).
  { clear. induction n as [s i b ks IH] using node_ind'. cbn [inputs]. f_equal. rewrite map_map. apply map_ext_in. exact IH. }
  assert (H : ex (inputs n) (cbind (resetC 0 (height n)) (fun _ => cbind (layout_boxC sty 1 0 (height n) d dummy_font CBView) (fun _ => finishC 0 d h5)))
     (0 + (1 * count (inputs n) + 0))).
  { eapply ex_bind with (z := (2 * 0 * weight n)%nat).
    - intros m Hm. rewrite <- (weight_eq m n Hm), <- Hm. apply reset_bound.
    - apply ex_0.
    - intros _. eapply ex_bind; [apply bd_layout_box, Hi|apply ex_layout_box; [exact Hi|apply (proj1 (blocks_inputs n)), blocks_of, HB]|intros _; apply ex_0]. }
  intros E. specialize (H n tt eq_refl). rewrite E in H. specialize (H eq_refl). rewrite count_inputs in H. lia.
Qed.
End Props.

(** A block with a padding of 2px on top. *)
Definition padded : style := s_padding (pxu 2) zero_px zero_px zero_px block_style.
(** [m] padded blocks around one block of 30px height. *)
Fixpoint nest (m : nat) : node style :=
  match m with
  | O => el (hpx 30 block_style) []
  | Datatypes.S m' => el padded [nest m']
  end.
(** A padded block around [m] blocks of 30px height. *)
Definition row (m : nat) : node style := el padded (repeat (el (hpx 30 block_style) []) m).
(** C185: the depth does matter: twenty nested blocks take 355 turns, twenty side by side 165;
    both call layout_box() once per element, and the bound holds with room to spare. *)
Example C185_nested :
  snd (layout idsty screen true (nest 20)) = Ok tt /\ count (nest 20) = 21%nat /\ height (nest 20) = 21%nat
  /\ calls idsty screen true (nest 20) = 21%nat /\ turns idsty screen true (nest 20) = 355%nat.
Proof. repeat split; vm_compute; reflexivity. Qed.
Example C185_row :
  snd (layout idsty screen true (row 20)) = Ok tt /\ count (row 20) = 21%nat /\ height (row 20) = 2%nat
  /\ calls idsty screen true (row 20) = 21%nat /\ turns idsty screen true (row 20) = 165%nat.
Proof. repeat split; vm_compute; reflexivity. Qed.
(** The hypotheses of [C185_once] hold of the nested document. *)
Example C185_once_example :
  all_block idsty (nest 5) /\ (exists n', layout idsty screen true (nest 5) = (n', Ok tt)) /\ calls idsty screen true (nest 5) = 6%nat.
Proof.
  split; [|split].
  - generalize 5%nat. induction n as [|m IH]; intros [|j p] k H; cbn [get_path nest el n_kids] in H.
    + injection H as <-. reflexivity.
    + destruct j; discriminate.
    + injection H as <-. reflexivity.
    + destruct j as [|[|j]]; cbn [nth_error] in H; [|discriminate|discriminate]. apply (IH p k H).
  - exists (fst (layout idsty screen true (nest 5))). rewrite (surjective_pairing (layout idsty screen true (nest 5))) at 1.
    f_equal.
  - vm_compute. reflexivity.
Qed.
(** A document that is hidden, or whose layout raises, costs less: one call. *)
Example C185_hidden : calls idsty screen true (el (s_display None block_style) [nest 3]) = 1%nat.
Proof. vm_compute. reflexivity. Qed.

Print Assumptions C185_same.
Print Assumptions C185_bound.
Print Assumptions C185_calls.
Print Assumptions C185_once.
