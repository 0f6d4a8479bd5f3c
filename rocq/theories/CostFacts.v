(** * Lemmas about the counted engine *)
From Coq Require Import ZArith Bool List Lia.
From Verif Require Import PyNum Units BoxModel BoxSpec BoxFacts Engine EngineSpec EngineInv EngineFSpec Cost CostSpec.
Import ListNotations.

Section Facts.
Context {S : Type} (sty : S -> style) (call turn : nat).
Notation node := (node S).

(** ** Dropping the count *)
Lemma bind_fst {A B} (m : @CM S A) (f : A -> @CM S B) (m' : @M S A) (f' : A -> @M S B) n :
  (forall n, fst (m n) = m' n) -> (forall a n, fst (f a n) = f' a n) -> fst (cbind m f n) = mbind m' f' n.
Proof.
  intros Hm Hf. unfold cbind, mbind. specialize (Hm n). destruct (m n) as [[n' [a|e]] x]; cbn [fst] in Hm; rewrite <- Hm; [|reflexivity].
  specialize (Hf a n'). destruct (f a n') as [[n'' r] y]. exact Hf.
Qed.
Lemma add_top_fst v n : fst (add_topC turn v n) = @add_content_top S v n.
Proof. unfold add_topC, add_content_top, set_topC. destruct (n_box n); reflexivity. Qed.
Lemma add_left_fst v n : fst (add_leftC turn v n) = @add_content_left S v n.
Proof. unfold add_leftC, add_content_left, set_leftC. destruct (n_box n); reflexivity. Qed.
Lemma width_fst c n : fst (widthC sty turn c n) = calculate_width_and_margins sty c n.
Proof. unfold widthC, calculate_width_and_margins. apply bind_fst; [reflexivity|]. intros [l|] m; reflexivity. Qed.
Lemma height_fst c cb n : fst (heightC sty turn c cb n) = calculate_height_and_margins sty c cb n.
Proof. unfold heightC, calculate_height_and_margins. apply bind_fst; [reflexivity|]. intros; apply add_top_fst. Qed.
Lemma lay_all_fst lay lay' ks : (forall k, fst (lay k) = lay' k) -> fst (lay_allC lay ks) = @lay_all S lay' ks.
Proof.
  intros H. induction ks as [|k ks IH]; [reflexivity|]. cbn [lay_allC lay_all].
  specialize (H k). destruct (lay k) as [[k' [a|e]] x]; cbn [fst] in H; rewrite <- H; [|reflexivity].
  rewrite <- IH. destruct (lay_allC lay ks) as [[ks'' r] y]. reflexivity.
Qed.
Lemma flow_fst lay lay' ks : (forall b k, fst (lay b k) = lay' b k) -> forall pend b off bm,
  fst (flowC sty turn lay ks pend b off bm) = flow sty lay' ks pend b off bm.
Proof.
  intros H. induction ks as [|k ks IH]; intros pend b off bm; [reflexivity|]. cbn [flowC flow].
  destruct (is_block_level (sty (n_style k))).
  - destruct pend; [reflexivity|].
    specialize (H b k). destruct (lay b k) as [[k' [a|e]] x]; cbn [fst] in H; rewrite <- H; [|reflexivity].
    destruct (place_child k' b off bm) as [[k2 b2] [[off' bm']|e]]; [|reflexivity].
    rewrite <- IH. destruct (flowC sty turn lay ks false b2 off' bm') as [[[ks2 b3] r] y]. reflexivity.
  - rewrite <- IH. destruct (flowC sty turn lay ks true b off bm) as [[[ks2 b3] r] y]. reflexivity.
Qed.
Lemma children_fst lay lay' n : (forall cb k, fst (lay cb k) = lay' cb k) ->
  fst (childrenC sty turn lay n) = layout_children sty lay' n.
Proof.
  intros H. destruct n as [s i [b|] ks]; [|reflexivity]. unfold childrenC, layout_children.
  destruct (establishes_inline sty (Node s i (Some b) ks)).
  - rewrite <- (lay_all_fst (lay (CBNode s b)) _ ks (H _)). destruct (lay_allC (lay (CBNode s b)) ks) as [[ks' r] x]. reflexivity.
  - rewrite <- (flow_fst (fun b0 => lay (CBNode s b0)) _ ks (fun b0 => H _)).
    destruct (flowC _ _ _ _ _ _ _ _) as [[[ks' b'] r] x]. reflexivity.
Qed.
Lemma shift_fst d f cb n : fst (shiftC sty turn d f cb n) = relative_shift sty d f cb n.
Proof.
  unfold shiftC, relative_shift. destruct (is_relative _); [|reflexivity].
  apply bind_fst; [reflexivity|]. intros vl m. apply bind_fst; [intros; apply add_left_fst|].
  intros _ m'. apply bind_fst; [reflexivity|]. intros; apply add_top_fst.
Qed.
Lemma ensure_fst (n : node) : fst (ensureC turn n) = mmod ensure_box n.
Proof. unfold ensureC, mmod, ensure_box. destruct (n_box n); reflexivity. Qed.
Lemma layout_box_fst fuel d f : forall cb n, fst (layout_boxC sty call turn fuel d f cb n) = layout_box sty fuel d f cb n.
Proof.
  induction fuel as [|fuel IH]; intros cb n; [reflexivity|]. cbn [layout_boxC layout_box].
  destruct (st_display (sty (n_style n))); [|reflexivity].
  unfold cbind at 1.
  set (m := cbind (ensureC turn) _). assert (H : fst (m n) = (mbind (mmod ensure_box) (fun _ =>
     mbind (on_box (copy_edges (sty (n_style n)) (hctx d f cb) (vctx d f cb))) (fun _ =>
     mbind (calculate_width_and_margins sty (hctx d f cb)) (fun _ =>
     mbind (if is_relative (sty (n_style n)) then calculate_height_and_margins sty (vctx d f cb) cb else mret tt) (fun _ =>
     mbind (if is_abspos (sty (n_style n)) then mlift (Err NotImplementedError)
            else if is_float (sty (n_style n)) then mlift (Err NotImplementedError)
            else layout_children sty (layout_box sty fuel d f)) (fun _ =>
     mbind (calculate_height_and_margins sty (vctx d f cb) cb) (fun _ => relative_shift sty d f cb))))))) n).
  { subst m. apply bind_fst; [intros; apply ensure_fst|]. intros _ m1. apply bind_fst; [reflexivity|].
    intros _ m2. apply bind_fst; [intros; apply width_fst|]. intros _ m3.
    apply bind_fst; [intros; destruct (is_relative _); [apply height_fst|reflexivity]|]. intros _ m4.
    apply bind_fst; [intros; destruct (is_abspos _); [reflexivity|]; destruct (is_float _); [reflexivity|]; apply children_fst, IH|].
    intros _ m5. apply bind_fst; [intros; apply height_fst|]. intros; apply shift_fst. }
  destruct (m n) as [[n' r] x]. exact H.
Qed.
Lemma finish_fst d h5 (n : node) : fst (finishC turn d h5 n) = finish_root d h5 n.
Proof.
  unfold finishC, finish_root. destruct (n_box n) as [b|]; [|reflexivity].
  rewrite (bind_fst _ _ (mmod (set_content_top (nadd (content_top b) (NI (collapse_top b)))))
    (fun _ => if h5 then on_box (bmod (upd_content_height
       (LNum (nsub (nsub (disp_height d) (NI (collapse_top b))) (NI (collapse_bottom b)))))) else mret tt)); reflexivity.
Qed.
Lemma height_kid (s : S) i b ks k : In k ks -> (Datatypes.S (height k) <= height (Node s i b ks))%nat.
Proof.
  intros H. cbn [height]. apply le_n_S. induction ks as [|k' ks IH]; [destruct H|]. cbn [map fold_right].
  destruct H as [<- | H]; [lia|]. specialize (IH H). lia.
Qed.
Lemma height_eq (n m : node) : inputs n = inputs m -> height n = height m.
Proof. intros H. rewrite <- (height_inputs n), <- (height_inputs m), H. reflexivity. Qed.
Lemma reset_fst fuel : forall n : node, (height n <= fuel)%nat -> fst (resetC turn fuel n) = (reset n, Ok tt).
Proof.
  induction fuel as [|fuel IH]; intros [s i b ks] H; [cbn [height] in H; lia|]. cbn [resetC].
  destruct b as [b|]; [|reflexivity]. rewrite reset_unfold. unfold reset_self. cbn [n_kids].
  set (ks1 := map _ ks).
  assert (Hk : forall k, In k ks1 -> (height k <= fuel)%nat).
  { intros k Hk. apply in_map_iff in Hk. destruct Hk as (k0 & <- & H0).
    rewrite (height_eq _ k0) by (rewrite inputs_origin_left, inputs_origin_top; reflexivity).
    pose proof (height_kid s i (Some b) ks k0 H0). lia. }
  assert (E : fst (lay_allC (resetC turn fuel) ks1) = (map reset ks1, Ok tt)).
  { induction ks1 as [|k ks1 IHk]; [reflexivity|]. cbn [lay_allC map].
    pose proof (IH k (Hk k (or_introl eq_refl))) as E. destruct (resetC turn fuel k) as [[k' r] x]. cbn [fst] in E.
    injection E as -> ->. specialize (IHk (fun k H => Hk k (or_intror H))).
    destruct (lay_allC (resetC turn fuel) ks1) as [[ks' r] y]. cbn [fst] in *. injection IHk as -> ->. reflexivity. }
  destruct (lay_allC (resetC turn fuel) ks1) as [[ks' r] x]. cbn [fst] in *. injection E as -> ->. reflexivity.
Qed.
Lemma layout_fst d h5 (n : node) : fst (layoutC sty call turn d h5 n) = layout sty d h5 n.
Proof.
  unfold layoutC, layout. destruct (n_box n) as [b|] eqn:En; [|reflexivity].
  unfold cbind at 1. unfold mbind at 1, mmod. pose proof (reset_fst (height n) n (le_n _)) as E.
  destruct (resetC turn (height n) n) as [[n' r] x]. cbn [fst] in E. injection E as -> ->.
  assert (H : fst (cbind (layout_boxC sty call turn (height n) d dummy_font CBView) (fun _ => finishC turn d h5) (reset n))
     = mbind (layout_box sty (height n) d dummy_font CBView) (fun _ => finish_root d h5) (reset n)).
  { apply bind_fst; [intros; apply layout_box_fst|]. intros; apply finish_fst. }
  destruct (cbind _ _ (reset n)) as [[n'' r'] y]. exact H.
Qed.

(** ** Bounds *)
(** The sum of the sizes of all subtrees. *)
Fixpoint weight (n : node) : nat :=
  let 'Node s i b ks := n in (count n + fold_right Nat.add 0 (map weight ks))%nat.
Lemma over_le {A} (f g : A -> nat) ks : (forall k, In k ks -> f k <= g k)%nat -> (over f ks <= over g ks)%nat.
Proof.
  unfold over. induction ks as [|k ks IH]; intros H; [apply le_n|]. cbn [map fold_right].
  pose proof (H k (or_introl eq_refl)). specialize (IH (fun k H' => H k (or_intror H'))). lia.
Qed.
Lemma over_mul {A} c (f : A -> nat) ks : over (fun k => c * f k)%nat ks = (c * over f ks)%nat.
Proof. unfold over. induction ks as [|k ks IH]; cbn [map fold_right]; [lia|]. rewrite IH. lia. Qed.
Lemma over_add {A} (f g : A -> nat) ks : over (fun k => f k + g k)%nat ks = (over f ks + over g ks)%nat.
Proof. unfold over. induction ks as [|k ks IH]; cbn [map fold_right]; [lia|]. rewrite IH. lia. Qed.
Lemma count_unfold (s : S) i b ks : count (Node s i b ks) = Datatypes.S (over count ks).
Proof. reflexivity. Qed.
Lemma weight_unfold (s : S) i b ks : weight (Node s i b ks) = (count (Node s i b ks) + over weight ks)%nat.
Proof. reflexivity. Qed.
Lemma count_inputs (n : node) : count (inputs n) = count n.
Proof.
  induction n as [s i b ks IH] using node_ind'. cbn [inputs]. rewrite !count_unfold. f_equal. unfold over. rewrite map_map.
  f_equal. apply map_ext_in. exact IH.
Qed.
Lemma weight_inputs (n : node) : weight (inputs n) = weight n.
Proof.
  induction n as [s i b ks IH] using node_ind'. cbn [inputs]. rewrite !weight_unfold. f_equal.
  - apply (count_inputs (Node s i b ks)).
  - unfold over. rewrite map_map. f_equal. apply map_ext_in. exact IH.
Qed.
Lemma count_eq (n m : node) : inputs n = inputs m -> count n = count m.
Proof. intros H. rewrite <- (count_inputs n), <- (count_inputs m), H. reflexivity. Qed.
Lemma weight_eq (n m : node) : inputs n = inputs m -> weight n = weight m.
Proof. intros H. rewrite <- (weight_inputs n), <- (weight_inputs m), H. reflexivity. Qed.
Lemma weight_ge (n : node) : (count n <= weight n)%nat.
Proof. destruct n. rewrite weight_unfold. lia. Qed.
Lemma weight_le (n : node) : (weight n <= count n * height n)%nat.
Proof.
  induction n as [s i b ks IH] using node_ind'. rewrite weight_unfold.
  assert (H : (over weight ks <= over count ks * pred (height (Node s i b ks)))%nat).
  { rewrite <- (Nat.mul_comm (pred _)), <- over_mul. apply over_le. intros k Hk. specialize (IH k Hk).
    pose proof (height_kid s i b ks k Hk). rewrite Nat.mul_comm. etransitivity; [exact IH|]. apply Nat.mul_le_mono_l. lia. }
  assert (Hh : (1 <= height (Node s i b ks))%nat) by (cbn [height]; lia).
  rewrite count_unfold. destruct (height (Node s i b ks)) as [|h]; [lia|]. cbn [pred] in H. nia.
Qed.

Lemma origin_top_le (n : node) : forall v, (origin_top_cost turn v n <= turn * count n)%nat.
Proof.
  induction n as [s i b ks IH] using node_ind'. intros v. destruct b as [b|]; cbn [origin_top_cost]; [|lia].
  rewrite count_unfold. destruct (neqb v (origin_top b)); [nia|].
  assert (H : (over (origin_top_cost turn (absolute_content_top (upd_origin_top v b))) ks <= turn * over count ks)%nat)
    by (rewrite <- over_mul; apply over_le; intros k Hk; apply IH, Hk).
  unfold over in *. nia.
Qed.
Lemma origin_left_le (n : node) : forall v, (origin_left_cost turn v n <= turn * count n)%nat.
Proof.
  induction n as [s i b ks IH] using node_ind'. intros v. destruct b as [b|]; cbn [origin_left_cost]; [|lia].
  rewrite count_unfold. destruct (neqb v (origin_left b)); [nia|].
  assert (H : (over (origin_left_cost turn (absolute_content_left (upd_origin_left v b))) ks <= turn * over count ks)%nat)
    by (rewrite <- over_mul; apply over_le; intros k Hk; apply IH, Hk).
  unfold over in *. nia.
Qed.
Lemma content_top_le v (n : node) : (content_top_cost turn v n <= turn * count n)%nat.
Proof.
  destruct n as [s i [b|] ks]; cbn [content_top_cost]; [|lia]. rewrite count_unfold. destruct (neqb v (content_top b)); [nia|].
  pose proof (over_le (origin_top_cost turn (absolute_content_top (upd_content_top v b))) (fun k => turn * count k)%nat ks
    (fun k _ => origin_top_le k _)). rewrite over_mul in H. nia.
Qed.
Lemma content_left_le v (n : node) : (content_left_cost turn v n <= turn * count n)%nat.
Proof.
  destruct n as [s i [b|] ks]; cbn [content_left_cost]; [|lia]. rewrite count_unfold. destruct (neqb v (content_left b)); [nia|].
  pose proof (over_le (origin_left_cost turn (absolute_content_left (upd_content_left v b))) (fun k => turn * count k)%nat ks
    (fun k _ => origin_left_le k _)). rewrite over_mul in H. nia.
Qed.
Lemma reset_self_le (n : node) : (reset_self_cost turn n <= 2 * turn * count n)%nat.
Proof.
  destruct n as [s i b ks]. unfold reset_self_cost. cbn [n_kids]. rewrite count_unfold.
  pose proof (over_le (origin_top_cost turn n0) (fun k => turn * count k)%nat ks (fun k _ => origin_top_le k _)) as H1.
  pose proof (over_le (fun k => origin_left_cost turn n0 (set_origin_top n0 k)) (fun k => turn * count k)%nat ks) as H2.
  rewrite over_mul in H1, H2. cbv beta in *.
  assert (H3 : forall k, In k ks -> (origin_left_cost turn n0 (set_origin_top n0 k) <= turn * count k)%nat).
  { intros k _. rewrite <- (count_eq (set_origin_top n0 k) k) by apply inputs_origin_top. apply origin_left_le. }
  specialize (H2 H3). nia.
Qed.

(** [m] costs at most [x] on a node with the inputs [I], and keeps them. *)
Definition bd {A} (I : node) (m : @CM S A) (x : nat) : Prop :=
  forall n, inputs n = I -> (snd (m n) <= x)%nat /\ inputs (fst (fst (m n))) = I.
Lemma bd_bind {A B} I (m : @CM S A) (f : A -> @CM S B) x y : bd I m x -> (forall a, bd I (f a) y) -> bd I (cbind m f) (x + y).
Proof.
  intros Hm Hf n Hn. unfold cbind. destruct (Hm n Hn) as [H1 H2]. destruct (m n) as [[n' [a|e]] c]; cbn [fst snd] in *; [|split; [lia|exact H2]].
  destruct (Hf a n' H2) as [H3 H4]. destruct (f a n') as [[n'' r] c']. cbn [fst snd] in *. split; [lia|exact H4].
Qed.
Lemma bd_le {A} I (m : @CM S A) x y : bd I m x -> (x <= y)%nat -> bd I m y.
Proof. intros H L n Hn. destruct (H n Hn). split; [lia|assumption]. Qed.
Lemma bd_ret {A} I (a : A) : bd I (cret a) 0. Proof. intros n Hn. split; [apply le_n|exact Hn]. Qed.
Lemma bd_lift {A} I (r : res A) : bd I (free (mlift r)) 0. Proof. intros n Hn. split; [apply le_n|exact Hn]. Qed.
Lemma bd_box {A} I (m : BM A) : bd I (free (on_box m)) 0.
Proof.
  intros [s i [b|] ks] Hn; (split; [apply le_n|]); [|exact Hn]. unfold free, on_box. destruct (m b). exact Hn.
Qed.
Lemma bd_top I v : bd I (set_topC turn v) (turn * count I).
Proof.
  intros n <-. unfold set_topC. cbn [fst snd]. split; [|apply inputs_content_top]. rewrite count_inputs. apply content_top_le.
Qed.
Lemma bd_left I v : bd I (set_leftC turn v) (turn * count I).
Proof.
  intros n <-. unfold set_leftC. cbn [fst snd]. split; [|apply inputs_content_left]. rewrite count_inputs. apply content_left_le.
Qed.
Lemma bd_add_top I v : bd I (add_topC turn v) (turn * count I).
Proof. intros n Hn. unfold add_topC. destruct (n_box n); [apply bd_top, Hn|]. split; [apply Nat.le_0_l|exact Hn]. Qed.
Lemma bd_add_left I v : bd I (add_leftC turn v) (turn * count I).
Proof. intros n Hn. unfold add_leftC. destruct (n_box n); [apply bd_left, Hn|]. split; [apply Nat.le_0_l|exact Hn]. Qed.
Lemma bd_width I c : bd I (widthC sty turn c) (turn * count I).
Proof.
  intros n Hn. unfold widthC. revert Hn. generalize (calculate_width (sty (n_style n)) (n_intr n) c). intros m. revert n.
  change (bd I (cbind (free (on_box m)) (fun ol => match ol with Some l => set_leftC turn l | None => cret tt end)) (0 + turn * count I)).
  apply bd_bind; [apply bd_box|]. intros [l|]; [apply bd_left|]. eapply bd_le; [apply bd_ret|lia].
Qed.
Lemma bd_height I c cb : bd I (heightC sty turn c cb) (turn * count I).
Proof.
  intros n Hn. unfold heightC. revert Hn. generalize (calculate_height (sty (n_style n)) (n_intr n) (cb_style_height sty cb) (last_layout n) c).
  intros m. revert n.
  change (bd I (cbind (free (on_box m)) (add_topC turn)) (0 + turn * count I)).
  apply bd_bind; [apply bd_box|]. intros l. apply bd_add_top.
Qed.
Lemma bd_shift I d f cb : bd I (shiftC sty turn d f cb) (2 * turn * count I).
Proof.
  intros n Hn. unfold shiftC. destruct (is_relative _); [|split; [apply Nat.le_0_l|exact Hn]].
  revert Hn. generalize (sty (n_style n)). intros s. revert n.
  eapply bd_le with (x := (0 + (turn * count I + (0 + turn * count I)))%nat); [|lia].
  apply bd_bind; [apply bd_lift|]. intros vl. apply bd_bind; [apply bd_add_left|]. intros _.
  apply bd_bind; [apply bd_lift|]. intros vt. apply bd_add_top.
Qed.
Lemma inputs_reset_self (n : node) : inputs (reset_self n) = inputs n.
Proof.
  destruct n as [s i b ks]. cbn [reset_self inputs]. f_equal. rewrite map_map. apply map_ext. intros k.
  rewrite inputs_origin_left, inputs_origin_top. reflexivity.
Qed.
Lemma bd_ensure I : bd I (ensureC turn) (2 * turn * count I).
Proof.
  intros n Hn. unfold ensureC. destruct (n_box n); cbn [fst snd]; [split; [apply Nat.le_0_l|exact Hn]|].
  split; [|rewrite inputs_reset_self; exact Hn]. rewrite <- Hn, count_inputs. apply reset_self_le.
Qed.
(** What a step of a child costs, by the inputs of the child. *)
Lemma bd_all lay (X : node -> nat) ks : (forall k, In k ks -> (snd (lay k) <= X k)%nat /\ inputs (fst (fst (lay k))) = inputs k) ->
  (snd (lay_allC lay ks) <= over X ks)%nat /\ map inputs (fst (fst (lay_allC lay ks))) = map inputs ks.
Proof.
  intros H. induction ks as [|k ks IH]; [split; [apply le_n|reflexivity]|]. cbn [lay_allC].
  destruct (H k (or_introl eq_refl)) as [H1 H2]. specialize (IH (fun k H' => H k (or_intror H'))).
  unfold over in *. cbn [map fold_right].
  destruct (lay k) as [[k' [a|e]] x]; cbn [fst snd] in *.
  - destruct (lay_allC lay ks) as [[ks' r] y]. cbn [fst snd map] in *. destruct IH as [I1 I2]. split; [lia|]. rewrite H2, I2. reflexivity.
  - cbn [map]. rewrite H2. split; [lia|reflexivity].
Qed.
Lemma place_le (k : node) b off bm : (place_cost turn k b off bm <= turn * count k)%nat.
Proof.
  unfold place_cost. destruct (n_box k); [|lia]. destruct (match bm with None => _ | Some _ => _ end); [|lia]. apply content_top_le.
Qed.
Lemma place_inputs (k : node) b off bm : inputs (fst (fst (place_child k b off bm))) = inputs k.
Proof.
  unfold place_child. destruct (n_box k) as [kb|]; [|reflexivity].
  destruct bm as [m|]; cbn [fst snd].
  - destruct (mt <-r as_num (margin_top kb);; Ok (nadd off (nmax (NI m) mt))); [apply inputs_content_top|reflexivity].
  - apply inputs_content_top.
Qed.
Lemma bd_flow lay (X : node -> nat) ks :
  (forall b k, In k ks -> (snd (lay b k) <= X k)%nat /\ inputs (fst (fst (lay b k))) = inputs k) -> forall pend b off bm,
  (snd (flowC sty turn lay ks pend b off bm) <= over (fun k => X k + turn * count k)%nat ks)%nat
  /\ map inputs (fst (fst (fst (flowC sty turn lay ks pend b off bm)))) = map inputs ks.
Proof.
  induction ks as [|k ks IH]; intros H pend b off bm; [split; [apply le_n|reflexivity]|]. cbn [flowC].
  specialize (IH (fun b k H' => H b k (or_intror H'))).
  unfold over in *. cbn [map fold_right].
  destruct (is_block_level (sty (n_style k))).
  - destruct pend; [split; [apply Nat.le_0_l|reflexivity]|].
    destruct (H b k (or_introl eq_refl)) as [H1 H2].
    destruct (lay b k) as [[k' [a|e]] x]; cbn [fst snd] in *; [|cbn [map]; rewrite H2; split; [lia|reflexivity]].
    pose proof (place_le k' b off bm) as P. rewrite (count_eq k' k H2) in P.
    pose proof (place_inputs k' b off bm) as Q.
    destruct (place_child k' b off bm) as [[k2 b2] [[off' bm']|e]]; cbn [fst snd] in *.
    + specialize (IH false b2 off' bm'). destruct (flowC sty turn lay ks false b2 off' bm') as [[[ks2 b3] r] y]. cbn [fst snd map] in *.
      destruct IH as [I1 I2]. rewrite Q, H2, I2. split; [lia|reflexivity].
    + cbn [map]. rewrite Q, H2. split; [lia|reflexivity].
  - specialize (IH true b off bm). destruct (flowC sty turn lay ks true b off bm) as [[[ks2 b3] r] y]. cbn [fst snd map] in *.
    destruct IH as [I1 I2]. rewrite I2. split; [lia|reflexivity].
Qed.
Lemma over_inputs (X : node -> nat) ks ks' : (forall k, X (inputs k) = X k) -> map inputs ks = map inputs ks' -> over X ks = over X ks'.
Proof.
  intros HX H. unfold over. f_equal. rewrite <- (map_ext (fun k => X (inputs k)) X HX ks), <- (map_ext (fun k => X (inputs k)) X HX ks').
  rewrite <- !(map_map inputs X), H. reflexivity.
Qed.
Lemma bd_children lay (X : node -> nat) s i ks0 :
  (forall k, X (inputs k) = X k) ->
  (forall cb k, (snd (lay cb k) <= X k)%nat /\ inputs (fst (fst (lay cb k))) = inputs k) ->
  bd (Node s i None ks0) (childrenC sty turn lay) (over (fun k => X k + turn * count k)%nat ks0).
Proof.
  intros HX HL n Hn. destruct n as [s' i' b ks]. cbn [inputs] in Hn. injection Hn as -> -> Hk.
  assert (E : over (fun k => X k + turn * count k)%nat ks0 = over (fun k => X k + turn * count k)%nat ks).
  { rewrite <- Hk. unfold over. rewrite map_map. f_equal. apply map_ext. intros k. rewrite HX, count_inputs. reflexivity. }
  rewrite E. destruct b as [b|]; cbn [childrenC]; [|split; [apply Nat.le_0_l|cbn [fst inputs]; rewrite Hk; reflexivity]].
  destruct (establishes_inline sty (Node s i (Some b) ks)).
  - destruct (bd_all (lay (CBNode s b)) X ks (fun k _ => HL _ k)) as [H1 H2].
    destruct (lay_allC (lay (CBNode s b)) ks) as [[ks' r] x]. cbn [fst snd inputs] in *. rewrite H2, Hk.
    split; [|reflexivity]. rewrite over_add. lia.
  - destruct (bd_flow (fun b0 => lay (CBNode s b0)) X ks (fun b0 k _ => HL _ k) false b n0 None) as [H1 H2].
    destruct (flowC _ _ _ _ _ _ _ _) as [[[ks' b'] r] x]. cbn [fst snd inputs] in *. rewrite H2, Hk. split; [exact H1|reflexivity].
Qed.
Lemma bd_layout_box fuel d f : forall cb I, inputs I = I ->
  bd I (layout_boxC sty call turn fuel d f cb) (call * count I + 8 * turn * weight I).
Proof.
  induction fuel as [|fuel IH]; intros cb I HI n Hn; [split; [apply Nat.le_0_l|exact Hn]|]. cbn [layout_boxC].
  destruct (st_display (sty (n_style n))).
  2:{ split; cbn [fst snd]; [destruct I; rewrite count_unfold; lia|]. destruct n; exact Hn. }
  revert Hn. generalize (sty (n_style n)). intros st. revert n.
  set (X := fun k : node => (call * count k + 8 * turn * weight k)%nat).
  assert (HX : forall k, X (inputs k) = X k) by (intros k; unfold X; rewrite count_inputs, weight_inputs; reflexivity).
  assert (HL : forall cb k, (snd (layout_boxC sty call turn fuel d f cb k) <= X k)%nat
     /\ inputs (fst (fst (layout_boxC sty call turn fuel d f cb k))) = inputs k).
  { intros cb' k. assert (Hi : inputs (inputs k) = inputs k).
    { clear. induction k as [s i b ks IH] using node_ind'. cbn [inputs]. f_equal. rewrite map_map. apply map_ext_in. exact IH. }
    destruct (IH cb' (inputs k) Hi k eq_refl) as [H1 H2].
    split; [|exact H2]. fold (X (inputs k)) in H1. rewrite HX in H1. exact H1. }
  destruct I as [s i b0 ks0]. cbn [inputs] in HI. injection HI as <- Hks.
  set (I := Node s i None ks0). pose proof (bd_children (layout_boxC sty call turn fuel d f) X s i ks0 HX HL) as HC. fold I in HC.
  eapply bd_le with (x := (call + (2 * turn * count I + (0 + (turn * count I + (turn * count I +
     (over (fun k => X k + turn * count k)%nat ks0 + (turn * count I + 2 * turn * count I)))))))%nat).
  - apply bd_bind; [intros n Hn; split; [apply le_n|exact Hn]|]. intros _.
    apply bd_bind; [apply bd_ensure|]. intros _. apply bd_bind; [apply bd_box|]. intros _.
    apply bd_bind; [apply bd_width|]. intros _.
    apply bd_bind; [destruct (is_relative st); [apply bd_height|eapply bd_le; [apply bd_ret|lia]]|]. intros _.
    apply bd_bind.
    { destruct (is_abspos st); [eapply bd_le; [apply bd_lift|lia]|]. destruct (is_float st); [eapply bd_le; [apply bd_lift|lia]|]. exact HC. }
    intros _. apply bd_bind; [apply bd_height|]. intros _. apply bd_shift.
  - rewrite over_add, over_mul. unfold X. rewrite over_add, !over_mul. subst I. rewrite weight_unfold, count_unfold. nia.
Qed.
Lemma reset_bound fuel : forall n : node, (snd (resetC turn fuel n) <= 2 * turn * weight n)%nat /\ inputs (fst (fst (resetC turn fuel n))) = inputs n.
Proof.
  induction fuel as [|fuel IH]; intros [s i b ks]; cbn [resetC]; [split; [apply Nat.le_0_l|reflexivity]|].
  destruct b as [b|]; [|split; [apply Nat.le_0_l|reflexivity]].
  destruct (bd_all (resetC turn fuel) (fun k => 2 * turn * weight k)%nat (n_kids (reset_self (Node s i (Some b) ks))) (fun k _ => IH k)) as [H1 H2].
  pose proof (reset_self_le (Node s i (Some b) ks)) as H3.
  pose proof (inputs_reset_self (Node s i (Some b) ks)) as H4. cbn [reset_self inputs] in H4. injection H4 as H4.
  cbn [reset_self n_kids] in *.
  destruct (lay_allC (resetC turn fuel) _) as [[ks' r] x]. cbn [fst snd inputs] in *. rewrite H2, H4. split; [|reflexivity].
  rewrite over_mul in H1. rewrite (over_inputs weight _ ks weight_inputs H4) in H1. rewrite weight_unfold. nia.
Qed.
Lemma layout_bound d h5 (n : node) : (snd (layoutC sty call turn d h5 n) <= call * count n + 11 * turn * weight n)%nat.
Proof.
  unfold layoutC. destruct (n_box n); [|apply Nat.le_0_l].
  assert (Hi : inputs (inputs n) = inputs n).
  { clear. induction n as [s i b ks IH] using node_ind'. cbn [inputs]. f_equal. rewrite map_map. apply map_ext_in. exact IH. }
  assert (H : bd (inputs n) (cbind (resetC turn (height n)) (fun _ => cbind (layout_boxC sty call turn (height n) d dummy_font CBView) (fun _ => finishC turn d h5)))
     (2 * turn * weight n + ((call * count n + 8 * turn * weight n) + turn * count n))).
  { apply bd_bind.
    - intros m Hm. rewrite <- (weight_eq m n Hm), <- Hm. apply reset_bound.
    - intros _. apply bd_bind.
      + rewrite <- (count_inputs n) at 1. rewrite <- (weight_inputs n). apply bd_layout_box, Hi.
      + intros _ m Hm. unfold finishC. destruct (n_box m); [|split; [apply Nat.le_0_l|exact Hm]].
        revert m Hm. intros m Hm. set (I := inputs n) in *.
        rewrite <- (count_inputs n). fold I.
        apply (bd_le I _ (turn * count I + 0)); [|lia|exact Hm].
        apply bd_bind; [apply bd_top|]. intros _. destruct h5; [apply bd_box|]. apply (bd_ret I tt). }
  destruct (H n eq_refl) as [H1 _]. pose proof (weight_ge n). nia.
Qed.
End Facts.
