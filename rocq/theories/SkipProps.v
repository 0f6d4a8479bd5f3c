(** * C130: which displayed children are left out *)
From Coq Require Import ZArith QArith Qcanon Bool List.
From Verif Require Import PyNum NumFacts Units BoxModel BoxSpec BoxFacts Engine EnginePure EngineSpec EngineExamples EngineInv EngineTree EngineTotal EngineWidth
  RefLayout RefFacts RefProps HistSpec HistProps OkSpec OkProps MoveProps EdgeProps SkipSpec.
Import ListNotations.

Section K.
Context {S : Type} (sty : S -> style).
Notation node := (node S).
Lemma laid_can (n : node) op p a : can_lay sty a n = true -> laid sty n op p -> exists a', can_lay sty a' p = true.
Proof.
  intros C L. induction L as [D|op p k L IH I D B]; [eauto|]. destruct IH as (a' & Cp). destruct p as [s i bx ks]. cbn [can_lay] in Cp. cbn [n_kids] in I.
  destruct (st_display (sty s)) as [dk|] eqn:Dk; [|].
  - destruct (kind_of (sty s) i) as [kd|] eqn:Kd; [|discriminate]. cbv zeta in Cp. rewrite !andb_true_iff in Cp. destruct Cp as (((_ & _) & Ck) & _).
    set (inner := mkAround _ _ _ _) in Ck. exists inner.
    destruct (match dk with DBlock | DListItem => existsb (block_child sty) ks | _ => false end) eqn:St.
    + apply andb_true_iff in Ck. destruct Ck as [_ Ck]. rewrite forallb_forall in Ck. specialize (Ck k I).
      destruct B as [B|B]; [|change (is_block_level (sty (n_style k))) with (block_child sty k) in B; rewrite B in Ck; exact Ck].
      exfalso. unfold establishes_inline, is_block_container in B. cbn [n_style n_intr n_kids] in B. rewrite Dk in B.
      assert (R : s_replaced i = false).
      { unfold kind_of in Kd. rewrite Dk in Kd. destruct (st_float (sty s)), (st_position (sty s)), dk, (s_replaced i); try discriminate; reflexivity. }
      rewrite R in B. change (fun k0 : node => is_block_level (sty (n_style k0))) with (block_child sty) in B. destruct dk; try discriminate; cbn [negb] in B; rewrite St in B; discriminate.
    + rewrite forallb_forall in Ck. exact (Ck k I).
  - exfalso. clear -L Dk. inversion L as [D|op' p' k' L' I' D' B']; subst; [apply D|apply D']; exact Dk.
Qed.
Lemma first_split before (k : node) after : blocks_first sty (before ++ k :: after) = true -> block_child sty k = false -> existsb (block_child sty) after = false.
Proof.
  induction before as [|b before IH]; cbn [app blocks_first]; intros H Hk.
  - rewrite Hk in H. apply negb_true_iff in H. exact H.
  - destruct (block_child sty b); [apply IH; assumption|]. apply negb_true_iff in H. rewrite existsb_app in H. apply orb_false_iff in H. destruct H as [_ H]. cbn in H. apply orb_false_iff in H. apply H.
Qed.

(** C130. *)
Theorem C130_left_out : forall d h5 (n n' : node) op p k,
  history sty n -> layout sty d h5 n = (n', Ok tt) -> laid sty n' op p -> In k (n_kids p) -> displayed sty k ->
  (laid sty n' (Some p) k /\ ~ trailing sty p k)
  \/ (trailing sty p k /\ ~ laid sty n' (Some p) k /\ forall b, n_box k = Some b -> has_used b used0).
Proof.
  intros d h5 n n' op p k Hi H L I D.
  assert (Hi' : history sty n') by (replace n' with (fst (layout sty d h5 n)) by (rewrite H; reflexivity); apply history_layout, Hi).
  destruct (C125_again sty d h5 d h5 n n' Hi H) as (n2 & H2 & _).
  assert (C : can_lay_out sty n' = true) by (apply (proj1 (C123_exactly_when sty d h5 n' Hi')); eauto).
  unfold can_lay_out in C. rewrite !andb_true_iff in C. destruct C as [_ C].
  destruct (laid_can n' op p _ C L) as (a' & Cp).
  assert (Nt : block_level (sty (n_style k)) = true \/ establishes_inline sty p = true -> ~ trailing sty p k).
  { intros Q T. destruct T as [before after E Dp Bk Bb Ba]. destruct Q as [Q|Q]; [congruence|].
    assert (R : s_replaced (n_intr p) = false).
    { refine (proj1 (laid_width sty d h5 n n' op p H L _)). unfold is_block_level. destruct Dp as [<- |[<- |[]]]; reflexivity. }
    unfold establishes_inline, is_block_container in Q. rewrite R in Q.
    assert (X : existsb (fun k0 => is_block_level (sty (n_style k0))) (n_kids p) = true).
    { rewrite E, existsb_app. apply orb_true_iff. left. apply existsb_exists. apply Exists_exists in Bb. exact Bb. }
    rewrite X in Q. destruct Dp as [Dp|[Dp|[]]]; rewrite <- Dp in Q; discriminate. }
  destruct (is_block_level (sty (n_style k))) eqn:Bk; [left; split; [eapply EngineSpec.laid_kid; eauto|apply Nt; left; exact Bk]|].
  destruct (establishes_inline sty p) eqn:Es; [left; split; [eapply EngineSpec.laid_kid; eauto|apply Nt; right; reflexivity]|]. right.
  assert (Dsp : In (st_display (sty (n_style p))) [Some DBlock; Some DListItem] /\ s_replaced (n_intr p) = false /\ existsb (block_child sty) (n_kids p) = true).
  { unfold establishes_inline in Es. destruct (is_block_container (sty (n_style p)) (n_intr p)) eqn:Bc; [|discriminate]. apply negb_false_iff in Es.
    unfold is_block_container in Bc. destruct p as [s i bx ks]. cbn [n_style n_intr n_kids] in *. cbn [can_lay] in Cp.
    destruct (st_display (sty s)) as [dk|] eqn:Dk; [|discriminate]. destruct (kind_of (sty s) i) as [kd|] eqn:Kd; [|discriminate].
    unfold kind_of in Kd. rewrite Dk in Kd. destruct (s_replaced i); [destruct dk; discriminate|].
    split; [|auto]. destruct dk; try discriminate; try (cbn; auto; fail); destruct (st_float (sty s)), (st_position (sty s)); discriminate. }
  destruct Dsp as (Dsp & Rp & Ex).
  assert (T : trailing sty p k).
  { destruct (in_split k (n_kids p) I) as (before & after & E).
    assert (Bf : blocks_first sty (n_kids p) = true).
    { destruct p as [s i bx ks]. cbn [n_style n_intr n_kids] in *. cbn [can_lay] in Cp. destruct (st_display (sty s)) as [dk|]; [|destruct Dsp as [Q|[Q|[]]]; discriminate].
      destruct (kind_of (sty s) i) as [kd|]; [|discriminate]. cbv zeta in Cp. rewrite !andb_true_iff in Cp. destruct Cp as (((_ & _) & Ck) & _).
      destruct Dsp as [Q|[Q|[]]]; injection Q as <-; rewrite Ex in Ck; apply andb_true_iff in Ck; apply Ck. }
    rewrite E in Bf, Ex. pose proof (first_split before k after Bf Bk) as Na. rewrite existsb_app in Ex. cbn [existsb] in Ex. rewrite Na, orb_false_r in Ex.
    change (block_child sty k) with (is_block_level (sty (n_style k))) in Ex. rewrite Bk, orb_false_r in Ex.
    apply (trailing_intro sty p k before after E Dsp Bk).
    - apply Exists_exists. apply existsb_exists in Ex. exact Ex.
    - apply Forall_forall. intros c Ic. destruct (block_level (sty (n_style c))) eqn:Bc; [|reflexivity]. exfalso.
      assert (X : existsb (block_child sty) after = true) by (apply existsb_exists; exists c; split; [exact Ic|exact Bc]). congruence. }
  split; [exact T|]. split.
  { intros Lk. inversion Lk as [|op0 p0 k0 L0 I0 D0 B0]; subst. destruct B0; congruence. }
  destruct (laid_used sty d h5 n n' op p Hi H L) as (a & u & v & us & F & _ & Sh & _).
  destruct p as [s i bx ks]. cbn [n_style n_intr n_kids] in *. rewrite format_split in F. destruct (st_display (sty s)) as [dk|] eqn:Dk; [|discriminate].
  unfold node_of in F. cbv zeta in F. injection F as _ Eus. subst us. inversion Sh as [s0 i0 b0 ks0 u0 us0 Hu Fs| |]; subst s0 i0 ks0 u0 us0.
  destruct (forall2_both _ _ _ _ k (kids_placed sty d _ _ ks) Fs I) as (t & It & P & Sk).
  assert (St : stacks_ sty dk ks = true) by (unfold stacks_; destruct Dsp as [Q|[Q|[]]]; injection Q as <-; exact Ex).
  unfold laid_kid in P. rewrite St in P. change (block_level (sty (n_style k))) with (is_block_level (sty (n_style k))) in P. rewrite Bk in P. cbn [negb andb] in P.
  inversion P; subst. inversion Sk; subst. assumption.
Qed.
End K.
Print Assumptions C130_left_out.

(** A block, then two words: neither word is laid out. *)
Definition word : style := s_display (Some DInline) block_style.
Definition trailing_doc : doc := el block_style [el (hpx 10 block_style) []; el word []; el word []].
Example C130_example : history idsty trailing_doc /\ layout idsty screen true trailing_doc = (out true trailing_doc, Ok tt)
  /\ laid idsty (out true trailing_doc) None (out true trailing_doc)
  /\ displayed idsty (kid 0 (out true trailing_doc)) /\ displayed idsty (kid 1 (out true trailing_doc))
  /\ trailing idsty (out true trailing_doc) (kid 1 (out true trailing_doc)) /\ ~ trailing idsty (out true trailing_doc) (kid 0 (out true trailing_doc)).
Proof.
  split; [apply history_new; solve_new|]. split; [vm_compute; reflexivity|]. split; [apply laid_root; unfold displayed; vm_compute; discriminate|].
  split; [unfold displayed; vm_compute; discriminate|]. split; [unfold displayed; vm_compute; discriminate|]. split.
  - apply (trailing_intro idsty _ _ [kid 0 (out true trailing_doc)] [kid 2 (out true trailing_doc)]); [vm_compute; reflexivity|left; vm_compute; reflexivity|vm_compute; reflexivity| |].
    + apply Exists_cons_hd. vm_compute. reflexivity.
    + constructor; [vm_compute; reflexivity|constructor].
  - intros [before after _ _ B _ _]. vm_compute in B. discriminate.
Qed.
