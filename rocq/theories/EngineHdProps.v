(** * Properties C56, C104-C106: hidden nodes *)
From Coq Require Import ZArith QArith Qcanon Lia Bool String List.
From Verif Require Import PyNum NumFacts Units BoxModel BoxSpec BoxFacts Engine EnginePure EngineFacts EngineSpec
  EngineTree EngineInv EngineTotal EngineFuel EngineHSpec EngineHidden EngineExamples.
Import ListNotations.
Open Scope Z_scope.

Section Props.
Context {S : Type} (sty : S -> style).
Notation node := (node S).
Notation prune := (prune sty).
Notation hides := (hides sty).
Notation harmless := (harmless sty).

(** C104.  Hidden nodes that are harmless do not matter: laying out the document
    without them gives the document laid out with them, without them -- the
    same boxes everywhere, or the same exception after the same partial effects. *)
Theorem C104_as_if_absent : forall d h5 (n n' : node) r, harmless n ->
  layout sty d h5 n = (n', r) -> layout sty d h5 (prune n) = (prune n', r).
Proof. intros d h5 n n' r H E. rewrite (layout_prune sty d h5 n H), E. reflexivity. Qed.

(** C104, second part.  A hidden child that takes part in layout has no box afterwards. *)
Theorem C104_no_box : forall d h5 (n n' : node) op p k, layout sty d h5 n = (n', Ok tt) ->
  laid sty n' op p -> establishes_inline sty p = true -> In k (n_kids p) -> hides k = true -> n_box k = None.
Proof.
  intros d h5 n n' op p k H L Ei I Hk.
  destruct (layout_laid sty d h5 n n' op p H L) as (fuel & cb & kin & k0 & Hp & _ & Fin & _).
  destruct (call_inv sty d h5 fuel cb kin k0 False _ p Hp (fun f => match f with end) Fin)
    as (s & i & bx & ks & b1 & b2 & ks' & b3 & b4 & b5 & b & S1 & S2 & S3 & S4 & S5 & S6 & Fin' & _ & W1 & W2 & _ & _ & Hc & W4 & W5).
  pose proof (plb_inputs sty _ _ _ _ _ _ Hp) as Hin. unfold pchildren in Hc.
  assert (Ei' : establishes_inline sty (Node s i (Some b2) ks) = true).
  { rewrite <- Ei. rewrite <- (establishes_strip' sty p). pose proof (final_same _ _ _ _ _ Fin) as (F1 & F2 & F3 & _).
    assert (Q : inputs (strip p) = inputs (Node s i (Some b2) ks)).
    { subst kin. cbn [inputs] in Hin |- *. destruct k0 as [s0 i0 bx0 ks0], (strip p) as [s1 i1 bx1 ks1]. cbn in *. congruence. }
    symmetry. apply inputs_establishes, Q. }
  rewrite Ei' in Hc. apply bindr_ok in Hc. destruct Hc as (l & Hl & Hc). apply Ok_inj in Hc. injection Hc as -> ->.
  apply pall_forall2 in Hl. assert (Ik : In (strip k) ks') by (rewrite <- S3; apply in_map, I).
  assert (X : exists k1, plb sty fuel d dummy_font (CBNode s b3) k1 = Ok (strip k)).
  { clear -Hl Ik. induction Hl as [|a a' l l' A _ IH]; [destruct Ik|]. destruct Ik as [->|Ik]; [eauto|apply IH, Ik]. }
  destruct X as (k1 & X). destruct (plb_style sty _ _ _ _ _ _ X) as [Sx _]. rewrite n_style_strip in Sx.
  apply plb_hidden in X.
  - assert (B : n_box (strip k) = None) by (rewrite X; destruct k1; reflexivity). rewrite n_box_strip in B. destruct (n_box k); [discriminate|reflexivity].
  - rewrite <- Sx. unfold EngineHSpec.hides in Hk. destruct (st_display _); [discriminate|reflexivity].
Qed.

(** C56, the part that holds (see C104).  Missing: hidden nodes that are not
    harmless, and the boxes of hidden nodes next to block-level siblings; the
    refutations below show that the claim fails for them. *)
Theorem C56_hidden_partial : forall d h5 (n n' : node), harmless n -> layout sty d h5 n = (n', Ok tt) ->
  layout sty d h5 (prune n) = (prune n', Ok tt)
  /\ forall op p k, laid sty n' op p -> establishes_inline sty p = true -> In k (n_kids p) -> hides k = true -> n_box k = None.
Proof.
  intros d h5 n n' Hh H. split; [apply C104_as_if_absent with (1 := Hh), H|]. intros op p k. apply (C104_no_box _ _ _ _ _ _ _ H).
Qed.

(** C105.  What is wrong with the others, exactly: a hidden child in front of a
    block-level sibling makes the layout fail, and so does a hidden last child
    of an auto-height block without block-level children. *)
Lemma laid_call d h5 (n n' : node) op p : layout sty d h5 n = (n', Ok tt) -> laid sty n op p ->
  exists fuel cb s i bx ks b2 ks' b3 b4, inputs (Node s i bx ks) = inputs p
    /\ pchildren sty (plb sty fuel d dummy_font) s i b2 ks = Ok (ks', b3)
    /\ hphase (sty s) i (cb_style_height sty cb) (last_box ks') (vctx d dummy_font cb) b3 = Ok b4
    /\ map inputs ks' = map inputs ks.
Proof.
  intros H L. pose proof (layout_inputs sty d h5 n) as E. rewrite H in E. cbn [fst] in E. symmetry in E.
  destruct (laid_inputs sty n n' E op p L) as (op' & p' & L' & Ek & _).
  destruct (layout_laid sty d h5 n n' op' p' H L') as (fuel & cb & kin & k0 & Hp & _ & Fin & _).
  destruct (call_inv sty d h5 fuel cb kin k0 False _ p' Hp (fun f => match f with end) Fin)
    as (s & i & bx & ks & b1 & b2 & ks' & b3 & b4 & b5 & b & S1 & S2 & S3 & S4 & S5 & S6 & Fin' & _ & W1 & W2 & _ & _ & Hc & W4 & W5).
  exists fuel, cb, s, i, bx, ks, b2, ks', b3, b4. subst kin. pose proof (plb_inputs sty _ _ _ _ _ _ Hp) as Hin.
  pose proof (final_same _ _ _ _ _ Fin) as (F1 & F2 & F3 & _). pose proof (final_same _ _ _ _ _ Fin') as (G1 & G2 & G3 & _).
  assert (Ks : map inputs ks' = map inputs (n_kids p')).
  { rewrite <- S3, map_map. apply map_ext. intros k. apply inputs_strip. }
  assert (Q : inputs (Node s i bx ks) = inputs p').
  { rewrite <- Hin, <- (inputs_strip p'). destruct k0 as [s0 i0 bx0 ks0], (strip p') as [s1 i1 bx1 ks1]. cbn in *. congruence. }
  split; [congruence|]. split; [exact Hc|]. split; [exact W4|]. destruct p' as [s1 i1 bx1 ks1]. cbn in Ks, Q. injection Q as _ _ Q. congruence.
Qed.
Theorem C105_before_block : forall d h5 (n : node) op p pre h post k, laid sty n op p -> establishes_inline sty p = false ->
  n_kids p = pre ++ h :: post -> hides h = true -> In k post -> is_block_level (sty (n_style k)) = true ->
  exists n' e, layout sty d h5 n = (n', Err e).
Proof.
  intros d h5 n op p pre h post k L Ei Ek Hh I Hk. destruct (layout sty d h5 n) as [n' [[]|e]] eqn:H; [exfalso|eauto].
  destruct (laid_call d h5 n n' op p H L) as (fuel & cb & s & i & bx & ks & b2 & ks' & b3 & b4 & Q & Hc & _).
  unfold pchildren in Hc. replace (establishes_inline sty (Node s i (Some b2) ks)) with false in Hc.
  2:{ symmetry. rewrite <- Ei. apply inputs_establishes. exact Q. }
  destruct p as [s1 i1 bx1 ks1]. cbn in Q, Ek. subst ks1. injection Q as _ _ Q. rewrite map_app in Q. apply map_app_inv in Q. destruct Q as (p' & q' & -> & Qp & Qq).
  destruct q' as [|h' post']; [discriminate|]. cbn [map] in Qq. injection Qq as Qh Qq.
  apply (in_map inputs) in I. rewrite <- Qq in I. apply in_map_iff in I. destruct I as (k' & Qk & I).
  apply inputs_style in Qk. apply inputs_style in Qh. destruct Qk as [Qk _], Qh as [Qh _].
  assert (Bh : is_block_level (sty (n_style h')) = false).
  { rewrite Qh. unfold EngineHSpec.hides in Hh. unfold is_block_level. destruct (st_display _); [discriminate|reflexivity]. }
  rewrite <- Qk in Hk. revert Hc. clear -Bh Hk I.
  assert (G : forall lay ks pend b off bm r, pflow sty lay (ks ++ h' :: post') pend b off bm = Ok r -> False).
  { intros lay ks. induction ks as [|x ks IH]; intros pend b off bm r E; cbn [app pflow] in E.
    - rewrite Bh in E. apply bindr_ok in E. destruct E as (r1 & E & _). apply pflow_pend in E. destruct E as (_ & _ & E). specialize (E k' I). unfold blk in E. congruence.
    - destruct (is_block_level (sty (n_style x))).
      + destruct pend; [discriminate E|]. apply bindr_ok in E. destruct E as (k1 & _ & E). destruct (n_box k1); [|discriminate E].
        apply bindr_ok in E. destruct E as ([[[kb' b'] off'] bm'] & _ & E). apply bindr_ok in E. destruct E as (r1 & E & _). eapply IH, E.
      + apply bindr_ok in E. destruct E as (r1 & E & _). eapply IH, E. }
  intros Hc. eapply G, Hc.
Qed.
Theorem C105_last : forall d h5 (n : node) op p pre h, laid sty n op p -> establishes_inline sty p = true ->
  is_block_level (sty (n_style p)) = true -> st_height (sty (n_style p)) = Auto ->
  n_kids p = pre ++ [h] -> hides h = true -> exists n' e, layout sty d h5 n = (n', Err e).
Proof.
  intros d h5 n op p pre h L Ei Hb Ha Ek Hh. destruct (layout sty d h5 n) as [n' [[]|e]] eqn:H; [exfalso|eauto].
  destruct (laid_call d h5 n n' op p H L) as (fuel & cb & s & i & bx & ks & b2 & ks' & b3 & b4 & Q & Hc & W & Qk).
  unfold pchildren in Hc. replace (establishes_inline sty (Node s i (Some b2) ks)) with true in Hc.
  2:{ symmetry. rewrite <- Ei. apply inputs_establishes. exact Q. }
  apply bindr_ok in Hc. destruct Hc as (l & Hl & Hc). apply Ok_inj in Hc. injection Hc as -> ->.
  destruct p as [s1 i1 bx1 ks1]. cbn in Q, Ek, Hb, Ha. subst ks1. injection Q as -> _ Q. rewrite map_app in Q.
  apply map_app_inv in Q. destruct Q as (p' & q' & -> & Qp & Qq). destruct q' as [|h' [|]]; try discriminate. cbn in Qq. injection Qq as Qh.
  apply inputs_style in Qh. destruct Qh as [Qh _]. apply pall_forall2 in Hl. apply Forall2_app_inv_l in Hl. destruct Hl as (l1 & l2 & _ & F & ->).
  inversion F as [|x y t t' Hx Ft]; subst. inversion Ft; subst. clear F Ft. apply plb_hidden in Hx.
  - assert (E : last_box (l1 ++ [y]) = Some None). { unfold last_box. rewrite rev_app_distr. cbn. rewrite Hx. destruct h'. reflexivity. }
    rewrite E in W. unfold hphase in W. apply bindr_ok in W. destruct W as ([b' v] & W & _). unfold run, calculate_height in W.
    destruct (is_float (sty s1)); [discriminate|]. destruct (is_abspos (sty s1)); [discriminate|]. destruct (is_inline (sty s1)) eqn:Il.
    { unfold is_inline in Il. unfold is_block_level in Hb. destruct (st_display (sty s1)) as [[]|]; discriminate. }
    rewrite Hb in W. destruct (s_replaced i); [discriminate|]. unfold block_non_replaced_height, block_content_height in W. rewrite Ha in W. discriminate W.
  - rewrite Qh. unfold EngineHSpec.hides in Hh. destruct (st_display _); [discriminate|reflexivity].
Qed.
End Props.

(** ** Examples *)
Fixpoint before_blocks (ks : list doc) : bool :=
  match ks with
  | [] => true
  | k :: ks' => (if hides idsty k then forallb (fun x => negb (is_block_level (idsty (n_style x)))) ks' else true) && before_blocks ks'
  end.
Fixpoint harmlessb (n : doc) : bool :=
  let 'Node s i bx ks := n in
  hides idsty n || (forallb harmlessb ks
    && (establishes_inline idsty n || before_blocks ks)
    && match is_block_level s, st_height s, rev ks with true, Auto, k :: _ => negb (hides idsty k) | _, _, _ => true end).
Lemma harmlessb_ok n : harmlessb n = true -> harmless idsty n.
Proof.
  induction n as [s i bx ks IH] using node_ind'. cbn [harmlessb]. intros H. apply orb_prop in H. destruct H as [H|H]; [apply harmless_hidden, H|].
  apply andb_prop in H. destruct H as [H H3]. apply andb_prop in H. destruct H as [H1 H2]. apply harmless_node.
  - intros k I. apply IH; [exact I|]. rewrite forallb_forall in H1. apply H1, I.
  - intros pre h post k E -> Hh I. rewrite E in H2. cbn [orb] in H2. clear -H2 Hh I. induction pre as [|x pre IHp]; cbn [app before_blocks] in H2.
    + rewrite Hh in H2. apply andb_prop in H2. destruct H2 as [H2 _]. rewrite forallb_forall in H2. specialize (H2 k I). apply negb_true_iff in H2. exact H2.
    + apply andb_prop in H2. apply IHp, H2.
  - intros pre k B A ->. unfold idsty in B, A. rewrite B, A, rev_app_distr in H3. cbn in H3. apply negb_true_iff in H3. exact H3.
Qed.
Definition hidden_el : doc := el (s_display None block_style) [el block_style []].
Definition word (w h : Z) : doc := Node (s_display (Some DInline) block_style) (mkSize (Some (NI w)) (Some (NI h)) false false None false) (Some box0) [].
(** Hidden nodes among words, at the end of a block of fixed height, and at the
    end of an inline element. *)
Definition hiding : doc :=
  el block_style
    [el (s_size Auto (Len (pxu 30)) block_style) [el (s_size Auto (Len (pxu 10)) block_style) []; hidden_el];
     el (s_padding (pxu 1) (pxu 2) (pxu 3) (pxu 4) block_style) [hidden_el; word 40 12; hidden_el; word 50 14]].
Example C104_as_if_absent_example : harmless idsty hiding /\ ok false hiding = true /\ prune idsty hiding <> hiding
  /\ ok false (prune idsty hiding) = true /\ n_box (prune idsty (out false hiding)) = n_box (out false (prune idsty hiding))
  /\ option_map content_height (n_box (out false hiding)) = Some (LNum (NI 48)).
Proof. split; [apply harmlessb_ok; vm_compute; reflexivity|]. repeat split; try (vm_compute; reflexivity). vm_compute. discriminate. Qed.
Example C104_no_box_example : laid idsty (out false hiding) (Some (out false hiding)) (kid 1 (out false hiding))
  /\ establishes_inline idsty (kid 1 (out false hiding)) = true /\ hides idsty (kid 2 (kid 1 (out false hiding))) = true
  /\ n_box (kid 2 (kid 1 (out false hiding))) = None.
Proof.
  split; [apply (laid_out_kid false hiding 1 _ None); [apply laid_out_root; vm_compute; reflexivity|vm_compute; reflexivity]|]. repeat split; vm_compute; reflexivity.
Qed.
Example C56_hidden_partial_example : layout idsty screen true (prune idsty hiding) = (prune idsty (out true hiding), Ok tt).
Proof. apply C56_hidden_partial; [apply harmlessb_ok; vm_compute; reflexivity|apply ok_layout; vm_compute; reflexivity]. Qed.
(** C56 fails for other documents.  A hidden last child of an auto-height block
    with block-level children keeps a box and makes the block 0 high instead of
    20; one before a block makes the layout raise, although the document
    without it is laid out. *)
Definition hiding_last : doc := el block_style [el (s_size Auto (Len (pxu 20)) block_style) []; hidden_el].
Definition hiding_first : doc := el block_style [hidden_el; el (s_size Auto (Len (pxu 20)) block_style) []].
Theorem C56_refuted :
  (exists (n n' m' : doc) b b', layout idsty screen false n = (n', Ok tt) /\ layout idsty screen false (prune idsty n) = (m', Ok tt)
     /\ n_box n' = Some b /\ n_box m' = Some b' /\ content_height b <> content_height b'
     /\ exists k, In k (n_kids n') /\ hides idsty k = true /\ n_box k <> None)
  /\ (exists n n' m' : doc, layout idsty screen false n = (n', Err AttributeError) /\ layout idsty screen false (prune idsty n) = (m', Ok tt)).
Proof.
  split.
  - exists hiding_last, (out false hiding_last), (out false (prune idsty hiding_last)).
    destruct (n_box (out false hiding_last)) as [b|] eqn:E; [|vm_compute in E; discriminate].
    destruct (n_box (out false (prune idsty hiding_last))) as [b'|] eqn:E'; [|vm_compute in E'; discriminate]. exists b, b'.
    split; [apply ok_layout; vm_compute; reflexivity|]. split; [apply ok_layout; vm_compute; reflexivity|].
    split; [reflexivity|]. split; [reflexivity|]. split.
    + vm_compute in E, E'. injection E as <-. injection E' as <-. discriminate.
    + exists (kid 1 (out false hiding_last)). split; [|split; [vm_compute; reflexivity|vm_compute; discriminate]].
      unfold kid. apply nth_In. vm_compute. lia.
  - exists hiding_first, (out false hiding_first), (out false (prune idsty hiding_first)). split; [|apply ok_layout; vm_compute; reflexivity].
    unfold out. assert (E : snd (layout idsty screen false hiding_first) = Err AttributeError) by (vm_compute; reflexivity).
    rewrite <- E. apply surjective_pairing.
Qed.
Example C105_before_block_example : laid idsty hiding_first None hiding_first /\ establishes_inline idsty hiding_first = false
  /\ n_kids hiding_first = [] ++ hidden_el :: [el (s_size Auto (Len (pxu 20)) block_style) []] /\ hides idsty hidden_el = true.
Proof. split; [apply laid_root; discriminate|]. repeat split. Qed.
Definition hiding_words : doc := el block_style [word 40 12; hidden_el].
Example C105_last_example : laid idsty hiding_words None hiding_words /\ establishes_inline idsty hiding_words = true
  /\ n_kids hiding_words = [word 40 12] ++ [hidden_el] /\ hides idsty hidden_el = true /\ ok false (el block_style [word 40 12]) = true.
Proof. split; [apply laid_root; discriminate|]. repeat split. Qed.
(** C106.  Layout terminates: [layout_box] needs a recursion no deeper than the
    document.  Whatever larger depth is allowed, the result is the same and the
    limit is never reached (so no theorem holds because of the model's fuel). *)
Theorem C106_terminates : forall (S : Type) (sty : S -> style) d h5 (n : node S),
  (forall f cb depth, (height n <= depth)%nat ->
     layout_box sty depth d f cb n = layout_box sty (height n) d f cb n /\ snd (layout_box sty depth d f cb n) <> Err OutOfFuel)
  /\ snd (layout sty d h5 n) <> Err OutOfFuel.
Proof.
  intros S sty d h5 n. split; [|apply layout_clean]. intros f cb depth H. split; [apply layout_box_fuel; [exact H|apply le_n]|apply layout_box_clean, H].
Qed.
Example C106_example : height (prune idsty hiding) = 3%nat /\ snd (layout_box idsty 2 screen dummy_font CBView (prune idsty hiding)) = Err OutOfFuel
  /\ snd (layout_box idsty 3 screen dummy_font CBView (prune idsty hiding)) = Ok tt.
Proof. repeat split; vm_compute; reflexivity. Qed.
Print Assumptions C56_hidden_partial.
Print Assumptions C56_refuted.
Print Assumptions C104_as_if_absent.
Print Assumptions C104_no_box.
Print Assumptions C105_before_block.
Print Assumptions C105_last.
Print Assumptions C106_terminates.
