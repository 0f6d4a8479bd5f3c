(** * Properties C47-C50, C60, C61, C75-C78: vertical geometry *)
From Coq Require Import ZArith QArith Qcanon Qround Lqa Lia Bool List.
From Verif Require Import PyNum NumFacts Units UnitsFacts BoxModel BoxSpec BoxFacts Engine EnginePure EngineFacts
  EngineSpec EngineTree EngineWidth EngineHeight EngineExamples.
Import ListNotations.
Open Scope Qc_scope.

Section Props.
Context {S : Type} (sty : S -> style).
Notation node := (node S).

(** ** Stacking *)

(** C75 (and the true part of C47).  In a block formatting context the
    block-level children come first and are stacked from the top of the parent's
    content box, each at the bottom of the previous one plus the larger of the
    previous bottom extent and its own top margin. *)
Theorem C75_block_stacking : forall d h5 (n n' : node) op p,
  layout sty d h5 n = (n', Ok tt) -> ready sty n -> laid sty n' op p ->
  establishes_inline sty p = false ->
  exists pre, in_flow sty p pre /\ stacked sty 0 None pre.
Proof. intros. eapply laid_stacked; eassumption. Qed.

Lemma stacked_app l1 : forall top prev l2, stacked sty top prev (l1 ++ l2) ->
  exists top' prev', stacked sty top' prev' l2.
Proof.
  induction l1 as [|k l1 IH]; intros top prev l2 H; [eauto|]. inversion H; subst. eauto.
Qed.

Lemma border_box_height_ok b h : border_box_height b = Ok h -> exists ch, content_height b = LNum ch
  /\ nval h = nval (border_top_width b) + nval (padding_top b) + nval ch + nval (padding_bottom b) + nval (border_bottom_width b).
Proof.
  unfold border_box_height. destruct (content_height b) as [ch| |]; try discriminate. cbn.
  intros H. apply Ok_inj in H. exists ch. split; [reflexivity|]. subst h. rewrite !nval_add. reflexivity.
Qed.
Lemma border_box_bottom_of b h : border_box_height b = Ok h ->
  exists x, border_box_bottom b = Ok x /\ nval x = nval (border_box_top b) + nval h.
Proof.
  intros H. apply border_box_height_ok in H. destruct H as (ch & E & Eh).
  unfold border_box_bottom, content_bottom. rewrite E. cbn. eexists. split; [reflexivity|].
  unfold border_box_top. rewrite !nval_add, !nval_sub, Eh. ring.
Qed.
Lemma border_box_height_of b x : border_box_bottom b = Ok x -> exists h, border_box_height b = Ok h /\ nval x = nval (border_box_top b) + nval h.
Proof.
  unfold border_box_bottom, content_bottom, border_box_height. destruct (content_height b) as [ch| |]; try discriminate. cbn.
  intros H. apply Ok_inj in H. eexists. split; [reflexivity|]. subst x. unfold border_box_top. rewrite !nval_add, !nval_sub. ring.
Qed.

Lemma in_flow_laid n' op p pre k : laid sty n' op p -> in_flow sty p pre -> In k pre -> laid sty n' (Some p) k.
Proof.
  intros L (suf & E & P & _) I. pose proof (P k I) as B. eapply laid_kid; [exact L| | |auto].
  - rewrite E. apply in_or_app. auto.
  - unfold displayed, is_block_level in *. destruct (st_display _); congruence.
Qed.

Lemma split_unique {A} (f : A -> bool) (p1 : list A) : forall p2 s1 s2, p1 ++ s1 = p2 ++ s2 ->
  (forall x, In x p1 -> f x = true) -> (forall x, In x s1 -> f x = false) ->
  (forall x, In x p2 -> f x = true) -> (forall x, In x s2 -> f x = false) -> p1 = p2.
Proof.
  induction p1 as [|x p1 IH]; intros [|y p2] s1 s2 E P1 S1 P2 S2; cbn in E; [reflexivity| | |].
  - subst s1. specialize (S1 y (or_introl eq_refl)). specialize (P2 y (or_introl eq_refl)). congruence.
  - subst s2. specialize (S2 x (or_introl eq_refl)). specialize (P1 x (or_introl eq_refl)). congruence.
  - injection E as -> E. f_equal. apply (IH p2 s1 s2 E).
    + intros z Hz. apply P1. right. exact Hz.
    + exact S1.
    + intros z Hz. apply P2. right. exact Hz.
    + exact S2.
Qed.

(** The extent of a box without a contributing last child is its whole
    positive bottom margin. *)
Definition plain_bottom (k : node) : Prop := n_kids k = [] \/ st_height (sty (n_style k)) <> Auto.

(** C47, for adjacent static siblings.  The previous bottom margin enters as
    its collapsed extent, which is the margin itself when it is a non-negative
    whole number and no last child contributes ([plain_bottom]).  Missing: the
    same with fractional or negative bottom margins, and for last children with
    larger margins, where the code uses the extent (see the refutation). *)
Theorem C47_stacking_partial : forall d h5 (n n' : node) op p pre,
  layout sty d h5 n = (n', Ok tt) -> ready sty n -> laid sty n' op p ->
  establishes_inline sty p = false -> in_flow sty p pre ->
  (* the first child starts at the top of the content box *)
  (forall k l, pre = k :: l -> is_relative (sty (n_style k)) = false ->
     exists b, n_box k = Some b /\ nval (border_box_top b) = 0)
  /\ (* the following ones *)
  (forall l1 k1 k2 l2, pre = l1 ++ k1 :: k2 :: l2 ->
     is_relative (sty (n_style k1)) = false -> is_relative (sty (n_style k2)) = false ->
     exists b1 b2 bottom mt, n_box k1 = Some b1 /\ n_box k2 = Some b2
       /\ border_box_bottom b1 = Ok bottom /\ margin_top b2 = LNum mt
       /\ nval (border_box_top b2) = nval bottom + qc_max (Z2Qc (collapse_bottom b1)) (nval mt)
       /\ (* no overlap *) nval bottom <= nval (border_box_top b2)
       /\ (forall z, plain_bottom k1 -> margin_bottom b1 = LNum (NI z) -> (0 <= z)%Z ->
             nval (border_box_top b2) = nval bottom + qc_max (Z2Qc z) (nval mt))).
Proof.
  intros d h5 n n' op p pre H R L Ei IF.
  destruct (laid_stacked sty _ _ _ _ _ _ H R L Ei) as (pre' & IF' & St).
  assert (pre' = pre).
  { destruct IF as (suf & E & P1 & P2), IF' as (suf' & E' & P1' & P2').
    rewrite E in E'. symmetry. eapply split_unique with (f := fun k => is_block_level (sty (n_style k))); eassumption. }
  subst pre'. split.
  - intros k l -> Rk. inversion St as [|top prev k' b mt h ks E1 E2 E3 E4 E5]; subst. exists b. split; [exact E1|].
    rewrite (E4 Rk). cbn [gap]. ring.
  - intros l1 k1 k2 l2 -> R1 R2. apply stacked_app in St. destruct St as (top & prev & St).
    inversion St as [|top1 prev1 k' b1 mt1 h1 ks E1 E2 E3 E4 E5]; subst.
    inversion E5 as [|top2 prev2 k'' b2 mt2 h2 ks' E1' E2' E3' E4' E5']; subst.
    destruct (border_box_bottom_of _ _ E3) as (bot & Eb & Vb).
    exists b1, b2, bot, mt2. split; [exact E1|]. split; [exact E1'|]. split; [exact Eb|]. split; [exact E2'|].
    assert (Q : nval (border_box_top b2) = nval bot + qc_max (Z2Qc (collapse_bottom b1)) (nval mt2)).
    { rewrite (E4' R2), Vb, (E4 R1). cbn [gap]. ring. }
    assert (L1 : laid sty n' (Some p) k1).
    { eapply in_flow_laid; [exact L|exact IF|]. apply in_or_app. right. left. reflexivity. }
    assert (B1 : is_block_level (sty (n_style k1)) = true).
    { destruct IF as (_ & _ & P & _). apply P, in_or_app. right. left. reflexivity. }
    destruct (laid_vertical sty _ _ _ _ _ _ H L1 B1) as (b & hh & cb & _ & VF).
    pose proof (vf_box _ _ _ _ _ _ _ _ _ _ VF) as Eb1. rewrite E1 in Eb1. injection Eb1 as <-.
    destruct (vf_cb _ _ _ _ _ _ _ _ _ _ VF R) as [Xc Pc].
    split; [exact Q|]. split.
    + rewrite Q. assert (G : 0 <= qc_max (Z2Qc (collapse_bottom b1)) (nval mt2)).
      { apply Z2Qc_le in Pc. rewrite Z2Qc_0 in Pc. unfold qc_max. destruct (qc_ltb_spec (Z2Qc (collapse_bottom b1)) (nval mt2)) as [X|X]; [|exact Pc].
        eapply Qcle_trans; [exact Pc|]. apply Qclt_le_weak, X. }
      clear -G. qclra.
    + intros z Hpl Hm Hz. rewrite Q. do 2 f_equal. rewrite Xc, Hm. unfold last_extent.
      destruct Hpl as [Hk|Hh].
      * rewrite Hk. cbn [last_box rev whole]. destruct (st_height _); f_equal; lia.
      * destruct (st_height _); [congruence|]. cbn [whole]. f_equal. lia.
Qed.

(** ** Auto height *)

(** [last_bottom p x]: the bottom border edge of the last child of [p]. *)
Definition last_bottom (p : node) (x : Qc) : Prop :=
  exists ks k b h, n_kids p = ks ++ [k] /\ n_box k = Some b /\ border_box_bottom b = Ok h /\ nval h = x.

Lemma last_box_some (ks : list node) lb : last_box ks = Some (Some lb) -> exists ks0 k, ks = ks0 ++ [k] /\ n_box k = Some lb.
Proof.
  unfold last_box. destruct (rev ks) as [|k r] eqn:E; [discriminate|]. intros H. injection H as H.
  exists (rev r), k. split; [|exact H]. rewrite <- (rev_involutive ks), E. reflexivity.
Qed.
Lemma last_box_none (ks : list node) : last_box ks = None -> ks = [].
Proof. unfold last_box. destruct (rev ks) eqn:E; [|discriminate]. intros _. rewrite <- (rev_involutive ks), E. reflexivity. Qed.

(** C48, first and third clause: a block of auto height is as tall as the
    bottom border edge of its last child; without children it has its
    min-height or 0.  (The root of an HTML5 document is fitted to the display,
    see C50.) *)
Theorem C48_auto_height_partial : forall d h5 (n n' : node) op k,
  layout sty d h5 n = (n', Ok tt) -> ready sty n -> laid sty n' op k -> is_block_level (sty (n_style k)) = true ->
  (op <> None \/ h5 = false) -> parent_ok sty h5 n' op -> st_height (sty (n_style k)) = Auto ->
  exists b h, n_box k = Some b /\ content_height b = LNum h
    /\ (n_kids k <> [] -> last_bottom k (nval h))
    /\ (n_kids k = [] -> specified (height_ctx sty d op) (st_min_height (sty (n_style k))) (nval h)).
Proof.
  intros d h5 n n' op k H R L Hb Ho Po Ha.
  destruct (laid_vertical_v sty _ _ _ _ _ _ H R L Hb Po) as (b & h & VF).
  exists b, h. split; [apply VF|]. split; [apply VF, Ho|].
  destruct (vf_height _ _ _ _ _ _ _ _ _ _ VF) as [lb h E1 E2 E3|E1 E2 E3|u h E1 E2 E3 E4|u h0 h E1 E2 E3]; [| | |congruence].
  - apply last_box_some in E2. destruct E2 as (ks0 & kl & E2 & E4). split.
    + intros _. exists ks0, kl, lb, h. auto.
    + intros Q. rewrite E2 in Q. destruct ks0; discriminate.
  - apply last_box_none in E2. split; [congruence|]. intros _. rewrite E3. constructor.
  - apply last_box_none in E2. split; [congruence|]. intros _. rewrite E3. constructor. exists h. auto.
Qed.

(** C76 (second clause of C48 as far as it holds).  A block container of auto
    height whose children are all static and block-level encloses them, provided none
    has a negative border box height. *)
Definition tall (k : node) : Prop := exists b h, n_box k = Some b /\ border_box_height b = Ok h /\ 0 <= nval h.

Lemma gap_pos prev mt : (forall z, prev = Some z -> (0 <= z)%Z) -> 0 <= gap prev mt.
Proof.
  intros H. destruct prev as [z|]; cbn [gap]; [|apply Qcle_refl]. specialize (H z eq_refl). apply Z2Qc_le in H. rewrite Z2Qc_0 in H.
  unfold qc_max. destruct (qc_ltb_spec (Z2Qc z) mt) as [X|X]; [|exact H]. eapply Qcle_trans; [exact H|]. apply Qclt_le_weak, X.
Qed.
Lemma stacked_bounds ks : forall top prev, stacked sty top prev ks ->
  (forall z, prev = Some z -> (0 <= z)%Z) ->
  (forall k, In k ks -> is_relative (sty (n_style k)) = false /\ tall k
     /\ forall b, n_box k = Some b -> (0 <= collapse_bottom b)%Z) ->
  forall k b, In k ks -> n_box k = Some b ->
  top <= nval (border_box_top b)
  /\ exists x, border_box_bottom b = Ok x
  /\ forall ks0 kl bl xl, ks = ks0 ++ [kl] -> n_box kl = Some bl -> border_box_bottom bl = Ok xl -> nval x <= nval xl.
Proof.
  induction ks as [|k0 ks IH]; intros top prev St Hp Hall k b I Eb; [destruct I|].
  inversion St as [|t p k' b0 mt h ks' E1 E2 E3 E4 E5]; subst.
  destruct (Hall k0 (or_introl eq_refl)) as (R0 & (b0' & h' & T1 & T2 & T3) & P0).
  rewrite E1 in T1. injection T1 as <-. rewrite E3 in T2. apply Ok_inj in T2. subst h'. specialize (P0 _ E1).
  specialize (E4 R0). pose proof (gap_pos prev (nval mt) Hp) as G.
  destruct (border_box_bottom_of _ _ E3) as (x0 & X1 & X2).
  assert (Hall' : forall k, In k ks -> is_relative (sty (n_style k)) = false /\ tall k
     /\ forall b, n_box k = Some b -> (0 <= collapse_bottom b)%Z) by (intros; apply Hall; right; assumption).
  assert (Hp' : forall z, Some (collapse_bottom b0) = Some z -> (0 <= z)%Z) by (intros z [= <-]; exact P0).
  destruct I as [<-|I].
  - rewrite E1 in Eb. injection Eb as <-. split; [rewrite E4; clear -G; qclra|]. exists x0. split; [exact X1|].
    intros ks0 kl bl xl Ek Bl Xl. destruct ks0 as [|y ks0].
    + cbn in Ek. injection Ek as <- ->. rewrite E1 in Bl. injection Bl as <-. rewrite X1 in Xl. apply Ok_inj in Xl. subst. apply Qcle_refl.
    + cbn in Ek. injection Ek as <- Ek.
      assert (Il : In kl ks) by (rewrite Ek; apply in_or_app; right; left; reflexivity).
      destruct (IH _ _ E5 Hp' Hall' kl bl Il Bl) as (Y1 & _).
      destruct (Hall' kl Il) as (_ & (bl' & hl & T1 & T2 & T4) & _). rewrite Bl in T1. injection T1 as <-.
      destruct (border_box_bottom_of _ _ T2) as (xl' & X1' & X2'). rewrite Xl in X1'. apply Ok_inj in X1'. subst xl'.
      rewrite X2, X2', E4. clear -Y1 T4. qclra.
  - destruct (IH _ _ E5 Hp' Hall' k b I Eb) as (Y1 & x & Y2 & Y3). split; [clear -Y1 G T3; qclra|]. exists x. split; [exact Y2|].
    intros ks0 kl bl xl Ek Bl Xl. destruct ks0 as [|y ks0].
    + cbn in Ek. injection Ek as <- ->. destruct I.
    + cbn in Ek. injection Ek as <- Ek. eapply Y3; eauto.
Qed.

Theorem C76_auto_height_encloses : forall d h5 (n n' : node) op p,
  layout sty d h5 n = (n', Ok tt) -> ready sty n -> laid sty n' op p -> is_block_level (sty (n_style p)) = true ->
  (op <> None \/ h5 = false) -> st_height (sty (n_style p)) = Auto -> establishes_inline sty p = false ->
  (forall k, In k (n_kids p) -> is_block_level (sty (n_style k)) = true /\ is_relative (sty (n_style k)) = false /\ tall k) ->
  forall k, In k (n_kids p) ->
  exists bp H b x, n_box p = Some bp /\ content_height bp = LNum H /\ n_box k = Some b
    /\ 0 <= nval (border_box_top b) /\ border_box_bottom b = Ok x /\ nval x <= nval H.
Proof.
  intros d h5 n n' op p H R L Hb Ho Ha Ei Hall k I.
  destruct (laid_vertical sty _ _ _ _ _ _ H L Hb) as (bp & h & cb & _ & VF).
  destruct (laid_stacked sty _ _ _ _ _ _ H R L Ei) as (pre & IF & St).
  assert (E : n_kids p = pre).
  { destruct IF as (suf & E & P1 & P2). destruct suf as [|x suf]; [rewrite app_nil_r in E; exact E|].
    exfalso. specialize (P2 x (or_introl eq_refl)). destruct (Hall x) as [Q _]; [rewrite E; apply in_or_app; right; left; reflexivity|congruence]. }
  subst pre.
  assert (Hall' : forall k, In k (n_kids p) -> is_relative (sty (n_style k)) = false /\ tall k
     /\ forall b, n_box k = Some b -> (0 <= collapse_bottom b)%Z).
  { intros k1 I1. destruct (Hall k1 I1) as (Q1 & Q2 & Q3). split; [exact Q2|]. split; [exact Q3|]. intros b Eb.
    destruct (laid_vertical sty _ _ _ _ _ _ H (in_flow_laid _ _ _ _ _ L IF I1) Q1) as (b' & h' & cb' & _ & VF').
    pose proof (vf_box _ _ _ _ _ _ _ _ _ _ VF') as Q. rewrite Eb in Q. injection Q as <-.
    apply (vf_cb _ _ _ _ _ _ _ _ _ _ VF' R). }
  destruct (Hall' k I) as (_ & (b & hk & B1 & B2 & B3) & _).
  destruct (stacked_bounds _ _ _ St ltac:(discriminate) Hall' k b I B1) as (Y1 & x & Y2 & Y3).
  exists bp, h, b, x. split; [apply VF|]. split; [apply VF, Ho|]. split; [exact B1|]. split; [exact Y1|]. split; [exact Y2|].
  destruct (vf_height _ _ _ _ _ _ _ _ _ _ VF) as [lb h E1 E2 E3|E1 E2 E3|u h E1 E2 E3 E4|u h0 h E1 E2 E3]; [| | |congruence].
  - apply last_box_some in E2. destruct E2 as (ks0 & kl & E2 & E4). eapply Y3; eauto.
  - apply last_box_none in E2. rewrite E2 in I. destruct I.
  - apply last_box_none in E2. rewrite E2 in I. destruct I.
Qed.

(** ** Explicit height *)

(** C77 (and the true part of C49).  The used height is the specified one,
    limited by max-height only. *)
Definition max_height_is (d : display_t) (op : option node) (s : style) (m : option Qc) : Prop :=
  match st_max_height s with
  | None => m = None
  | Some u => exists q, length_is (height_ctx sty d op) u q /\ m = Some q
  end.

Theorem C77_explicit_height : forall d h5 (n n' : node) op k u,
  layout sty d h5 n = (n', Ok tt) -> ready sty n -> laid sty n' op k -> is_block_level (sty (n_style k)) = true ->
  (op <> None \/ h5 = false) -> parent_ok sty h5 n' op -> st_height (sty (n_style k)) = Len u ->
  exists b h q m, n_box k = Some b /\ content_height b = LNum h
    /\ explicit_height sty d op u q /\ max_height_is d op (sty (n_style k)) m /\ nval h = at_most m q.
Proof.
  intros d h5 n n' op k u H R L Hb Ho Po Ha.
  destruct (laid_vertical_v sty _ _ _ _ _ _ H R L Hb Po) as (b & h & VF).
  destruct (vf_height _ _ _ _ _ _ _ _ _ _ VF) as [lb h E1 E2 E3|E1 E2 E3|u' h E1 E2 E3 E4|u' h0 h E1 E2 E3]; try congruence.
  rewrite Ha in E1. injection E1 as <-.
  exists b, h, (nval h0).
  exists (match st_max_height (sty (n_style k)) with None => None | Some m => match px (height_ctx sty d op) m with Ok x => Some (nval x) | Err _ => None end end).
  split; [apply VF|]. split; [apply VF, Ho|]. split; [|split].
  - destruct (parent_height sty op) as [pu|] eqn:Ep.
    + apply bindr_ok in E2. destruct E2 as (pp & P1 & P2). eapply eh_parent; [exact Ep|exact P1|]. exists h0. auto.
    + eapply eh_free; [exact Ep|]. exists h0. auto.
  - unfold max_height_is. destruct (st_max_height _) as [m|]; [|reflexivity]. destruct E3 as (mx & M1 & M2). rewrite M1.
    exists (nval mx). split; [exists mx; auto|reflexivity].
  - destruct (st_max_height _) as [m|].
    + destruct E3 as (mx & M1 & M2). rewrite M1, M2. cbn [at_most]. unfold nltb. destruct (qc_ltb _ _); reflexivity.
    + cbn [at_most]. congruence.
Qed.

(** C49, without min-height and for heights that are not percentages:
    the used height is the specified one or the maximum, whichever is smaller. *)
Lemma px_any_ctx c c' u : u_kind u <> KPct -> c_disp c = c_disp c' -> c_font c = c_font c' -> px c u = px c' u.
Proof. destruct c as [d1 f1 s1], c' as [d2 f2 s2]. cbn. intros H -> ->. unfold px, lu. cbn. destruct (u_kind u); try reflexivity. congruence. Qed.

Theorem C49_explicit_height_partial : forall d h5 (n n' : node) op k u,
  layout sty d h5 n = (n', Ok tt) -> ready sty n -> laid sty n' op k -> is_block_level (sty (n_style k)) = true ->
  (op <> None \/ h5 = false) -> parent_ok sty h5 n' op -> st_height (sty (n_style k)) = Len u ->
  (* specified as a length *)
  (u_kind u <> KPct -> exists b h q m, n_box k = Some b /\ content_height b = LNum h
     /\ length_is (height_ctx sty d op) u q /\ max_height_is d op (sty (n_style k)) m /\ nval h = at_most m q)
  /\ (* a percentage of the explicit height of the parent *)
  (forall pu P, u_kind u = KPct -> parent_height sty op = Some pu -> px (height_ctx sty d op) pu = Ok P ->
     exists b h q m, n_box k = Some b /\ content_height b = LNum h
     /\ length_is (mkCtx d dummy_font (LNum P)) u q /\ max_height_is d op (sty (n_style k)) m /\ nval h = at_most m q).
Proof.
  intros d h5 n n' op k u H R L Hb Ho Po Ha.
  destruct (C77_explicit_height _ _ _ _ _ _ _ H R L Hb Ho Po Ha) as (b & h & q & m & B1 & B2 & B3 & B4 & B5).
  split.
  - intros Np. exists b, h, q, m. split; [exact B1|]. split; [exact B2|]. split; [|auto].
    destruct B3 as [pu P q' P1 P2 P3|q' P1 P2]; [|exact P2]. unfold length_is in *.
    rewrite (px_any_ctx (height_ctx sty d op) (mkCtx d dummy_font (LNum P)) u Np eq_refl eq_refl). exact P3.
  - intros pu P Hp E1 E2. exists b, h, q, m. split; [exact B1|]. split; [exact B2|]. split; [|auto].
    destruct B3 as [pu' P' q' P1 P2 P3|q' P1 P2]; [|congruence].
    rewrite E1 in P1. injection P1 as <-. rewrite E2 in P2. apply Ok_inj in P2. subst. exact P3.
Qed.

(** ** The root *)

(** C50.  Whatever the document: with [b] the root box after the layout pass
    and before the final adjustment, the root is moved down by its collapsed
    top extent; in HTML5 mode its height and its extents fill the display; in
    HTML4 mode the height of the layout pass is kept.  For a static block the
    border box then starts at the collapsed top extent. *)
Theorem C50_root_fits_display : forall d h5 (n n' : node),
  layout sty d h5 n = (n', Ok tt) ->
  exists n1 b b', layout_box sty (height n) d dummy_font CBView (reset n) = (n1, Ok tt)
    /\ n_box n1 = Some b /\ n_box n' = Some b'
    /\ nval (content_top b') = nval (content_top b) + Z2Qc (collapse_top b')
    /\ collapse_top b' = collapse_top b /\ collapse_bottom b' = collapse_bottom b
    /\ (h5 = true -> exists h, content_height b' = LNum h
          /\ nval h + Z2Qc (collapse_top b') + Z2Qc (collapse_bottom b') = nval (disp_height d))
    /\ (h5 = false -> content_height b' = content_height b)
    /\ (ready sty n -> is_block_level (sty (n_style n')) = true -> is_relative (sty (n_style n')) = false ->
          nval (border_box_top b') = Z2Qc (collapse_top b')).
Proof.
  intros d h5 n n' H. pose proof H as H0. unfold layout in H. destruct (n_box n) as [bn|] eqn:En; [|discriminate].
  unfold mbind, mmod in H.
  destruct (layout_box sty (height n) d dummy_font CBView (reset n)) as [n1 r] eqn:E1.
  destruct r as [[]|]; [|discriminate].
  exists n1. unfold finish_root in H.
  destruct (n_box n1) as [b|] eqn:Eb; [|discriminate].
  destruct n1 as [s i bx1 ks]. cbn [n_box] in Eb. subst bx1.
  pose proof (strip_content_top (nadd (content_top b) (NI (collapse_top b))) s i b ks) as X.
  destruct (set_content_top _ _) as [s' i' bx' ks'] eqn:Es. cbn [strip] in X. injection X as -> -> X2 X3.
  destruct bx' as [b1|]; [|discriminate]. injection X2 as X2.
  assert (Y : nval (content_top b1) = nval (content_top b) + Z2Qc (collapse_top b) /\ collapse_top b1 = collapse_top b
     /\ collapse_bottom b1 = collapse_bottom b /\ content_height b1 = content_height b).
  { unfold move_top in X2. split.
    - transitivity (nval (content_top (sb b1))); [destruct b1; reflexivity|]. rewrite X2.
      transitivity (nval (setn (nadd (content_top b) (NI (collapse_top b))) (content_top b))).
      { destruct b; reflexivity. }
      rewrite setn_val, nval_add. reflexivity.
    - destruct b, b1; cbn in *. injection X2. intros. subst. auto. }
  destruct Y as (Y1 & Y2 & Y3 & Y4).
  assert (Top : ready sty n -> is_block_level (sty (n_style n')) = true -> is_relative (sty (n_style n')) = false ->
     forall b', n_box n' = Some b' -> nval (border_box_top b') = Z2Qc (collapse_top b')).
  { intros R Hbl Hr b' Eb'. destruct (laid_vertical sty _ _ _ _ None n' H0) as (b2 & h2 & cb2 & _ & VF); [|exact Hbl|].
    - apply laid_root. unfold displayed. unfold is_block_level in Hbl. destruct (st_display _); congruence.
    - pose proof (vf_box _ _ _ _ _ _ _ _ _ _ VF) as Q. rewrite Eb' in Q. injection Q as <-.
      apply (vf_top _ _ _ _ _ _ _ _ _ _ VF R eq_refl Hr). }
  destruct h5; cbn in H; injection H as <-.
  - exists b, (upd_content_height (LNum (nsub (nsub (disp_height d) (NI (collapse_top b))) (NI (collapse_bottom b)))) b1).
    split; [reflexivity|]. split; [reflexivity|]. split; [reflexivity|].
    assert (Z : forall v, content_top (upd_content_height v b1) = content_top b1 /\ collapse_top (upd_content_height v b1) = collapse_top b1
      /\ collapse_bottom (upd_content_height v b1) = collapse_bottom b1 /\ content_height (upd_content_height v b1) = v) by (intros; destruct b1; auto).
    destruct (Z (LNum (nsub (nsub (disp_height d) (NI (collapse_top b))) (NI (collapse_bottom b))))) as (Z1 & Z2 & Z3 & Z4).
    rewrite Z1, Z2, Z3, Z4, Y2, Y3. split; [exact Y1|]. split; [reflexivity|]. split; [reflexivity|]. split.
    + intros _. eexists. split; [reflexivity|]. rewrite !nval_sub. cbn [nval]. ring.
    + split; [discriminate|]. intros R Hbl Hr. specialize (Top R Hbl Hr _ eq_refl). rewrite Z2, Y2 in Top. exact Top.
  - exists b, b1. split; [reflexivity|]. split; [reflexivity|]. split; [reflexivity|].
    rewrite Y2, Y3, Y4. split; [exact Y1|]. split; [reflexivity|]. split; [reflexivity|]. split; [discriminate|]. split; [reflexivity|].
    intros R Hbl Hr. specialize (Top R Hbl Hr _ eq_refl). rewrite Y2 in Top. exact Top.
Qed.

(** ** Collapsed extents *)

(** C78 (and the true part of C61): what the collapsed extents of a block are. *)
Theorem C78_collapsed_extents : forall d h5 (n n' : node) op k,
  layout sty d h5 n = (n', Ok tt) -> ready sty n -> laid sty n' op k -> is_block_level (sty (n_style k)) = true ->
  exists b, n_box k = Some b
    /\ collapse_top b = Z.max (whole (margin_top b)) (first_extent sty k)
    /\ (* the last child of a block of auto height *)
       (forall ks kl bl, st_height (sty (n_style k)) = Auto -> n_kids k = ks ++ [kl] -> n_box kl = Some bl ->
          collapse_bottom b = Z.max (whole (margin_bottom b)) (collapse_bottom bl))
    /\ (st_height (sty (n_style k)) <> Auto \/ n_kids k = [] -> collapse_bottom b = whole (margin_bottom b)).
Proof.
  intros d h5 n n' op k H R L Hb. destruct (laid_vertical sty _ _ _ _ _ _ H L Hb) as (b & h & cb & _ & VF).
  exists b. split; [apply VF|]. split; [apply VF, R|]. destruct (vf_cb _ _ _ _ _ _ _ _ _ _ VF R) as [E _]. split.
  - intros ks kl bl Ha Ek Eb. rewrite E. unfold last_extent, last_box. rewrite Ha, Ek, rev_app_distr. cbn [rev app].
    rewrite Eb, grow_max. reflexivity.
  - intros [Ha|Ek]; rewrite E; unfold last_extent.
    + destruct (st_height _); [congruence|reflexivity].
    + rewrite Ek. cbn [last_box rev]. destruct (st_height _); reflexivity.
Qed.

(** C61, without the last clause (sibling gaps use the plain top margin of the
    following sibling, see the refutation). *)
Theorem C61_collapse_top_chain_partial : forall d h5 (n n' : node) op k,
  layout sty d h5 n = (n', Ok tt) -> ready sty n -> laid sty n' op k -> is_block_level (sty (n_style k)) = true ->
  exists b, n_box k = Some b /\ collapse_top b = Z.max (whole (margin_top b)) (first_extent sty k).
Proof.
  intros d h5 n n' op k H R L Hb. destruct (C78_collapsed_extents _ _ _ _ _ _ H R L Hb) as (b & B1 & B2 & _). eauto.
Qed.
End Props.
Print Assumptions C75_block_stacking.
Print Assumptions C47_stacking_partial.
Print Assumptions C48_auto_height_partial.
Print Assumptions C76_auto_height_encloses.
Print Assumptions C77_explicit_height.
Print Assumptions C49_explicit_height_partial.
Print Assumptions C50_root_fits_display.
Print Assumptions C78_collapsed_extents.
Print Assumptions C61_collapse_top_chain_partial.

(** ** Where the full statements fail *)
(** C47: the last child of the first sibling has a bottom margin of 30px; the
    siblings have no margins themselves, yet are 30px apart. *)
Theorem C47_plain_margins_refuted : exists (n n' : doc) k1 k2 b1 b2 bottom,
  boxed n /\ layout idsty screen true n = (n', Ok tt) /\ n_kids n' = [k1; k2]
  /\ n_box k1 = Some b1 /\ n_box k2 = Some b2 /\ border_box_bottom b1 = Ok bottom
  /\ lq (margin_bottom b1) = Some 0%Q /\ lq (margin_top b2) = Some 0%Q
  /\ nval (border_box_top b2) = nval bottom + Z2Qc 30.
Proof.
  set (n := el block_style [el block_style [el (vmargin 0 30 (hpx 10 block_style)) []]; el (hpx 10 block_style) []]).
  exists n, (out true n), (kid 0 (out true n)), (kid 1 (out true n)), (bx (kid 0 (out true n))), (bx (kid 1 (out true n))), (NI 10).
  split; [solve_boxed|]. split; [apply ok_layout; vm_compute; reflexivity|].
  do 6 (split; [vm_compute; reflexivity|]). apply qc_eq. vm_compute. reflexivity.
Qed.

(** C48: a trailing inline child is not laid out and counts as the last child:
    the parent is 0 tall although its first child is 40 tall. *)
Theorem C48_trailing_inline_refuted : exists (n n' : doc) p k bp b x,
  boxed n /\ layout idsty screen true n = (n', Ok tt) /\ laid idsty n' (Some n') p /\ laid idsty n' (Some p) k
  /\ is_block_level (n_style p) = true /\ st_height (n_style p) = Auto /\ is_relative (n_style k) = false
  /\ n_box p = Some bp /\ n_box k = Some b /\ lq (content_height bp) = Some 0%Q
  /\ border_box_bottom b = Ok x /\ nval x = Z2Qc 40.
Proof.
  set (n := el block_style [el block_style [el (hpx 40 block_style) []; el (s_display (Some DInline) block_style) []]]).
  exists n, (out true n), (kid 0 (out true n)), (kid 0 (kid 0 (out true n))), (bx (kid 0 (out true n))), (bx (kid 0 (kid 0 (out true n)))), (NI 40).
  split; [solve_boxed|]. split; [apply ok_layout; vm_compute; reflexivity|].
  split; [laid_tac|]. split; [laid_tac|].
  do 7 (split; [vm_compute; reflexivity|]). apply qc_eq. vm_compute. reflexivity.
Qed.

(** C49: min-height 50px does not raise an explicit height of 20px. *)
Theorem C49_min_height_refuted : exists (n n' : doc) k b h u m,
  boxed n /\ layout idsty screen true n = (n', Ok tt) /\ laid idsty n' (Some n') k
  /\ is_block_level (n_style k) = true /\ n_box k = Some b /\ content_height b = LNum h
  /\ st_height (n_style k) = Len u /\ st_min_height (n_style k) = Len m
  /\ length_is (height_ctx idsty screen (Some n')) m (Z2Qc 50) /\ nval h < Z2Qc 50.
Proof.
  set (n := el block_style [el (s_limits Auto (Len (pxu 50)) None None (hpx 20 block_style)) []]).
  exists n, (out true n), (kid 0 (out true n)), (bx (kid 0 (out true n))), (NI 20), (pxu 20), (pxu 50).
  split; [solve_boxed|]. split; [apply ok_layout; vm_compute; reflexivity|]. split; [laid_tac|].
  do 5 (split; [vm_compute; reflexivity|]). split; [eexists; split; [vm_compute; reflexivity|apply qc_eq; vm_compute; reflexivity]|].
  vm_compute. reflexivity.
Qed.

(** C61: the second sibling has a collapsed top extent of 30 (from its first
    child), but touches the first sibling. *)
Theorem C61_sibling_gap_refuted : exists (n n' : doc) k1 k2 b1 b2 bottom,
  boxed n /\ layout idsty screen true n = (n', Ok tt) /\ n_kids n' = [k1; k2]
  /\ n_box k1 = Some b1 /\ n_box k2 = Some b2 /\ border_box_bottom b1 = Ok bottom
  /\ collapse_top b2 = 30%Z /\ nval (border_box_top b2) = nval bottom.
Proof.
  set (n := el block_style [el (hpx 10 block_style) []; el block_style [el (vmargin 30 0 (hpx 10 block_style)) []]]).
  exists n, (out true n), (kid 0 (out true n)), (kid 1 (out true n)), (bx (kid 0 (out true n))), (bx (kid 1 (out true n))), (NI 10).
  split; [solve_boxed|]. split; [apply ok_layout; vm_compute; reflexivity|].
  do 5 (split; [vm_compute; reflexivity|]). apply qc_eq. vm_compute. reflexivity.
Qed.

(** ** A concrete instance of the hypotheses *)
(** Three stacked children (the second with a child of its own whose margins
    show through), then an explicit height in percent of an explicit height
    with a maximum. *)
Definition v_kids : list doc :=
  [ el (vmargin 4 6 (hpx 10 block_style)) [];
    el (vmargin 9 2 (s_padding (pxu 3) zero_px (pxu 5) zero_px block_style)) [el (vmargin 12 20 (hpx 7 block_style)) []];
    el (vmargin 11 0 (hpx 100 block_style)) [el (s_limits Auto Auto None (Some (pxu 30)) (s_size Auto (Len (pctu 50)) block_style)) []];
    el (s_limits Auto (Len (pxu 15)) None None block_style) [] ].
Definition v_doc : doc := el (vmargin 1 0 block_style) v_kids.

Example vertical_example :
  boxed v_doc /\ layout idsty screen false v_doc = (out false v_doc, Ok tt)
  /\ laid idsty (out false v_doc) None (out false v_doc)
  /\ establishes_inline idsty (out false v_doc) = false /\ in_flow idsty (out false v_doc) (n_kids (out false v_doc))
  /\ map (fun k => (this (nval (border_box_top (bx k))), lq (content_height (bx k)), collapse_top (bx k), collapse_bottom (bx k)))
       (n_kids (out false v_doc))
     = [ (0, Some 10, 4%Z, 6%Z); (19, Some 7, 12%Z, 20%Z); (54, Some 100, 11%Z, 0%Z); (154, Some 15, 0%Z, 0%Z) ]%Q
  /\ lq (content_height (bx (kid 0 (kid 2 (out false v_doc))))) = Some 30%Q
  /\ lq (content_height (bx (out false v_doc))) = Some 169%Q
  /\ collapse_top (bx (out false v_doc)) = 4%Z
  /\ (forall k, In k (n_kids (out false v_doc)) -> is_block_level (n_style k) = true /\ is_relative (n_style k) = false /\ tall k).
Proof.
  split; [solve_boxed|]. split; [apply ok_layout; vm_compute; reflexivity|]. split; [laid_tac|].
  split; [vm_compute; reflexivity|]. split.
  { exists []. split; [symmetry; apply app_nil_r|]. split; [|intros k []]. apply forallb_forall. vm_compute. reflexivity. }
  do 4 (split; [vm_compute; reflexivity|]).
  assert (E : n_kids (out false v_doc) = [kid 0 (out false v_doc); kid 1 (out false v_doc); kid 2 (out false v_doc); kid 3 (out false v_doc)])
    by (vm_compute; reflexivity).
  rewrite E. clear E. intros k H.
  repeat (destruct H as [<-|H]; [split; [vm_compute; reflexivity|]; split; [vm_compute; reflexivity|];
    eexists; eexists; split; [vm_compute; reflexivity|]; split; [vm_compute; reflexivity|vm_compute; discriminate]|]).
  destruct H.
Qed.
(** The HTML5 root fills the display: 600 = 596 + 4 + 0. *)
Example root_example :
  layout idsty screen true v_doc = (out true v_doc, Ok tt)
  /\ lq (content_height (bx (out true v_doc))) = Some 596%Q /\ collapse_top (bx (out true v_doc)) = 4%Z
  /\ this (nval (border_box_top (bx (out true v_doc)))) = 4%Q.
Proof. split; [apply ok_layout; vm_compute; reflexivity|]. do 2 (split; [vm_compute; reflexivity|]). vm_compute. reflexivity. Qed.
Print Assumptions C47_plain_margins_refuted.
Print Assumptions C48_trailing_inline_refuted.
Print Assumptions C49_min_height_refuted.
Print Assumptions C61_sibling_gap_refuted.

(** ** The hypotheses of each theorem, for parts of [v_doc] *)
Ltac vcase_tac := repeat match goal with
  | |- _ /\ _ => split
  | |- layout idsty screen _ _ = _ => apply ok_layout; vm_compute; reflexivity
  | |- laid idsty _ _ _ => solve [laid_tac]
  | |- ready idsty _ => apply boxed_ready; solve_boxed
  | |- boxed _ => solve_boxed
  | |- parent_ok _ _ _ _ => intros ?; vm_compute in *; congruence
  | |- _ => vm_compute; reflexivity
  | |- _ => vm_compute; discriminate
  end.
Notation v_out := (out false v_doc).
Notation v_kid i := (kid i (out false v_doc)).
Example C75_example : layout idsty screen false v_doc = (v_out, Ok tt) /\ ready idsty v_doc /\ laid idsty v_out None v_out
  /\ establishes_inline idsty v_out = false /\ length (n_kids v_out) = 4%nat.
Proof. vcase_tac. Qed.
Example C47_example : layout idsty screen false v_doc = (v_out, Ok tt) /\ ready idsty v_doc /\ laid idsty v_out None v_out
  /\ establishes_inline idsty v_out = false /\ in_flow idsty v_out (n_kids v_out)
  /\ is_relative (n_style (v_kid 0)) = false /\ is_relative (n_style (v_kid 1)) = false /\ this (nval (border_box_top (bx (v_kid 1)))) = 19%Q.
Proof. split; [vcase_tac|]. split; [vcase_tac|]. split; [vcase_tac|]. split; [vcase_tac|]. split; [apply vertical_example|vcase_tac]. Qed.
Example C48_example : layout idsty screen false v_doc = (v_out, Ok tt) /\ ready idsty v_doc /\ laid idsty v_out (Some v_out) (v_kid 1)
  /\ is_block_level (n_style (v_kid 1)) = true /\ parent_ok idsty false v_out (Some v_out) /\ st_height (n_style (v_kid 1)) = Auto
  /\ length (n_kids (v_kid 1)) = 1%nat /\ lq (content_height (bx (v_kid 1))) = Some 7%Q.
Proof. vcase_tac. Qed.
Example C76_example : layout idsty screen false v_doc = (v_out, Ok tt) /\ ready idsty v_doc /\ laid idsty v_out None v_out /\ is_block_level (n_style v_out) = true
  /\ st_height (n_style v_out) = Auto /\ establishes_inline idsty v_out = false
  /\ (forall k, In k (n_kids v_out) -> is_block_level (n_style k) = true /\ is_relative (n_style k) = false /\ tall k).
Proof. do 6 (split; [vcase_tac|]). apply vertical_example. Qed.
(** 50% of 100px, limited to 30px. *)
Example C77_example : layout idsty screen false v_doc = (v_out, Ok tt) /\ ready idsty v_doc /\ laid idsty v_out (Some (v_kid 2)) (kid 0 (v_kid 2))
  /\ is_block_level (n_style (kid 0 (v_kid 2))) = true /\ parent_ok idsty false v_out (Some (v_kid 2))
  /\ st_height (n_style (kid 0 (v_kid 2))) = Len (pctu 50) /\ lq (content_height (bx (kid 0 (v_kid 2)))) = Some 30%Q.
Proof. vcase_tac. Qed.
Example C49_example : layout idsty screen false v_doc = (v_out, Ok tt) /\ ready idsty v_doc /\ laid idsty v_out (Some (v_kid 2)) (kid 0 (v_kid 2))
  /\ is_block_level (n_style (kid 0 (v_kid 2))) = true /\ parent_ok idsty false v_out (Some (v_kid 2))
  /\ st_height (n_style (kid 0 (v_kid 2))) = Len (pctu 50) /\ u_kind (pctu 50) = KPct /\ parent_height idsty (Some (v_kid 2)) = Some (pxu 100)
  /\ px (height_ctx idsty screen (Some (v_kid 2))) (pxu 100) = Ok (NI 100).
Proof. vcase_tac. Qed.
Example C50_example : layout idsty screen true v_doc = (out true v_doc, Ok tt) /\ ready idsty v_doc /\ is_block_level (n_style (out true v_doc)) = true
  /\ is_relative (n_style (out true v_doc)) = false /\ lq (content_height (bx (out true v_doc))) = Some 596%Q.
Proof. vcase_tac. Qed.
Example C78_example : layout idsty screen false v_doc = (v_out, Ok tt) /\ ready idsty v_doc /\ laid idsty v_out (Some v_out) (v_kid 1)
  /\ is_block_level (n_style (v_kid 1)) = true /\ (collapse_top (bx (v_kid 1)), collapse_bottom (bx (v_kid 1))) = (12, 20)%Z.
Proof. vcase_tac. Qed.
Example C61_example : layout idsty screen false v_doc = (v_out, Ok tt) /\ ready idsty v_doc /\ laid idsty v_out (Some v_out) (v_kid 1)
  /\ is_block_level (n_style (v_kid 1)) = true /\ collapse_top (bx (v_kid 1)) = 12%Z /\ lq (margin_top (bx (v_kid 1))) = Some 9%Q.
Proof. vcase_tac. Qed.
