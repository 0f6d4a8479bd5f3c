(** * Relative positioning and non-negative sizes: lemmas *)
From Coq Require Import ZArith QArith Qcanon Lqa Lia Bool List.
From Verif Require Import PyNum NumFacts Units UnitsSpec UnitsFacts BoxModel BoxSpec BoxFacts Engine EnginePure EngineFacts EngineSpec
  EngineTree EngineWidth EngineHeight.
Import ListNotations.
Open Scope Qc_scope.

Lemma rel_offset_shift c a z cs ce v : rel_offset c a z cs ce = Ok v -> a <> OInherit -> z <> OInherit -> shift_by c a z (nval v).
Proof.
  intros H Ha Hz. destruct a as [| |u]; [|congruence|].
  - destruct z as [| |w]; [|congruence|]; cbn in H.
    + apply Ok_inj in H. subst v. constructor.
    + apply bindr_ok in H. destruct H as (x & Hx & H). apply Ok_inj in H. subst v. rewrite nval_neg. constructor. exists x. auto.
  - apply sh_start. exists v. split; [destruct z; exact H|reflexivity].
Qed.

Section R.
Context {S : Type} (sty : S -> style).
Notation node := (node S).

Lemma laid_left d h5 (n n' : node) op k : layout sty d h5 n = (n', Ok tt) -> laid sty n' op k ->
  is_block_level (sty (n_style k)) = true ->
  exists b ml, n_box k = Some b /\ margin_left b = LNum ml
    /\ (is_relative (sty (n_style k)) = false ->
         nval (content_left b) = nval ml + nval (border_left_width b) + nval (padding_left b))
    /\ (is_relative (sty (n_style k)) = true -> st_left (sty (n_style k)) <> OInherit -> st_right (sty (n_style k)) <> OInherit ->
         exists q, shift_by (width_ctx d op) (st_left (sty (n_style k))) (st_right (sty (n_style k))) q
         /\ nval (content_left b) = nval ml + nval (border_left_width b) + nval (padding_left b) + q).
Proof.
  intros H L Hb. destruct (layout_laid sty _ _ _ _ _ _ H L) as (fuel & cb & kin & k0 & Hp & Hf & Hfin & Hcb).
  pose proof (cb_ctx sty _ _ d _ _ Hcb) as C1.
  destruct (call_inv sty _ _ _ _ _ _ False _ _ Hp ltac:(tauto) Hfin) as
    (s & i & bx & ks & b1 & b2 & ks' & b3 & b4 & b5 & b & S1 & S2 & S3 & S4 & _ & D & Fin & _ & W1 & W2 & A1 & A2 & Hc & W4 & W5).
  rewrite S1 in *. apply wphase_block in W1; [|exact Hb].
  destruct W1 as (F1 & F2 & F3 & W & ml & mr & cw & w0 & mts & mrs & mbs & mls & D1 & D2 & D3 & D4 & D5 & D6 & D7 & D8 & D9 & D10 & D11 & D12 & D13 & D14 & D15 & D16 & D17 & _).
  assert (E12 : hv b1 b2).
  { destruct (is_relative (sty s)); [apply hphase_hv in W2; exact W2|]. apply Ok_inj in W2. subst. apply hv_refl. }
  assert (E23 : hv b2 b3).
  { apply pchildren_kid in Hc. destruct Hc as [[kt ->] _]. destruct b2; repeat split. }
  apply hphase_hv in W4. pose proof (hv_trans _ _ _ (hv_trans _ _ _ E12 E23) W4) as [E14 L14].
  pose proof (shift_box_same_h _ _ _ _ _ _ W5) as E45.
  pose proof (final_same _ _ _ _ _ Fin) as (_ & _ & _ & b0 & bk & B0 & Bk & E56 & E56l & _).
  cbn [n_box] in B0. injection B0 as <-. rewrite n_box_strip, S4 in Bk. injection Bk as <-.
  assert (E : same_h b1 b).
  { eapply same_h_trans; [exact E14|]. eapply same_h_trans; [exact E45|]. eapply same_h_trans; [exact E56|]. destruct b; repeat split. }
  assert (El : content_left b = content_left b5) by (destruct b; exact E56l).
  exists b, ml. split; [exact S4|]. unfold same_h in E. destruct E as (Q1 & Q2 & Q3 & Q4 & Q5 & Q6 & Q7 & Q8 & Q9 & Q10 & Q11).
  split; [congruence|]. rewrite Q3, Q7, El. split.
  - intros R. rewrite (shift_box_static _ _ _ _ _ _ W5 R). rewrite L14. exact D17.
  - intros R I1 I2. unfold shift_box in W5. rewrite R, C1 in W5. inv_ok.
    exists (nval x). split; [eapply rel_offset_shift; eassumption|]. subst b5.
    transitivity (nval (setn (nadd (content_left b4) x) (content_left b4))).
    { unfold move_top, move_left. destruct b4; reflexivity. }
    rewrite setn_val, nval_add, L14, D17. reflexivity.
Qed.

(** ** Non-negative geometry *)
Lemma nonneg_len d u c q : nonneg_length d u -> c_disp c = d -> length_is c u q -> 0 <= q.
Proof. intros H E (p & P & <-). destruct c as [d' f x]. cbn in E. subst d'. exact (H f x p P). Qed.
Lemma nonneg_specified d v c q : (forall u, v = Len u -> nonneg_length d u) -> c_disp c = d -> specified c v q -> 0 <= q.
Proof. intros H E Sp. destruct Sp as [|u q Hq]; [apply Qcle_refl|]. eapply nonneg_len; [apply H; reflexivity|exact E|exact Hq]. Qed.
Lemma nonneg_border d v c x : (forall u, v = BLen u -> nonneg_length d u) -> (forall k, 0 <= nval (fixed_size d k)) -> c_disp c = d ->
  calc_border c v = Ok x -> 0 <= nval x.
Proof.
  intros H F E. destruct v as [k|u]; cbn.
  - intros X. apply Ok_inj in X. subst x. rewrite E. apply F.
  - rewrite calc_len_px. intros X. eapply nonneg_len; [apply H; reflexivity|exact E|]. exists x. auto.
Qed.
Lemma nonneg_calc_len d u c x : nonneg_length d u -> c_disp c = d -> calc_len c u = Ok x -> 0 <= nval x.
Proof. rewrite calc_len_px. intros H E X. eapply nonneg_len; [exact H|exact E|]. exists x. auto. Qed.

Lemma qc_nonneg_add a b : 0 <= a -> 0 <= b -> 0 <= a + b.
Proof. intros. qclra. Qed.

Ltac units := unfold style_units; rewrite !in_app_iff; cbn [In].

Record nonneg_box (b : box) : Prop := {
  nn_bt : 0 <= nval (border_top_width b); nn_br : 0 <= nval (border_right_width b);
  nn_bb : 0 <= nval (border_bottom_width b); nn_bl : 0 <= nval (border_left_width b);
  nn_pt : 0 <= nval (padding_top b); nn_pr : 0 <= nval (padding_right b);
  nn_pb : 0 <= nval (padding_bottom b); nn_pl : 0 <= nval (padding_left b);
  nn_mt : exists mt, margin_top b = LNum mt /\ 0 <= nval mt;
  nn_mb : exists mb, margin_bottom b = LNum mb /\ 0 <= nval mb }.

Lemma laid_nonneg_edges d h5 (n n' : node) op k b : layout sty d h5 n = (n', Ok tt) -> laid sty n' op k ->
  is_block_level (sty (n_style k)) = true -> nonneg_style d (sty (n_style k)) -> n_box k = Some b -> nonneg_box b.
Proof.
  intros H L Hb [N F] Eb.
  destruct (laid_width sty _ _ _ _ _ _ H L Hb) as (_ & b' & cb & B & C & WF). rewrite Eb in B. injection B as <-.
  destruct (wf_edges _ _ _ _ _ WF) as (E1 & E2 & E3 & E4 & E5 & E6 & E7 & E8).
  destruct (laid_vertical sty _ _ _ _ _ _ H L Hb) as (b' & h & cb' & C' & VF).
  pose proof (vf_box _ _ _ _ _ _ _ _ _ _ VF) as B. rewrite Eb in B. injection B as <-.
  destruct (vf_mt _ _ _ _ _ _ _ _ _ _ VF) as (mt & M1 & M2). destruct (vf_mb _ _ _ _ _ _ _ _ _ _ VF) as (mb & M3 & M4).
  assert (B : forall v, In v [st_border_top (sty (n_style k)); st_border_right (sty (n_style k)); st_border_bottom (sty (n_style k)); st_border_left (sty (n_style k))] ->
     forall u, v = BLen u -> nonneg_length d u).
  { intros v I u ->. apply N. units. assert (X : forall w, w = BLen u -> In u (bw_units w)) by (intros w ->; left; reflexivity).
    cbn [In] in I. intuition (auto 30). }
  assert (P : forall u, In u [st_padding_top (sty (n_style k)); st_padding_right (sty (n_style k)); st_padding_bottom (sty (n_style k)); st_padding_left (sty (n_style k))] ->
     nonneg_length d u) by (intros u I; apply N; units; tauto).
  assert (M : forall v, In v [st_margin_top (sty (n_style k)); st_margin_bottom (sty (n_style k))] ->
     forall u, v = Len u -> nonneg_length d u).
  { intros v I u ->. apply N. units. assert (X : forall w, w = Len u -> In u (la_units w)) by (intros w ->; left; reflexivity).
    cbn [In] in I. intuition (auto 30). }
  assert (Dv : forall cb, c_disp (@vctx S d dummy_font cb) = d) by reflexivity.
  split.
  - refine (nonneg_border _ _ _ _ _ F _ E1); [apply B; cbn; tauto|reflexivity].
  - refine (nonneg_border _ _ _ _ _ F _ E2); [apply B; cbn; tauto|apply Dv].
  - refine (nonneg_border _ _ _ _ _ F _ E3); [apply B; cbn; tauto|reflexivity].
  - refine (nonneg_border _ _ _ _ _ F _ E4); [apply B; cbn; tauto|apply Dv].
  - refine (nonneg_calc_len _ _ _ _ _ _ E5); [apply P; cbn; tauto|reflexivity].
  - refine (nonneg_calc_len _ _ _ _ _ _ E6); [apply P; cbn; tauto|apply Dv].
  - refine (nonneg_calc_len _ _ _ _ _ _ E7); [apply P; cbn; tauto|reflexivity].
  - refine (nonneg_calc_len _ _ _ _ _ _ E8); [apply P; cbn; tauto|apply Dv].
  - exists mt. split; [exact M1|]. refine (nonneg_specified _ _ _ _ _ _ M2); [apply M; cbn; tauto|apply Dv].
  - exists mb. split; [exact M3|]. refine (nonneg_specified _ _ _ _ _ _ M4); [apply M; cbn; tauto|apply Dv].
Qed.

(** Static block flow with non-negative lengths. *)
Definition plain_block (d : display_t) (s : S) (i : size) : Prop :=
  In (st_display (sty s)) [Some DBlock; Some DListItem] /\ st_position (sty s) = PStatic /\ s_replaced i = false
  /\ nonneg_style d (sty s).

Lemma plain_block_facts d s i : plain_block d s i -> is_block_level (sty s) = true /\ is_relative (sty s) = false
  /\ is_block_container (sty s) i = true.
Proof.
  intros (D & P & R & _). unfold is_block_level, is_relative, is_block_container. cbn in D. destruct D as [D|[D|[]]].
  - rewrite <- D, P, R. repeat split; reflexivity.
  - rewrite <- D, P, R. repeat split; reflexivity.
Qed.

Lemma stacked_nonneg (ks : list node) : forall top prev, stacked sty top prev ks -> 0 <= top ->
  (forall k, In k ks -> is_relative (sty (n_style k)) = false) ->
  (forall k b h, In k ks -> n_box k = Some b -> border_box_height b = Ok h -> 0 <= nval h) ->
  (forall k b mt, In k ks -> n_box k = Some b -> margin_top b = LNum mt -> 0 <= nval mt) ->
  forall k b x, In k ks -> n_box k = Some b -> border_box_bottom b = Ok x -> 0 <= nval x.
Proof.
  induction ks as [|k0 ks IH]; intros top prev St Ht Hr Hh Hm k b x I E X; [destruct I|].
  inversion St as [|top1 prev1 k' b1 mt1 h1 ks1 E1 E2 E3 E4 E5]; subst.
  assert (G : 0 <= gap prev (nval mt1)).
  { pose proof (Hm k0 b1 mt1 (or_introl eq_refl) E1 E2) as M. unfold gap. destruct prev as [z|]; [|apply Qcle_refl].
    unfold qc_max. destruct (qc_ltb_spec (Z2Qc z) (nval mt1)) as [Q|Q]; [exact M|]. apply Qcnot_lt_le in Q. eapply Qcle_trans; eassumption. }
  pose proof (Hh k0 b1 h1 (or_introl eq_refl) E1 E3) as Gh.
  destruct I as [<-|I].
  - rewrite E1 in E. injection E as <-. specialize (E4 (Hr k0 (or_introl eq_refl))).
    unfold border_box_bottom, content_bottom, border_box_height in *. destruct (content_height b1) as [ch| |]; try discriminate.
    cbn in E3, X. apply Ok_inj in E3, X. subst h1 x. unfold border_box_top in E4. rewrite ?nval_add, ?nval_sub in *.
    clear -Ht G Gh E4. qclra.
  - eapply IH; try eassumption.
    + clear -Ht G Gh. qclra.
    + intros. apply Hr. right. assumption.
    + intros. eapply Hh; [right|..]; eassumption.
    + intros. eapply Hm; [right|..]; eassumption.
Qed.

Lemma laid_nonneg_height d h5 (n n' : node) : layout sty d h5 n = (n', Ok tt) -> ready sty n ->
  forall k op b, laid sty n' op k -> every_node (plain_block d) k -> n_box k = Some b -> op <> None \/ h5 = false ->
  exists h, content_height b = LNum h /\ 0 <= nval h.
Proof.
  intros H R. induction k as [s i bx ks IH] using node_ind'. intros op b L E Eb Ho.
  inversion E as [? ? ? ? P Pk]; subst. cbn [n_box] in Eb. subst bx.
  destruct (plain_block_facts _ _ _ P) as (F1 & F2 & F3). destruct P as (_ & _ & _ & N & NF).
  destruct (laid_vertical sty _ _ _ _ _ _ H L F1) as (b' & h & cb & C & VF).
  pose proof (vf_box _ _ _ _ _ _ _ _ _ _ VF) as B. cbn [n_box] in B. injection B as <-.
  exists h. split; [exact (vf_used _ _ _ _ _ _ _ _ _ _ VF Ho)|].
  pose proof (vf_height _ _ _ _ _ _ _ _ _ _ VF) as BH. cbn [n_style n_kids] in BH.
  assert (Dv : c_disp (@vctx S d dummy_font cb) = d) by reflexivity.
  inversion BH as [lb x A1 A2 A3|A1 A2 A3|u x A1 A2 A3 A4|u h0 x A1 A2 A3]; subst.
  - (* the last child *)
    unfold last_box in A2. destruct (rev ks) as [|kl kr] eqn:Er; [discriminate|]. injection A2 as A2.
    assert (Il : In kl ks) by (rewrite in_rev, Er; left; reflexivity).
    assert (Pall : forall k, In k ks -> is_block_level (sty (n_style k)) = true /\ is_relative (sty (n_style k)) = false /\ nonneg_style d (sty (n_style k))).
    { intros k I. specialize (Pk k I). inversion Pk as [s1 i1 b1 ks1 P1 _]; subst. cbn. destruct (plain_block_facts _ _ _ P1) as (X1 & X2 & _).
      split; [exact X1|]. split; [exact X2|]. apply P1. }
    assert (Ei : establishes_inline sty (Node s i (Some b) ks) = false).
    { unfold establishes_inline. cbn [n_style n_intr n_kids]. rewrite F3. apply negb_false_iff, existsb_exists.
      exists kl. split; [exact Il|]. apply Pall, Il. }
    destruct (laid_stacked sty _ _ _ _ _ _ H R L Ei) as (pre & (suf & Es & Q1 & Q2) & St). cbn [n_kids] in Es.
    assert (suf = []).
    { destruct suf as [|k suf]; [reflexivity|]. specialize (Q2 k (or_introl eq_refl)).
      destruct (Pall k) as (X & _); [rewrite Es; apply in_or_app; right; left; reflexivity|]. congruence. }
    subst suf. rewrite app_nil_r in Es. subst pre.
    assert (Lk : forall k, In k ks -> laid sty n' (Some (Node s i (Some b) ks)) k).
    { intros k I. eapply laid_kid; [exact L|exact I| |right; apply Pall, I].
      destruct (Pall k I) as (X & _). intros Q. unfold is_block_level in X. rewrite Q in X. discriminate. }
    assert (Ne : forall k bk, In k ks -> n_box k = Some bk -> nonneg_box bk).
    { intros k bk I Ek. destruct (Pall k I) as (X1 & X2 & X3). eapply laid_nonneg_edges; [exact H|exact (Lk k I)|exact X1|exact X3|exact Ek]. }
    eapply (stacked_nonneg ks 0 None St); [apply Qcle_refl|intros k I; apply Pall, I| | |exact Il|exact A2|exact A3].
    + intros k bk hk I Ek Eh. destruct (IH k I (Some (Node s i (Some b) ks)) bk (Lk k I) (Pk k I) Ek) as (ch & C1 & C2); [left; discriminate|].
      destruct (Ne k bk I Ek) as [X1 _ X3 _ X5 _ X7 _ _ _].
      unfold border_box_height in Eh. rewrite C1 in Eh. cbn in Eh. apply Ok_inj in Eh. subst hk. rewrite !nval_add.
      clear -X1 X3 X5 X7 C2. qclra.
    + intros k bk mt I Ek Em. destruct (Ne k bk I Ek) as [_ _ _ _ _ _ _ _ (mt' & X1 & X2) _]. congruence.
  - apply Qcle_refl.
  - eapply nonneg_len; [apply N; unfold style_units; rewrite A3, !in_app_iff; cbn [la_units In]; tauto|exact Dv|]. exists h. auto.
  - assert (Nu : nonneg_length d u) by (apply N; unfold style_units; rewrite A1, !in_app_iff; cbn [la_units In]; tauto).
    assert (G : 0 <= nval h0).
    { destruct (cb_style_height sty cb) as [pu|].
      - apply bindr_ok in A2. destruct A2 as (p & _ & A2). eapply nonneg_len; [exact Nu| |exists h0; split; [exact A2|reflexivity]]. reflexivity.
      - eapply nonneg_len; [exact Nu| |exists h0; split; [exact A2|reflexivity]]. reflexivity. }
    destruct (st_max_height (sty s)) as [m|] eqn:Em; [|subst h; exact G].
    destruct A3 as (mx & M1 & ->). destruct (nltb mx h0); [|exact G].
    eapply nonneg_len; [apply N; unfold style_units; rewrite Em, !in_app_iff; cbn [op_units In]; tauto|exact Dv|]. exists mx. auto.
Qed.
End R.
