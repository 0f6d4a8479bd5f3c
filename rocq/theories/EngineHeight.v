(** * Facts about vertical geometry after layout *)
From Coq Require Import ZArith QArith Qcanon Qround Lqa Lia Bool List.
From Verif Require Import PyNum NumFacts Units UnitsFacts BoxModel BoxSpec BoxFacts Engine EnginePure EngineFacts EngineSpec EngineTree EngineWidth.
Import ListNotations.
Open Scope Qc_scope.

Lemma zero_auto_notnone v : v <> LNone -> exists x, zero_auto v = LNum x.
Proof. destruct v; cbn; intros H; [eauto|eexists; reflexivity|congruence]. Qed.

Lemma whole_lset v : v <> LNone -> whole (zero_auto (lset v l0)) = cset v l0 0.
Proof.
  intros H. unfold lset, cset. destruct (leqb v l0) eqn:E; [reflexivity|].
  destruct v as [[z|q]| |]; cbn in *; try reflexivity; try congruence.
  destruct (0 <? z)%Z eqn:Ez; [apply Z.ltb_lt in Ez|apply Z.ltb_ge in Ez]; lia.
Qed.
Lemma cset_pos v old k : (0 <= k)%Z -> (0 <= cset v old k)%Z.
Proof. unfold cset, grow. intros H. destruct (leqb v old); [exact H|]. destruct v as [[z|q]| |]; try exact H.
  destruct (k <? z)%Z eqn:E; [apply Z.ltb_lt in E; lia|exact H]. Qed.
Lemma grow_max z k : grow (LNum (NI z)) k = Z.max k z.
Proof. cbn. destruct (k <? z)%Z eqn:E; [apply Z.ltb_lt in E|apply Z.ltb_ge in E]; lia. Qed.

Section H.
Context {S : Type} (sty : S -> style).
Notation node := (node S).
Notation plb := (plb sty).

(** ** Placement in a block formatting context *)
Inductive placed (Q : node -> Prop) : Qc -> option Z -> list node -> Prop :=
| placed_nil top bm : placed Q top bm []
| placed_cons top bm k1 kb t mt h ks :
    Q k1 -> n_box k1 = Some kb ->
    (bm <> None -> margin_top kb = LNum mt) -> border_box_height kb = Ok h ->
    nval t = nval (content_top kb) + (top + gap bm (nval mt)) ->
    placed Q (top + gap bm (nval mt) + nval h) (Some (collapse_bottom kb)) ks ->
    placed Q top bm (with_box (Some (upd_content_top t kb)) k1 :: ks).

Lemma flowed_placed (Q : node -> Prop) lay ks b off bm ks' b' : flowed sty lay ks b off bm ks' b' ->
  (forall bc k k1, In k ks -> lay bc k = Ok k1 -> n_style k1 = n_style k /\ Q k1) ->
  exists pre suf, ks' = pre ++ suf
    /\ (forall k, In k pre -> blk sty k = true) /\ (forall k, In k suf -> blk sty k = false)
    /\ placed Q (nval off) bm pre
    /\ b' = match bm, pre with
            | None, k :: _ => match n_box k with Some kb => set_collapse_top (LNum (NI (collapse_top kb))) b | None => b end
            | _, _ => b
            end.
Proof.
  induction 1 as [ks b off bm F|k ks b off bm k1 kb kb' b' off' bm' ks2 b2 Hb Hl Hk Hp Hf IH]; intros HQ.
  - exists [], ks. split; [reflexivity|]. split; [intros k []|]. split; [exact F|]. split; [constructor|].
    destruct bm; reflexivity.
  - destruct IH as (pre & suf & -> & P1 & P2 & P3 & P4).
    { intros. eapply HQ; [right; eassumption|eassumption]. }
    destruct (HQ b k k1 (or_introl eq_refl) Hl) as [Es Qk].
    exists (with_box (Some kb') k1 :: pre), suf. split; [reflexivity|]. split.
    { intros k' [<-|Hk']; [unfold blk; rewrite with_box_style, Es; exact Hb|apply P1, Hk']. }
    split; [exact P2|].
    unfold pplace in Hp. apply bindr_ok in Hp. destruct Hp as (o & Ho & Hp).
    apply bindr_ok in Hp. destruct Hp as (h & Hh & Hp). apply Ok_inj in Hp. injection Hp as <- <- <- <-.
    unfold move_top. split.
    + assert (M : exists mt, (bm <> None -> margin_top kb = LNum mt) /\ nval o = nval off + gap bm (nval mt)).
      { destruct bm as [m|].
        - apply bindr_ok in Ho. destruct Ho as (mt & Hm & Ho). apply Ok_inj in Ho. subst o. exists mt.
          split; [intros _; destruct (margin_top kb); [apply Ok_inj in Hm; congruence|discriminate|discriminate]|].
          rewrite nval_add, nval_max. reflexivity.
        - apply Ok_inj in Ho. subst o. exists n0. split; [congruence|]. cbn [gap]. ring. }
      destruct M as (mt & M1 & M2).
      eapply placed_cons with (mt := mt); [exact Qk|exact Hk|exact M1|exact Hh| |].
      * rewrite setn_val, nval_add, M2. reflexivity.
      * rewrite nval_add, M2 in P3. exact P3.
    + rewrite P4. rewrite with_box_box. destruct bm; [reflexivity|]. destruct kb; reflexivity.
Qed.

(** ** What a call does to a block-level node, vertically *)
Lemma set_vm_fields b mt mb kt kb : let b' := set_vm b mt mb kt kb in
  margin_top b' = mt /\ margin_bottom b' = mb /\ collapse_top b' = kt /\ collapse_bottom b' = kb
  /\ content_top b' = content_top b /\ content_height b' = content_height b /\ dirty b' = dirty b
  /\ border_top_width b' = border_top_width b /\ padding_top b' = padding_top b.
Proof. destruct b; repeat split. Qed.

Lemma shift_box_fix d f (cb : @cblock S) s b b' : shift_box d f cb s b = Ok b' ->
  margin_top b' = margin_top b /\ margin_bottom b' = margin_bottom b /\ collapse_top b' = collapse_top b
  /\ collapse_bottom b' = collapse_bottom b /\ content_height b' = content_height b /\ dirty b' = dirty b
  /\ content_width b' = content_width b.
Proof.
  unfold shift_box. destruct (is_relative s); intros H; inv_ok; subst; [|auto 10].
  unfold move_top, move_left. destruct b; repeat split.
Qed.

Lemma zero_auto_spec c v m old x : calc_margin c v = Ok m -> zero_auto (lset m old) = LNum x -> nval x = dflt (optv m).
Proof.
  intros H. pose proof (calc_margin_none _ _ _ H) as N. pose proof (lset_veq m old) as V.
  destruct m as [y| |]; [| |congruence].
  - destruct (lset (LNum y) old); cbn in *; try tauto. intros [= <-]. exact V.
  - rewrite lset_auto. cbn. intros [= <-]. reflexivity.
Qed.

(** Every successful call on a block-level node. *)
Lemma call_block fuel d f cb kin k0 : plb (Datatypes.S fuel) d f cb kin = Ok k0 ->
  is_block_level (sty (n_style k0)) = true ->
  exists b h mt mb, n_box k0 = Some b /\ content_height b = LNum h /\ margin_top b = LNum mt /\ margin_bottom b = LNum mb
    /\ block_height (sty (n_style k0)) (cb_style_height sty cb) (last_box (n_kids k0)) (vctx d f cb) h
    /\ (specified (vctx d f cb) (st_margin_top (sty (n_style k0))) (nval mt)
        /\ specified (vctx d f cb) (st_margin_bottom (sty (n_style k0))) (nval mb))
    /\ (fresh sty kin ->
         collapse_top b = Z.max (whole (margin_top b)) (first_extent sty k0)
         /\ collapse_bottom b = last_extent (sty (n_style k0)) (last_box (n_kids k0)) (whole (margin_bottom b))
         /\ (0 <= collapse_top b)%Z /\ (0 <= collapse_bottom b)%Z
         /\ (is_relative (sty (n_style k0)) = false -> nval (border_box_top b) = 0)
         /\ dirty b = Some true).
Proof.
  intros Hp Hb. destruct kin as [s i bx ks].
  assert (Es : n_style k0 = s) by (apply plb_style in Hp; apply Hp).
  rewrite Es in Hb.
  assert (D : st_display (sty s) <> None) by (unfold is_block_level in Hb; destruct (st_display (sty s)); congruence).
  pose proof (plb_inputs sty _ _ _ _ _ _ Hp) as Hin.
  apply plb_inv in Hp; [|exact D].
  destruct Hp as (b1 & b2 & ks' & b3 & b4 & b5 & -> & W1 & W2 & A1 & A2 & Hc & W4 & W5).
  cbn [n_style n_kids n_box] in *.
  apply wphase_block in W1; [|exact Hb].
  destruct W1 as (F1 & F2 & F3 & W & ml & mr & cw & w0 & mts & mrs & mbs & mls & D1 & D2 & D3 & D4 & D5 & D6 & D7 & D8 & D9 & D10 & D11 & D12 & D13 & D14 & D15 & D16 & D17 & D18 & D19 & D20 & D21 & D22 & D23 & D24 & D25 & D26).
  pose proof (calc_margin_none _ _ _ D2) as N1. pose proof (calc_margin_none _ _ _ D4) as N2.
  assert (M1 : margin_top b1 <> LNone) by (rewrite D20; apply lset_none, N1).
  assert (M2 : margin_bottom b1 <> LNone) by (rewrite D21; apply lset_none, N2).
  (* the optional first height phase *)
  assert (E2 : margin_top b2 <> LNone /\ margin_bottom b2 <> LNone
     /\ zero_auto (margin_top b2) = zero_auto (margin_top b1) /\ zero_auto (margin_bottom b2) = zero_auto (margin_bottom b1)
     /\ ((0 <= collapse_top b1)%Z -> collapse_top b2 = collapse_top b1)
     /\ ((0 <= collapse_bottom b1)%Z -> is_relative (sty s) = false \/ (forall k, In k ks -> fresh sty k) -> collapse_bottom b2 = collapse_bottom b1)
     /\ (is_relative (sty s) = false -> b2 = b1) /\ dirty b2 = dirty b1).
  { destruct (is_relative (sty s)).
    - apply hphase_block in W2; [|exact Hb]. destruct W2 as (h & kt & kb & t & B1 & -> & _ & K1 & K2).
      pose proof (set_vm_fields b1 (zero_auto (margin_top b1)) (zero_auto (margin_bottom b1)) kt kb) as V. cbn zeta in V.
      set (bb := set_vm _ _ _ _ _) in *.
      replace (margin_top (upd_content_top t (upd_content_height (LNum h) bb))) with (margin_top bb) by (destruct bb; reflexivity).
      replace (margin_bottom (upd_content_top t (upd_content_height (LNum h) bb))) with (margin_bottom bb) by (destruct bb; reflexivity).
      replace (collapse_top (upd_content_top t (upd_content_height (LNum h) bb))) with (collapse_top bb) by (destruct bb; reflexivity).
      replace (collapse_bottom (upd_content_top t (upd_content_height (LNum h) bb))) with (collapse_bottom bb) by (destruct bb; reflexivity).
      replace (dirty (upd_content_top t (upd_content_height (LNum h) bb))) with (dirty bb) by (destruct bb; reflexivity).
      destruct V as (V1 & V2 & V3 & V4 & _ & _ & V5 & _). rewrite V1, V2, V3, V4, V5.
      destruct (zero_auto_notnone _ M1) as [x1 X1], (zero_auto_notnone _ M2) as [x2 X2]. rewrite X1, X2.
      split; [discriminate|]. split; [discriminate|]. split; [reflexivity|]. split; [reflexivity|].
      split; [exact K1|]. split; [|split; [discriminate|reflexivity]].
      intros P [Q|Fr]; [discriminate|]. rewrite (K2 P). unfold last_extent, last_box.
      destruct (st_height (sty s)); [|reflexivity]. destruct (rev ks) as [|kl kr] eqn:Er; [reflexivity|].
      destruct (fresh_nbox sty kl) as [Q|Q].
      { apply Fr. rewrite in_rev, Er. left. reflexivity. }
      { rewrite Q. reflexivity. }
      rewrite Q, grow_max. cbn. lia.
    - apply Ok_inj in W2. subst b2. auto 10. }
  destruct E2 as (X1 & X2 & X3 & X4 & X5 & X6 & X7 & X8).
  (* children *)
  pose proof Hc as Hc0. apply pchildren_kid in Hc0. destruct Hc0 as [[kt3 Hb3] _].
  assert (Hext : (0 <= collapse_top b2)%Z -> collapse_top b3 = Z.max (collapse_top b2) (first_extent sty (Node s i (Some b5) ks'))).
  { intros P. unfold first_extent. cbn [n_kids].
    rewrite (inputs_establishes sty _ (Node s i (Some b2) ks) Hin).
    unfold pchildren in Hc. destruct (establishes_inline sty (Node s i (Some b2) ks)) eqn:Ei.
    - apply bindr_ok in Hc. destruct Hc as (r & _ & Hc). apply Ok_inj in Hc. injection Hc as _ <-. lia.
    - apply pflow_flowed in Hc. apply (flowed_placed (fun _ => True)) in Hc.
      2:{ intros bc k k1 _ Hl. split; [|trivial]. apply plb_style in Hl. apply Hl. }
      destruct Hc as (pre & suf & -> & P1 & P2 & P3 & ->).
      destruct pre as [|k pre].
      + assert (C : ~ In true (map (blk sty) suf)).
        { intros C. apply in_map_iff in C. destruct C as (k & C1 & C2). rewrite (P2 k C2) in C1. discriminate. }
        exfalso. unfold establishes_inline in Ei. cbn [n_style n_intr n_kids] in Ei.
        destruct (is_block_container (sty s) i); [|discriminate]. apply negb_false_iff in Ei.
        injection Hin as Hin. cbn [app] in *. rewrite <- (inputs_blk sty _ _ Hin) in Ei. apply existsb_exists in Ei.
        destruct Ei as (k & K1 & K2). rewrite (P2 k K1) in K2 || (unfold blk in P2; rewrite (P2 k K1) in K2). discriminate.
      + cbn [app]. inversion P3; subst. rewrite with_box_box. unfold set_collapse_top. rewrite grow_max. destruct b2, kb; reflexivity. }
  assert (E3 : margin_top b3 = margin_top b2 /\ margin_bottom b3 = margin_bottom b2 /\ collapse_bottom b3 = collapse_bottom b2
     /\ content_top b3 = content_top b2 /\ border_top_width b3 = border_top_width b2 /\ padding_top b3 = padding_top b2 /\ dirty b3 = dirty b2)
   by (rewrite Hb3; destruct b2; repeat split).
  destruct E3 as (Y1 & Y2 & Y3 & Y4 & Y5 & Y6 & Y7).
  (* final height phase *)
  apply hphase_block in W4; [|exact Hb]. destruct W4 as (h & kt & kb & t & B1 & Hb4 & Ht & K1 & K2).
  pose proof (set_vm_fields b3 (zero_auto (margin_top b3)) (zero_auto (margin_bottom b3)) kt kb) as V. cbn zeta in V.
  set (bb := set_vm _ _ _ _ _) in *. destruct V as (V1 & V2 & V3 & V4 & V5 & V6 & V7 & V8 & V9).
  assert (E4 : margin_top b4 = margin_top bb /\ margin_bottom b4 = margin_bottom bb /\ collapse_top b4 = collapse_top bb
     /\ collapse_bottom b4 = collapse_bottom bb /\ content_height b4 = LNum h /\ content_top b4 = t
     /\ border_top_width b4 = border_top_width bb /\ padding_top b4 = padding_top bb /\ dirty b4 = dirty bb)
   by (rewrite Hb4; destruct bb; repeat split).
  destruct E4 as (Z1 & Z2 & Z3 & Z4 & Z5 & Z6 & Z7 & Z8 & Z9).
  pose proof (shift_box_fix _ _ _ _ _ _ W5) as (U1 & U2 & U3 & U4 & U5 & U6 & _).
  rewrite Y1, X3 in V1. rewrite Y2, X4 in V2.
  destruct (zero_auto_notnone _ M1) as [x1 T1], (zero_auto_notnone _ M2) as [x2 T2].
  exists b5, h, x1, x2. split; [reflexivity|]. split; [congruence|]. split; [congruence|]. split; [congruence|].
  split; [exact B1|]. split.
  { split.
    - rewrite D20 in T1. rewrite (zero_auto_spec _ _ _ _ _ D2 T1). apply (calc_margin_spec _ _ _ D2).
    - rewrite D21 in T2. rewrite (zero_auto_spec _ _ _ _ _ D4 T2). apply (calc_margin_spec _ _ _ D4). }
  intros Fr. destruct (fresh_box sty _ _ _ _ Fr D) as [Ebx Fk]. rewrite Ebx in *.
  cbn [box0 margin_top margin_bottom collapse_top collapse_bottom content_top dirty] in *.
  assert (C1 : (0 <= collapse_top b1)%Z) by (rewrite D22; apply cset_pos; lia).
  assert (C2 : (0 <= collapse_bottom b1)%Z) by (rewrite D23; apply cset_pos; lia).
  specialize (X5 C1). specialize (X6 C2 (or_intror Fk)).
  assert (C3 : (0 <= collapse_top b2)%Z) by lia. specialize (Hext C3).
  assert (C4 : (0 <= collapse_top b3)%Z) by lia. specialize (K1 C4).
  assert (C5 : (0 <= collapse_bottom b3)%Z) by (rewrite Y3, X6; exact C2). specialize (K2 C5).
  assert (Hwt : whole (margin_top b5) = collapse_top b1).
  { rewrite U1, Z1, V1, D20, D22. apply whole_lset, N1. }
  assert (Hwb : whole (margin_bottom b5) = collapse_bottom b1).
  { rewrite U2, Z2, V2, D21, D23. apply whole_lset, N2. }
  assert (Ct : collapse_top b5 = Z.max (whole (margin_top b5)) (first_extent sty (Node s i (Some b5) ks'))) by congruence.
  assert (Cbt : collapse_bottom b5 = last_extent (sty s) (last_box ks') (whole (margin_bottom b5))).
  { rewrite Hwb. rewrite U4, Z4, V4, K2, Y3, X6. reflexivity. }
  split; [exact Ct|]. split; [exact Cbt|].
  split; [rewrite Ct; rewrite Hwt; lia|]. split.
  { rewrite Cbt, Hwb. unfold last_extent. destruct (st_height (sty s)); [|lia]. destruct (last_box ks') as [[lb|]|]; try lia.
    rewrite grow_max. lia. }
  split; [|congruence].
  intros R. rewrite (X7 R) in *. rewrite (shift_box_static _ _ _ _ _ _ W5 R). unfold border_box_top.
  rewrite !nval_sub, Z6, Ht, Z7, Z8, V8, V9, Y4, D24. change (nval n0) with 0. ring.
Qed.

(** ** Documents *)
Lemma last_box_strip (ks : list node) : last_box (map strip ks) = option_map (option_map sb) (last_box ks).
Proof. unfold last_box. rewrite <- map_rev. destruct (rev ks) as [|k r]; [reflexivity|]. cbn. rewrite n_box_strip. reflexivity. Qed.
Lemma block_height_sb s ph last c h :
  block_height s ph (option_map (option_map sb) last) c h -> block_height s ph last c h.
Proof.
  intros H. destruct H as [lb h E1 E2 E3|E1 E2 E3|u h E1 E2 E3 E4|u h0 h E1 E2 E3].
  - destruct last as [[lb'|]|]; try discriminate. cbn in E2. injection E2 as <-. rewrite border_box_bottom_sb in E3.
    eapply bh_last; eauto.
  - destruct last as [[lb'|]|]; try discriminate. eapply bh_zero; eauto.
  - destruct last as [[lb'|]|]; try discriminate. eapply bh_min; eauto.
  - eapply bh_fixed; eauto.
Qed.
Lemma last_extent_sb s last k : last_extent s (option_map (option_map sb) last) k = last_extent s last k.
Proof. unfold last_extent. destruct (st_height s); [|reflexivity]. destruct last as [[[]|]|]; reflexivity. Qed.
Lemma first_extent_strip (n : node) : first_extent sty (strip n) = first_extent sty n.
Proof.
  unfold first_extent. rewrite establishes_strip', n_kids_strip. destruct (establishes_inline sty n); [reflexivity|].
  destruct (n_kids n) as [|k ks]; [reflexivity|]. cbn [map]. rewrite n_box_strip. destruct (n_box k) as [[]|]; reflexivity.
Qed.
Lemma first_extent_same (n n' : node) : n_style n = n_style n' -> n_intr n = n_intr n' -> n_kids n = n_kids n' ->
  first_extent sty n = first_extent sty n'.
Proof. destruct n, n'. cbn. intros -> -> ->. reflexivity. Qed.

(** What the call that laid out [k] tells about the final box of [k]. *)
Lemma call_vertical (F : Prop) d h5 fuel cb kin k0 (op : option node) (k : node) :
  plb (Datatypes.S fuel) d dummy_font cb kin = Ok k0 -> (F -> fresh sty kin) ->
  final d h5 (option_map strip op) k0 (strip k) ->
  is_block_level (sty (n_style k)) = true ->
  exists b h mt mb, n_box k = Some b /\ margin_top b = LNum mt /\ margin_bottom b = LNum mb
    /\ block_height (sty (n_style k)) (cb_style_height sty cb) (last_box (n_kids k)) (vctx d dummy_font cb) h
    /\ (specified (vctx d dummy_font cb) (st_margin_top (sty (n_style k))) (nval mt)
        /\ specified (vctx d dummy_font cb) (st_margin_bottom (sty (n_style k))) (nval mb))
    /\ (op <> None \/ h5 = false -> content_height b = LNum h)
    /\ (op = None -> h5 = true ->
        content_height b = LNum (nsub (nsub (disp_height d) (NI (collapse_top b))) (NI (collapse_bottom b))))
    /\ (F ->
         collapse_top b = Z.max (whole (margin_top b)) (first_extent sty k)
         /\ collapse_bottom b = last_extent (sty (n_style k)) (last_box (n_kids k)) (whole (margin_bottom b))
         /\ (0 <= collapse_top b)%Z /\ (0 <= collapse_bottom b)%Z
         /\ dirty b = Some true
         /\ (op = None -> is_relative (sty (n_style k)) = false ->
             nval (border_box_top b) = Z2Qc (collapse_top b))).
Proof.
  intros Hp Hf Hfin Hb.
  pose proof (final_same _ _ _ _ _ Hfin) as (S1 & S2 & S3 & b0 & bk & B0 & Bk & Sh & Cl & M1 & M2 & M3 & M4 & M5).
  rewrite n_style_strip in S1. rewrite n_box_strip in Bk. destruct (n_box k) as [b|] eqn:Ek; [|discriminate].
  injection Bk as <-.
  destruct (call_block _ _ _ _ _ _ Hp) as (b0' & h & mt & mb & B0' & H1 & H2 & H3 & H4 & H6 & H5); [rewrite <- S1; exact Hb|].
  rewrite B0 in B0'. injection B0' as <-.
  assert (E : margin_top b = margin_top b0 /\ margin_bottom b = margin_bottom b0 /\ collapse_top b = collapse_top b0
    /\ collapse_bottom b = collapse_bottom b0 /\ dirty b = dirty b0) by (destruct b; cbn in *; auto).
  destruct E as (E1 & E2 & E3 & E4 & E5).
  exists b, h, mt, mb. split; [reflexivity|]. split; [congruence|]. split; [congruence|].
  rewrite <- S1, <- S3 in H4. rewrite n_kids_strip, last_box_strip in H4. apply block_height_sb in H4.
  rewrite <- S1 in H6. split; [exact H4|]. split; [exact H6|]. split; [|split].
  - intros Ho. destruct op as [p|]; cbn [option_map final] in Hfin.
    + destruct Hfin as (b' & t & K1 & K2). rewrite B0 in K1. injection K1 as <-.
      assert (K3 : n_box (strip k) = Some (upd_content_top t b0)) by (rewrite K2; apply with_box_box).
      rewrite n_box_strip, Ek in K3. injection K3 as K3.
      apply (f_equal content_height) in K3. destruct b, b0; cbn in *; congruence.
    + destruct Ho as [Ho|Ho]; [congruence|]. subst h5. destruct k0 as [s0 i0 bx0 ks0]. cbn [n_box] in B0. subst bx0.
      cbn [pfinish] in Hfin. apply Ok_inj in Hfin. destruct k as [s1 i1 bx1 ks1]. cbn [strip] in Hfin. cbn [n_box] in Ek. subst bx1.
      injection Hfin as _ _ K3 _. unfold move_top in K3. apply (f_equal content_height) in K3. destruct b, b0; cbn in *; congruence.
  - intros -> ->. cbn [option_map final] in Hfin. destruct k0 as [s0 i0 bx0 ks0]. cbn [n_box] in B0. subst bx0.
    cbn [pfinish] in Hfin. apply Ok_inj in Hfin. destruct k as [s1 i1 bx1 ks1]. cbn [strip] in Hfin. cbn [n_box] in Ek. subst bx1.
    injection Hfin as _ _ K3 _. rewrite <- E3, <- E4 in K3. apply (f_equal content_height) in K3. destruct b, b0; cbn in *; congruence.
  - intros R. destruct (H5 (Hf R)) as (T1 & T2 & T3 & T4 & T5 & T6).
    assert (Fe : first_extent sty k0 = first_extent sty k).
    { rewrite <- (first_extent_strip k). apply first_extent_same; rewrite ?n_style_strip; congruence. }
    rewrite Fe in T1. rewrite <- S1, <- S3 in T2. rewrite n_kids_strip, last_box_strip, last_extent_sb in T2.
    rewrite E1, E2, E3, E4, E5. repeat (split; [assumption|]).
    intros -> Rs. rewrite S1 in Rs. specialize (T5 Rs). cbn [option_map final] in Hfin.
    destruct k0 as [s0 i0 bx0 ks0]. cbn [n_box] in B0. subst bx0.
    cbn [pfinish] in Hfin. apply Ok_inj in Hfin. destruct k as [s1 i1 bx1 ks1]. cbn [strip] in Hfin. cbn [n_box] in Ek. subst bx1.
    injection Hfin as _ _ K3 _.
    assert (K4 : nval (content_top b) = nval (content_top b0) + Z2Qc (collapse_top b0)).
    { apply (f_equal (fun x => nval (content_top x))) in K3. unfold move_top in K3.
      transitivity (nval (content_top (sb b))); [destruct b; reflexivity|]. rewrite <- K3.
      transitivity (nval (setn (nadd (content_top b0) (NI (collapse_top b0))) (content_top b0))).
      { destruct h5, b0; reflexivity. }
      rewrite setn_val, nval_add. reflexivity. }
    unfold border_box_top in *. rewrite !nval_sub in *. rewrite K4.
    unfold same_h in Sh. assert (Q : border_top_width b = border_top_width b0 /\ padding_top b = padding_top b0).
    { destruct b; cbn in Sh |- *. intuition congruence. }
    destruct Q as [-> ->]. clear -T5. qclra.
Qed.

Record vertical_facts (F : Prop) (h5 : bool) d (op : option node) (k : node) (ph : option unit_) (c : ctx) (b : box) (h : num) : Prop := {
  vf_box : n_box k = Some b;
  vf_mt : exists mt, margin_top b = LNum mt /\ specified c (st_margin_top (sty (n_style k))) (nval mt);
  vf_mb : exists mb, margin_bottom b = LNum mb /\ specified c (st_margin_bottom (sty (n_style k))) (nval mb);
  vf_height : block_height (sty (n_style k)) ph (last_box (n_kids k)) c h;
  vf_used : op <> None \/ h5 = false -> content_height b = LNum h;
  vf_root5 : op = None -> h5 = true ->
        content_height b = LNum (nsub (nsub (disp_height d) (NI (collapse_top b))) (NI (collapse_bottom b)));
  vf_ct : F -> collapse_top b = Z.max (whole (margin_top b)) (first_extent sty k) /\ (0 <= collapse_top b)%Z;
  vf_cb : F -> collapse_bottom b = last_extent (sty (n_style k)) (last_box (n_kids k)) (whole (margin_bottom b))
             /\ (0 <= collapse_bottom b)%Z;
  vf_dirty : F -> dirty b = Some true;
  vf_top : F -> op = None -> is_relative (sty (n_style k)) = false ->
             nval (border_box_top b) = Z2Qc (collapse_top b) }.

Lemma laid_vertical d h5 (n n' : node) op k : layout sty d h5 n = (n', Ok tt) -> laid sty n' op k ->
  is_block_level (sty (n_style k)) = true ->
  exists b h cb, cb_for sty (ready sty n) (h5 = false) (option_map strip op) cb
    /\ vertical_facts (ready sty n) h5 d op k (cb_style_height sty cb) (vctx d dummy_font cb) b h.
Proof.
  intros H L Hb. destruct (layout_laid sty _ _ _ _ _ _ H L) as (fuel & cb & kin & k0 & Hp & Hf & Hfin & Hcb).
  destruct (call_vertical _ _ _ _ _ _ _ _ _ Hp Hf Hfin Hb) as (b & h & mt & mb & A1 & A2 & A3 & A4 & [A8 A9] & A5 & A6 & A7).
  exists b, h, cb. split; [exact Hcb|]. split; eauto; intros R; destruct (A7 R) as (B1 & B2 & B3 & B4 & B5 & B6); auto.
Qed.

Lemma cb_parent_height F G op cb : cb_for sty F G (option_map strip op) cb -> cb_style_height sty cb = parent_height sty op.
Proof.
  intros H. destruct op as [p|]; inversion H; subst; [|reflexivity]. cbn. rewrite n_style_strip. reflexivity.
Qed.

(** The call that laid out a node, with its exact vertical context. *)
Lemma laid_call d h5 (n n' : node) op k : layout sty d h5 n = (n', Ok tt) -> laid sty n' op k -> parent_ok sty h5 n' op ->
  exists fuel cb kin k0, plb (Datatypes.S fuel) d dummy_font cb kin = Ok k0 /\ (ready sty n -> fresh sty kin)
    /\ final d h5 (option_map strip op) k0 (strip k)
    /\ hctx d dummy_font cb = width_ctx d op
    /\ cb_style_height sty cb = parent_height sty op
    /\ (ready sty n -> vctx d dummy_font cb = height_ctx sty d op).
Proof.
  intros H L P.
  assert (K : exists fuel cb kin k0 (G : Prop), plb (Datatypes.S fuel) d dummy_font cb kin = Ok k0 /\ (ready sty n -> fresh sty kin)
    /\ final d h5 (option_map strip op) k0 (strip k) /\ cb_for sty (ready sty n) G (option_map strip op) cb
    /\ (forall p, op = Some p -> is_relative (sty (n_style p)) = true -> G)).
  { inversion L as [D E1 E2|op' p k' L' Hk D Hx]; subst.
    - destruct (layout_laid sty _ _ _ _ _ _ H L) as (fuel & cb & kin & k0 & Hp & Hf & Hfin & Hcb).
      exists fuel, cb, kin, k0, (h5 = false). repeat (split; [assumption|]). discriminate.
    - cbn [parent_ok] in P. destruct (is_relative (sty (n_style p))) eqn:Er.
      + destruct (P eq_refl) as [P'|[q P']].
        * destruct (layout_laid sty _ _ _ _ _ _ H L) as (fuel & cb & kin & k0 & Hp & Hf & Hfin & Hcb).
          exists fuel, cb, kin, k0, (h5 = false). repeat (split; [assumption|]). auto.
        * destruct (layout_laid_kid sty _ _ _ _ _ _ _ H P' Hk D Hx) as (fuel & cb & kin & k0 & Hp & Hf & Hfin & Hcb).
          exists fuel, cb, kin, k0, (Some q <> None \/ h5 = false). repeat (split; [assumption|]). intros. left. discriminate.
      + destruct (layout_laid sty _ _ _ _ _ _ H L) as (fuel & cb & kin & k0 & Hp & Hf & Hfin & Hcb).
        exists fuel, cb, kin, k0, (h5 = false). repeat (split; [assumption|]). congruence. }
  destruct K as (fuel & cb & kin & k0 & G & Hp & Hf & Hfin & Hcb & HG).
  exists fuel, cb, kin, k0. repeat (split; [assumption|]). split; [exact (cb_ctx sty _ _ d _ _ Hcb)|].
  split; [exact (cb_parent_height _ _ _ _ Hcb)|]. intros R. exact (cb_vctx sty _ _ d op cb Hcb R HG).
Qed.

Lemma laid_vertical_v d h5 (n n' : node) op k : layout sty d h5 n = (n', Ok tt) -> ready sty n -> laid sty n' op k ->
  is_block_level (sty (n_style k)) = true -> parent_ok sty h5 n' op ->
  exists b h, vertical_facts True h5 d op k (parent_height sty op) (height_ctx sty d op) b h.
Proof.
  intros H R L Hb P. destruct (laid_call _ _ _ _ _ _ H L P) as (fuel & cb & kin & k0 & Hp & Hf & Hfin & _ & C2 & C3).
  destruct (call_vertical _ _ _ _ _ _ _ _ _ Hp Hf Hfin Hb) as (b & h & mt & mb & A1 & A2 & A3 & A4 & [A8 A9] & A5 & A6 & A7).
  exists b, h. rewrite C2, (C3 R) in A4. rewrite (C3 R) in A8, A9.
  destruct (A7 R) as (B1 & B2 & B3 & B4 & B5 & B6).
  split; eauto; intros; auto.
Qed.

(** ** Stacking *)
Lemma stacked_strip (ks : list node) : forall top prev, stacked sty top prev (map strip ks) -> stacked sty top prev ks.
Proof.
  induction ks as [|k ks IH]; intros top prev H; [constructor|]. cbn [map] in H.
  inversion H as [|t p k1 b mt h ks1 E1 E2 E3 E4 E5]; subst. rewrite n_box_strip in E1. rewrite n_style_strip in E4.
  destruct (n_box k) as [b0|] eqn:Ek; [|discriminate]. injection E1 as <-.
  eapply stacked_cons with (b := b0) (mt := mt) (h := h); [exact Ek|destruct b0; exact E2|destruct b0; exact E3| |].
  - intros R. rewrite <- (E4 R). destruct b0; reflexivity.
  - replace (collapse_bottom b0) with (collapse_bottom (sb b0)) by (destruct b0; reflexivity). apply IH, E5.
Qed.

Definition block_call (F : Prop) (fuel : nat) (d : display_t) (f : font_t) (k1 : node) : Prop :=
  exists fu cb kin, plb (Datatypes.S fu) d f cb kin = Ok k1 /\ (F -> fresh sty kin).

Lemma placed_stacked (F : Prop) fuel d f ks : forall top prev, F ->
  placed (block_call F fuel d f) top prev ks -> (forall k, In k ks -> blk sty k = true) -> stacked sty top prev ks.
Proof.
  intros top prev HF H. induction H as [top prev|top prev k1 kb t mt h ks Q Hk Hm Hh Ht Hp IH]; intros Hbl; [constructor|].
  destruct Q as (fu & cb & kin & Hc & Fr).
  assert (Hb : is_block_level (sty (n_style k1)) = true).
  { specialize (Hbl _ (or_introl eq_refl)). unfold blk in Hbl. rewrite with_box_style in Hbl. exact Hbl. }
  destruct (call_block _ _ _ _ _ _ Hc Hb) as (b & h' & mt' & mb & B1 & B2 & B3 & B4 & B5 & _ & B6).
  rewrite Hk in B1. injection B1 as <-. destruct (B6 (Fr HF)) as (_ & _ & _ & _ & T & _).
  assert (G : gap prev (nval mt) = gap prev (nval mt')).
  { destruct prev; [|reflexivity]. specialize (Hm ltac:(discriminate)). rewrite B3 in Hm. injection Hm as ->. reflexivity. }
  rewrite G in *.
  eapply stacked_cons with (b := upd_content_top t kb) (mt := mt') (h := h).
  - apply with_box_box.
  - destruct kb; exact B3.
  - destruct kb; exact Hh.
  - rewrite with_box_style. intros R. specialize (T R). unfold border_box_top in *. rewrite !nval_sub in *.
    replace (content_top (upd_content_top t kb)) with t by (destruct kb; reflexivity).
    replace (border_top_width (upd_content_top t kb)) with (border_top_width kb) by (destruct kb; reflexivity).
    replace (padding_top (upd_content_top t kb)) with (padding_top kb) by (destruct kb; reflexivity).
    rewrite Ht. clear -T. qclra.
  - replace (collapse_bottom (upd_content_top t kb)) with (collapse_bottom kb) by (destruct kb; reflexivity).
    apply IH. intros k Hin. apply Hbl. right. exact Hin.
Qed.

Lemma laid_stacked d h5 (n n' : node) op p : layout sty d h5 n = (n', Ok tt) -> ready sty n -> laid sty n' op p ->
  establishes_inline sty p = false -> exists pre, in_flow sty p pre /\ stacked sty 0 None pre.
Proof.
  intros H R L Ei. destruct (layout_laid sty _ _ _ _ _ _ H L) as (fuel & cb & kin & k0 & Hp & Hf & Hfin & Hcb).
  pose proof (plb_inputs sty _ _ _ _ _ _ Hp) as Hin. pose proof (final_same _ _ _ _ _ Hfin) as (S1 & S2 & S3 & _).
  destruct (call_inv sty _ _ _ _ _ _ (ready sty n) _ _ Hp Hf Hfin) as
    (s & i & bx & ks & b1 & b2 & ks' & b3 & b4 & b5 & b & Q1 & Q2 & Q3 & Q4 & Ekin & D & Fin & Fr & W1 & W2 & A1 & A2 & Hc & W4 & W5).
  destruct (Fr R) as [_ Fk]. subst kin.
  assert (Ei' : establishes_inline sty (Node s i (Some b2) ks) = false).
  { rewrite <- Ei, <- (establishes_strip' sty p). symmetry.
    transitivity (establishes_inline sty k0); [|exact (inputs_establishes sty _ (Node s i bx ks) Hin)].
    destruct k0, (strip p); cbn in *; subst; reflexivity. }
  unfold pchildren in Hc. rewrite Ei' in Hc. apply pflow_flowed in Hc.
  apply (flowed_placed (block_call (ready sty n) fuel d dummy_font)) in Hc.
  2:{ intros bc k k1 I Hl. split; [apply plb_style in Hl; apply Hl|]. destruct fuel as [|fu]; [discriminate|].
      exists fu, (CBNode s bc), k. split; [exact Hl|]. intros _. apply Fk, I. }
  destruct Hc as (pre & suf & E & P1 & P2 & P3 & _). subst ks'.
  apply map_eq_app in E. destruct E as (pre0 & suf0 & E1 & E2 & E3).
  exists pre0. split.
  - exists suf0. split; [exact E1|]. split.
    + intros k Hk. specialize (P1 (strip k)). unfold blk in P1. rewrite n_style_strip in P1. apply P1. rewrite <- E2. apply in_map, Hk.
    + intros k Hk. specialize (P2 (strip k)). unfold blk in P2. rewrite n_style_strip in P2. apply P2. rewrite <- E3. apply in_map, Hk.
  - apply stacked_strip. rewrite E2. eapply placed_stacked; [exact R|exact P3|exact P1].
Qed.
End H.
