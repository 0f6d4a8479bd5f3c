(** * The engine computes the reference layout: lemmas *)
From Coq Require Import ZArith QArith Qcanon Qround Lqa Lia Bool List String.
From Verif Require Import PyNum NumFacts Units UnitsSpec UnitsFacts BoxModel BoxSpec BoxFacts Engine EnginePure EngineFacts EngineSpec
  EngineTree EngineWidth EngineHeight EngineTotal RefLayout.
Import ListNotations.
Open Scope Qc_scope.

(** ** Lengths *)
Lemma amount_mag p v : magnitude p v -> amount p = v. Proof. destruct 1; reflexivity. Qed.
Lemma qc_maxi_extent d e : extent d ScaleVmax e -> e = qc_maxi (nval (disp_width d)) (nval (disp_height d)).
Proof.
  intros H. inversion H as [| |m M1 M2 M3|]; subst. unfold qc_maxi. destruct (qc_ltb_spec (nval (disp_width d)) (nval (disp_height d))) as [Q|Q].
  - destruct M1 as [->| ->]; [|reflexivity]. apply Qcle_antisym; [apply Qclt_le_weak, Q|exact M3].
  - apply Qcnot_lt_le in Q. destruct M1 as [->| ->]; [reflexivity|]. apply Qcle_antisym; [exact Q|exact M2].
Qed.
Lemma qc_min_extent d e : extent d ScaleVmin e -> e = qc_min (nval (disp_width d)) (nval (disp_height d)).
Proof.
  intros H. inversion H as [| | |m M1 M2 M3]; subst. unfold qc_min. destruct (qc_ltb_spec (nval (disp_height d)) (nval (disp_width d))) as [Q|Q].
  - destruct M1 as [->| ->]; [|reflexivity]. apply Qcle_antisym; [exact M3|apply Qclt_le_weak, Q].
  - apply Qcnot_lt_le in Q. destruct M1 as [->| ->]; [reflexivity|]. apply Qcle_antisym; [exact M2|exact Q].
Qed.

(** The contexts of layout: display [d], the default font, reference size [q]. *)
Definition ctx_is (d : display_t) (q : Qc) (c : ctx) : Prop :=
  c_disp c = d /\ c_font c = dummy_font /\ forall x, c_size c = LNum x -> nval x = q.

Lemma exact_len_px d pct c u q : ctx_is d pct c -> exact_px c u q -> exact_len d pct u = q.
Proof.
  intros (D & F & X) E.
  assert (M1 : nval (f_size (c_font c)) = - (1)) by (rewrite F; apply Qc_is_canon; reflexivity).
  destruct E as [p v M|p v M|p v M|p v M|s points p v M|s sc p v e M Ex|p v n M Sn]; unfold exact_len; cbn [u_val u_kind];
    rewrite ?M1, ?D, ?(amount_mag _ _ M); cbn [String.eqb Ascii.eqb Bool.eqb]; unfold Qcdiv; try ring.
  - rewrite D in Ex. destruct sc; [inversion Ex; subst; reflexivity|rewrite <- (qc_maxi_extent _ _ Ex); reflexivity
      |rewrite <- (qc_min_extent _ _ Ex); reflexivity|inversion Ex; subst; reflexivity].
  - rewrite (X _ Sn). reflexivity.
Qed.
Lemma px_len d pct c u p : ctx_is d pct c -> px c u = Ok p -> nval p = len d pct u.
Proof.
  intros C H. destruct (px_inv _ _ _ H) as (q & E & ->). rewrite lu_to_px_val. unfold len, to_grid.
  rewrite (exact_len_px _ _ _ _ _ C E). reflexivity.
Qed.
Lemma calc_len_len d pct c u p : ctx_is d pct c -> calc_len c u = Ok p -> nval p = len d pct u.
Proof. rewrite calc_len_px. apply px_len. Qed.
Lemma calc_border_len d pct c v p : ctx_is d pct c -> calc_border c v = Ok p -> nval p = border_len d pct v.
Proof.
  intros C. destruct v as [k|u]; cbn [calc_border border_len].
  - intros H. apply Ok_inj in H. subst p. destruct C as (-> & _). reflexivity.
  - apply calc_len_len, C.
Qed.
Lemma calc_margin_len d pct c v m : ctx_is d pct c -> calc_margin c v = Ok m ->
  dflt (optv m) = len0 d pct v /\ (v = Auto -> optv m = None) /\ (v <> Auto -> optv m = Some (len0 d pct v)).
Proof.
  intros C. destruct v as [|u]; cbn [calc_margin len0].
  - intros H. apply Ok_inj in H. subst m. split; [reflexivity|]. split; [reflexivity|congruence].
  - intros H. apply bindr_ok in H. destruct H as (p & Hp & H). apply Ok_inj in H. subst m. cbn [optv dflt].
    rewrite (calc_len_len _ _ _ _ _ C Hp). split; [reflexivity|]. split; [discriminate|reflexivity].
Qed.
Lemma clamped_len d pct c s u p : ctx_is d pct c -> clamped_width s u c = Ok p -> nval p = limited_width d pct s u.
Proof.
  intros C H. unfold clamped_width in H. apply bindr_ok in H. destruct H as (w & Hw & H).
  apply bindr_ok in H. destruct H as (w1 & Hw1 & H). pose proof (px_len _ _ _ _ _ C Hw) as Ew.
  unfold limited_width. rewrite <- Ew.
  assert (E1 : nval w1 = match st_max_width s with Some m => qc_min (nval w) (len d pct m) | None => nval w end).
  { destruct (st_max_width s) as [m|]; [|apply Ok_inj in Hw1; subst; reflexivity].
    apply bindr_ok in Hw1. destruct Hw1 as (mx & Hm & Hw1). apply Ok_inj in Hw1. subst w1. rewrite <- (px_len _ _ _ _ _ C Hm).
    unfold qc_min, nltb. destruct (qc_ltb (nval mx) (nval w)); reflexivity. }
  rewrite <- E1. destruct (st_min_width s) as [|m]; [apply Ok_inj in H; subst; reflexivity|].
  apply bindr_ok in H. destruct H as (mn & Hm & H). apply Ok_inj in H. subst p. rewrite <- (px_len _ _ _ _ _ C Hm).
  unfold qc_maxi, nltb. destruct (qc_ltb (nval w1) (nval mn)); reflexivity.
Qed.

Lemma whole_val_px c u p : px c u = Ok p -> whole (LNum p) = whole_px (nval p).
Proof.
  intros H. pose proof (px_int_lemma _ _ _ H) as I. unfold whole_px. destruct p as [z|q].
  - cbn [whole nval]. assert (F : Qfloor (this (Z2Qc z)) = z) by (rewrite (Qfloor_comp _ _ (this_Z2Qc z)); apply Qfloor_Z). rewrite F, qc_eqb_refl. reflexivity.
  - cbn [whole nval is_int] in *. destruct (qc_eqb_spec q (Z2Qc (Qfloor (this q)))) as [E|]; [|reflexivity].
    exfalso. assert (false = true) by (apply I; exists (Qfloor (this q)); exact E). discriminate.
Qed.
Lemma whole_px_0 : whole_px 0 = 0%Z. Proof. reflexivity. Qed.

(** ** Widths and heights *)
Lemma hsolve_widths d W e s mls mrs hz : ctx_is d W hz ->
  calc_margin hz (st_margin_left s) = Ok mls -> calc_margin hz (st_margin_right s) = Ok mrs -> forall w0,
  match st_width s with
  | Auto => w0 = None
  | Len u => exists x, clamped_width s u hz = Ok x /\ w0 = Some (nval x)
  end -> hsolve (st_direction s) W e w0 (optv mls) (optv mrs) = widths d W e s.
Proof.
  intros C Hl Hr w0 Hw. destruct (calc_margin_len _ _ _ _ _ C Hl) as (L1 & L2 & L3), (calc_margin_len _ _ _ _ _ C Hr) as (R1 & R2 & R3).
  unfold hsolve, widths. rewrite L1, R1. destruct (st_width s) as [|u]; [subst w0; reflexivity|].
  destruct Hw as (x & Hx & ->). rewrite (clamped_len _ _ _ _ _ _ C Hx).
  set (X := limited_width d W s u). destruct (qc_ltb W (e + X + len0 d W (st_margin_left s) + len0 d W (st_margin_right s))).
  - reflexivity.
  - unfold hfloor. destruct (st_margin_left s) as [|a], (st_margin_right s) as [|b];
      rewrite ?(L2 eq_refl), ?(R2 eq_refl), ?L3, ?R3 by discriminate; reflexivity.
Qed.

Lemma ctx_is_size d q c : ctx_is d q c -> forall p, ctx_is d (nval p) (mkCtx (c_disp c) (c_font c) (LNum p)).
Proof. intros (D & F & _) p. split; [exact D|]. split; [exact F|]. intros x [= <-]. reflexivity. Qed.

Lemma block_height_ref d H ph s last c h : ctx_is d H c -> block_height s ph last c h ->
  nval h = match spec_height d H ph s, last with
           | Some x, _ => x
           | None, Some (Some lb) => match border_box_bottom lb with Ok x => nval x | Err _ => 0 end
           | None, _ => len0 d H (st_min_height s)
           end
  /\ (st_height s = Auto -> last <> Some None /\ forall lb, last = Some (Some lb) -> exists x, border_box_bottom lb = Ok x).
Proof.
  intros C B. split; [|intros E; destruct B; split; intros; first [congruence|eexists; match goal with X : ?l = Some (Some ?a), Y : ?l = Some (Some ?b) |- _ => assert (a = b) as -> by congruence end; eassumption]]. unfold spec_height. destruct B as [lb h E1 E2 E3|E1 E2 E3|u h E1 E2 E3 E4|u h0 h E1 E2 E3]; rewrite E1.
  - subst last. rewrite E3. reflexivity.
  - subst last. rewrite E3. reflexivity.
  - subst last. rewrite E3. cbn [len0]. apply (px_len _ _ _ _ _ C E4).
  - assert (X : nval h0 = len d (match ph with Some pu => len d H pu | None => H end) u).
    { destruct ph as [pu|]; [|apply (px_len _ _ _ _ _ C E2)]. apply bindr_ok in E2. destruct E2 as (p & Hp & E2).
      rewrite <- (px_len _ _ _ _ _ C Hp). exact (px_len _ _ _ _ _ (ctx_is_size _ _ _ C p) E2). }
    rewrite <- X. destruct (st_max_height s) as [m|]; [|subst; reflexivity]. destruct E3 as (mx & Hm & ->).
    rewrite <- (px_len _ _ _ _ _ C Hm). unfold qc_min, nltb. destruct (qc_ltb (nval mx) (nval h0)); reflexivity.
Qed.


Lemma margin_form c v m x : calc_margin c v = Ok m -> zero_auto (lset m l0) = LNum x -> whole (LNum x) = whole_px (nval x).
Proof.
  destruct v as [|u]; cbn [calc_margin]; intros H Hx.
  - apply Ok_inj in H. subst m. rewrite lset_auto in Hx. cbn in Hx. injection Hx as <-. reflexivity.
  - apply bindr_ok in H. destruct H as (p & Hp & H). apply Ok_inj in H. subst m. unfold lset in Hx.
    destruct (leqb (LNum p) l0); cbn in Hx; injection Hx as <-; [reflexivity|]. rewrite calc_len_px in Hp. eapply whole_val_px, Hp.
Qed.
(** The extent recorded when a margin is set on a fresh box. *)
Lemma cset_form d q c v m : ctx_is d q c -> calc_margin c v = Ok m -> cset m l0 0 = whole_px (len0 d q v).
Proof.
  intros C H. pose proof (calc_margin_none _ _ _ H) as N. rewrite <- (whole_lset m N).
  destruct (zero_auto_notnone (lset m l0)) as [x Hx]; [apply lset_none, N|]. rewrite Hx, (margin_form _ _ _ _ H Hx).
  rewrite (zero_auto_spec _ _ _ _ _ H Hx), (proj1 (calc_margin_len _ _ _ _ _ C H)). reflexivity.
Qed.
(** The margin itself, once auto is replaced by 0. *)
Lemma margin_num d q c v m old : ctx_is d q c -> calc_margin c v = Ok m -> is_num (zero_auto (lset m old)) (len0 d q v).
Proof.
  intros C H. pose proof (calc_margin_none _ _ _ H) as N.
  destruct (zero_auto_notnone (lset m old)) as [x Hx]; [apply lset_none, N|]. exists x. split; [exact Hx|].
  rewrite (zero_auto_spec _ _ _ _ _ H Hx). apply (calc_margin_len _ _ _ _ _ C H).
Qed.

(** ** The width phase on a fresh box *)
Record wdone (d : display_t) (W H : Qc) (s : style) (i : size) (b : box) (w : option Qc) (ml mr lf : Qc) : Prop := {
  wd_bt : nval (border_top_width b) = border_len d W (st_border_top s);
  wd_br : nval (border_right_width b) = border_len d H (st_border_right s);
  wd_bb : nval (border_bottom_width b) = border_len d W (st_border_bottom s);
  wd_bl : nval (border_left_width b) = border_len d H (st_border_left s);
  wd_pt : nval (padding_top b) = len d W (st_padding_top s);
  wd_pr : nval (padding_right b) = len d H (st_padding_right s);
  wd_pb : nval (padding_bottom b) = len d W (st_padding_bottom s);
  wd_pl : nval (padding_left b) = len d H (st_padding_left s);
  wd_ml : is_num (margin_left b) ml; wd_mr : is_num (margin_right b) mr;
  wd_mt : is_num (zero_auto (margin_top b)) (len0 d H (st_margin_top s));
  wd_mb : is_num (zero_auto (margin_bottom b)) (len0 d H (st_margin_bottom s));
  wd_mba : st_margin_bottom s <> Auto -> zero_auto (margin_bottom b) = margin_bottom b;
  wd_mbb : st_margin_bottom s = Auto -> margin_bottom b = LAuto;
  wd_wt : whole (zero_auto (margin_top b)) = whole_px (len0 d H (st_margin_top s));
  wd_wb : whole (zero_auto (margin_bottom b)) = whole_px (len0 d H (st_margin_bottom s));
  wd_ct : collapse_top b = whole_px (len0 d H (st_margin_top s));
  wd_cb : collapse_bottom b = whole_px (len0 d H (st_margin_bottom s));
  wd_w : is_size (content_width b) w; wd_left : nval (content_left b) = lf;
  wd_top : content_top b = n0; wd_h : content_height b = l0 }.

Lemma margin_whole d q c v m : ctx_is d q c -> calc_margin c v = Ok m -> whole (zero_auto (lset m l0)) = whole_px (len0 d q v).
Proof.
  intros C H. destruct (margin_num d q c v m l0 C H) as (x & E & <-). rewrite E. eapply margin_form; eassumption.
Qed.
Lemma margin_auto_kept c v m : calc_margin c v = Ok m -> v = Auto -> lset m l0 = LAuto.
Proof. intros H ->. cbn in H. apply Ok_inj in H. subst m. apply lset_auto. Qed.
Lemma margin_len_kept c v m : calc_margin c v = Ok m -> v <> Auto -> zero_auto (lset m l0) = lset m l0.
Proof.
  destruct v as [|u]; [congruence|]. cbn [calc_margin]. intros H _. apply bindr_ok in H. destruct H as (p & _ & H). apply Ok_inj in H. subst m.
  destruct (lset_num p l0) as (x & -> & _). reflexivity.
Qed.

Lemma wphase_block_ref d W H s i hz vt b : ctx_is d W hz -> ctx_is d H vt -> wphase s i hz vt box0 = Ok b -> is_block_level s = true ->
  let '(w, ml, mr) := widths d W (border_len d H (st_border_left s) + len d H (st_padding_left s) + len d H (st_padding_right s) + border_len d H (st_border_right s)) s in
  wdone d W H s i b (Some w) ml mr (ml + border_len d H (st_border_left s) + len d H (st_padding_left s)).
Proof.
  intros CH CV W1 Hb. apply wphase_block in W1; [|exact Hb].
  destruct W1 as (F1 & F2 & F3 & W0 & ml & mr & cw & w0 & mts & mrs & mbs & mls & D1 & D2 & D3 & D4 & D5 & D6 & D7 & D8 & D9 & D10 & D11 & D12 & D13 & D14 & D15 & D16 & D17 & D18 & D19 & D20 & D21 & D22 & D23 & D24 & D25 & D26).
  rewrite ((proj2 (proj2 CH)) _ D1) in D19.
  apply (calc_border_len _ _ _ _ _ CH) in D6, D8. apply (calc_border_len _ _ _ _ _ CV) in D7, D9.
  apply (calc_len_len _ _ _ _ _ CH) in D10, D12. apply (calc_len_len _ _ _ _ _ CV) in D11, D13.
  rewrite D7, D9, D11, D13 in D19. rewrite (hsolve_widths _ _ _ _ _ _ _ CH D5 D3 _ D18) in D19. rewrite <- D19.
  rewrite D9, D13 in D17. cbn [box0 margin_top margin_bottom collapse_top collapse_bottom content_top content_height] in *.
  constructor; try assumption.
  - exists ml. auto.
  - exists mr. auto.
  - rewrite D20. eapply margin_num; eassumption.
  - rewrite D21. eapply margin_num; eassumption.
  - rewrite D21. eapply margin_len_kept; eassumption.
  - rewrite D21. eapply margin_auto_kept; eassumption.
  - rewrite D20. eapply margin_whole; eassumption.
  - rewrite D21. eapply margin_whole; eassumption.
  - rewrite D22. eapply cset_form; eassumption.
  - rewrite D23. eapply cset_form; eassumption.
  - exists cw. auto.
Qed.

Lemma nval_min_ref a b : nval (nmin a b) = qc_min (nval a) (nval b).
Proof. unfold nmin, qc_min, nltb. destruct (qc_ltb (nval b) (nval a)); reflexivity. Qed.
Lemma nround_ref a : nround a = round_half_even (this (nval a)).
Proof. destruct a as [z|q]; cbn [nround nval]; [|reflexivity]. rewrite (rhe_comp _ _ (this_Z2Qc z)), rhe_Z. reflexivity. Qed.
Lemma given_spec o : given o = if truthy o then match o with Some x => Some (nval x) | None => None end else None.
Proof. destruct o as [x|]; [|reflexivity]. unfold given, truthy, neqb. change (nval n0) with 0. destruct (qc_eqb (nval x) 0); reflexivity. Qed.

Lemma wphase_inline_ref d W H s i hz vt b : ctx_is d W hz -> ctx_is d H vt -> wphase s i hz vt box0 = Ok b -> st_display s = Some DInline ->
  let l := len0 d W (st_margin_left s) in
  let r := len0 d W (st_margin_right s) in
  let e := border_len d H (st_border_left s) + len d H (st_padding_left s) + len d H (st_padding_right s) + border_len d H (st_border_right s) in
  if s_replaced i
  then wdone d W H s i b (Some (image_width d W (W - e - l - r) s i)) l r (l + border_len d H (st_border_left s) + len d H (st_padding_left s))
  else wdone d W H s i b (option_map nval (s_width i)) l r 0.
Proof.
  intros CH CV HW D. cbv zeta. unfold wphase in HW.
  destruct (run (copy_edges s hz vt) box0) as [[b1 u]|] eqn:E1; [|discriminate]. cbn [bindr fst] in HW.
  destruct (run (calculate_width s i hz) b1) as [[b2 ol]|] eqn:E2; [|discriminate]. cbn [bindr fst snd] in HW.
  apply Ok_inj in HW. unfold calculate_width in E2.
  destruct (is_float s); [discriminate|]. destruct (is_abspos s); [discriminate|].
  unfold is_inline in E2. rewrite D in E2.
  apply copy_edges_run in E1.
  destruct E1 as (mt & mr & mb & ml & bt & br & bb & bl & pt & pr & pb & pl & C1 & C2 & C3 & C4 & C5 & C6 & C7 & C8 & C9 & C10 & C11 & C12 & Hb1).
  cbn [box0 margin_top margin_right margin_bottom margin_left collapse_top collapse_right collapse_bottom collapse_left] in Hb1.
  pose proof (margin_num _ _ _ _ _ l0 CH C4) as (xl & Xl & Vl). pose proof (margin_num _ _ _ _ _ l0 CH C2) as (xr & Xr & Vr).
  apply (calc_border_len _ _ _ _ _ CH) in C5, C7. apply (calc_border_len _ _ _ _ _ CV) in C6, C8.
  apply (calc_len_len _ _ _ _ _ CH) in C9, C11. apply (calc_len_len _ _ _ _ _ CV) in C10, C12.
  pose proof (margin_num _ _ _ _ _ l0 CV C1) as G1. pose proof (margin_num _ _ _ _ _ l0 CV C3) as G2.
  pose proof (margin_len_kept _ _ _ C3) as G3. pose proof (margin_auto_kept _ _ _ C3) as G4.
  pose proof (margin_whole _ _ _ _ _ CV C1) as G7. pose proof (margin_whole _ _ _ _ _ CV C3) as G8.
  pose proof (cset_form _ _ _ _ _ CV C1) as G5. pose proof (cset_form _ _ _ _ _ CV C3) as G6.
  destruct (zero_autos_run b1) as (kl & kr & Z0).
  assert (Z1 : set_hm b1 (zero_auto (margin_left b1)) (zero_auto (margin_right b1)) kl kr = set_hm b1 (LNum xl) (LNum xr) kl kr).
  { rewrite <- Xl, <- Xr. rewrite Hb1. reflexivity. }
  rewrite Z1 in Z0. clear Z1. set (b0 := set_hm b1 (LNum xl) (LNum xr) kl kr) in *.
  assert (KZ : forall A (m : BM A) r, run (bbind auto_left0 (fun _ => bbind auto_right0 (fun _ => m))) b1 = Ok r -> run m b0 = Ok r).
  { intros A m r X. rewrite run_bind in X. rewrite run_bind in Z0. destruct (run auto_left0 b1) as [[bb1 []]|]; [|discriminate].
    cbn [bindr fst snd] in X, Z0. rewrite run_bind, Z0 in X. exact X. }
  destruct (s_replaced i).
  - unfold inline_replaced_width in E2. apply KZ in E2. rewrite run_bind in E2.
    match type of E2 with bindr ?m _ = _ => destruct m as [[b4 w]|] eqn:E; [|discriminate] end.
    cbn [bindr fst snd] in E2. run_simpl E2. destruct (run left_edge (upd_content_width (LNum w) b4)) as [[b5 l]|] eqn:El; [|discriminate].
    apply left_edge_run in El. destruct El as (ml' & El1 & El2 & El3). cbn [bindr fst snd] in *. subst b5. run_simpl E2.
    apply Ok_inj in E2. injection E2 as <- <-.
    assert (Hav : forall r, run (avail_width hz) b0 = Ok r -> fst r = b0 /\ nval (snd r) = (W - (border_len d H (st_border_left s) + len d H (st_padding_left s) + len d H (st_padding_right s) + border_len d H (st_border_right s)) - len0 d W (st_margin_left s) - len0 d W (st_margin_right s))).
    { intros r X. apply avail_width_run in X. destruct X as (sz & ml0 & mr0 & X1 & X2 & X3 & X4 & X5). split; [exact X4|]. rewrite X5.
      unfold b0 in X2, X3. rewrite Hb1 in X2, X3. cbn in X2, X3. injection X2 as <-. injection X3 as <-.
      rewrite Vl, Vr, (proj2 (proj2 CH) _ X1). unfold b0. rewrite Hb1. cbn. rewrite C8, C12, C10, C6. ring. }
    assert (K : b4 = b0 /\ nval w = image_width d W (W - (border_len d H (st_border_left s) + len d H (st_padding_left s) + len d H (st_padding_right s) + border_len d H (st_border_right s)) - len0 d W (st_margin_left s) - len0 d W (st_margin_right s)) s i).
    { unfold image_width. destruct (st_width s) as [|u0].
      - destruct (s_width i) as [iw|].
        + destruct (st_height s); run_simpl E; apply Ok_inj in E; injection E as <- <-; auto.
        + destruct (st_height s), (s_height i) as [ih|], (s_ratio i) as [rt|]; try (run_simpl E; apply Ok_inj in E; injection E as <- <-; split; [reflexivity|]; try reflexivity).
          * cbn [nval]. rewrite nround_ref, nval_mul. reflexivity.
          * apply Hav in E. exact E.
      - run_simpl E. destruct (px hz u0) as [p|] eqn:Ep; [|discriminate]. apply Ok_inj in E. injection E as <- <-. split; [reflexivity|].
        exact (px_len _ _ _ _ _ CH Ep). }
    destruct K as [-> K]. subst b. unfold b0 in *. rewrite Hb1 in *. cbn in El1. injection El1 as <-. cbn in El3.
    unfold move_left. constructor; cbn; try assumption; try reflexivity.
    + exists xl. auto.
    + exists xr. auto.
    + exists w. auto.
    + rewrite setn_val, El3, Vl, C8, C12. reflexivity.
  - unfold inline_non_replaced_width in E2. apply KZ in E2. run_simpl E2. apply Ok_inj in E2. injection E2 as <- <-. subst b.
    unfold b0. rewrite Hb1. constructor; cbn; try assumption; try reflexivity.
    + exists xl. auto.
    + exists xr. auto.
    + destruct (s_width i); cbn; [eexists; split; reflexivity|reflexivity].
Qed.

(** ** The height phase *)
Definition raw_height (d : display_t) (H w : Qc) (ph : option unit_) (s : style) (i : size) (last : option (option box)) : option Qc :=
  if is_inline s then (if s_replaced i then Some (image_height d H w s i) else option_map nval (s_height i))
  else Some (match spec_height d H ph s, last with
             | Some x, _ => x
             | None, Some (Some lb) => match border_box_bottom lb with Ok x => nval x | Err _ => 0 end
             | None, _ => len0 d H (st_min_height s)
             end).
Record hdone (d : display_t) (H w : Qc) (ph : option unit_) (s : style) (i : size) (last : option (option box)) (b b' : box) : Prop := {
  hd_hv : hv b b';
  hd_top : nval (content_top b') = nval (content_top b) + ((if is_inline s then dflt (optv (margin_top b)) else 0) + nval (border_top_width b) + nval (padding_top b));
  hd_mt : margin_top b' = zero_auto (margin_top b);
  hd_mb : margin_bottom b' = if is_inline s && negb (s_replaced i) then margin_bottom b else zero_auto (margin_bottom b);
  hd_ct : (0 <= collapse_top b)%Z -> collapse_top b' = collapse_top b;
  hd_cb : (0 <= collapse_bottom b)%Z -> collapse_bottom b' = if is_inline s then collapse_bottom b else last_extent s last (collapse_bottom b);
  hd_h : is_size (content_height b') (raw_height d H w ph s i last);
  hd_last : is_inline s = false -> st_height s = Auto ->
    last <> Some None /\ forall lb, last = Some (Some lb) -> exists x, border_box_bottom lb = Ok x }.

Lemma top_edge_run b r : run top_edge b = Ok r ->
  exists mt, margin_top b = LNum mt /\ fst r = b
    /\ nval (snd r) = nval mt + nval (border_top_width b) + nval (padding_top b).
Proof.
  unfold top_edge. intros H. run_simpl H.
  destruct (margin_top b) as [mt| |]; try discriminate. cbn [as_num bindr fst snd] in H. run_simpl H.
  apply Ok_inj in H. subst r. exists mt. do 2 (split; [reflexivity|]). cbn [snd]. rewrite !nval_add. reflexivity.
Qed.

Lemma hphase_kind s i ph last c b b' : hphase s i ph last c b = Ok b' -> is_block_level s = true \/ st_display s = Some DInline.
Proof.
  unfold hphase, calculate_height. intros H. apply bindr_ok in H. destruct H as (x & H & _).
  destruct (is_float s); [discriminate|]. destruct (is_abspos s); [discriminate|].
  unfold is_inline in H. destruct (st_display s) as [[]|] eqn:E; auto;
  (destruct (is_block_level s); [auto|]; destruct (is_inline_block s); discriminate).
Qed.

Lemma hphase_ref d H w ph s i last c b b' : ctx_is d H c -> (forall x, content_width b = LNum x -> nval x = w) ->
  hphase s i ph last c b = Ok b' -> hdone d H w ph s i last b b'.
Proof.
  intros C Hw Hp. pose proof (hphase_hv _ _ _ _ _ _ _ Hp) as Hhv. pose proof (hphase_kind _ _ _ _ _ _ _ Hp) as Kd.
  destruct Kd as [Hb|D].
  - assert (Hi : is_inline s = false) by (unfold is_block_level, is_inline in *; destruct (st_display s) as [[]|]; congruence).
    apply hphase_block in Hp; [|exact Hb]. destruct Hp as (h & kt & kb & t & B1 & Hb' & Ht & K1 & K2).
    destruct (block_height_ref _ _ _ _ _ _ _ C B1) as [V1 V2].
    constructor; rewrite ?Hi; cbn [andb]; try assumption.
    + replace (content_top b') with t by (rewrite Hb'; destruct b; reflexivity). rewrite Ht. ring.
    + rewrite Hb'. destruct b; reflexivity.
    + rewrite Hb'. destruct b; reflexivity.
    + rewrite Hb'. intros P. rewrite <- (K1 P). destruct b; reflexivity.
    + rewrite Hb'. intros P. rewrite <- (K2 P). destruct b; reflexivity.
    + unfold raw_height. rewrite Hi. exists h. split; [rewrite Hb'; destruct b; reflexivity|exact V1].
    + intros _. exact V2.
  - assert (Hi : is_inline s = true) by (unfold is_inline; rewrite D; reflexivity).
    unfold hphase, calculate_height in Hp. apply bindr_ok in Hp. destruct Hp as ([b1 dt] & Hp & Hfin). apply Ok_inj in Hfin. cbn [fst snd] in Hfin.
    destruct (is_float s); [discriminate|]. destruct (is_abspos s); [discriminate|]. rewrite Hi in Hp.
    destruct (s_replaced i) eqn:R.
    + unfold inline_replaced_height in Hp. destruct (zero_auto_v_run b) as (kt & kb & Z0 & K1 & K2).
      set (b0 := set_vm b (zero_auto (margin_top b)) (zero_auto (margin_bottom b)) kt kb) in *.
      assert (KZ : forall A (m : BM A) r, run (bbind auto_top0 (fun _ => bbind auto_bottom0 (fun _ => m))) b = Ok r -> run m b0 = Ok r).
      { intros A m r X. rewrite run_bind in X. rewrite run_bind in Z0. destruct (run auto_top0 b) as [[bb1 []]|]; [|discriminate].
        cbn [bindr fst snd] in X, Z0. rewrite run_bind, Z0 in X. exact X. }
      apply KZ in Hp. rewrite run_bind in Hp.
      match type of Hp with bindr ?m _ = _ => destruct m as [[b4 h]|] eqn:E; [|discriminate] end.
      cbn [bindr fst snd] in Hp. run_simpl Hp. apply top_edge_run in Hp. cbn [fst snd] in Hp. destruct Hp as (mt & T1 & -> & T3).
      assert (Ew : content_width b0 = content_width b) by (unfold b0; destruct b; reflexivity).
      assert (K : b4 = b0 /\ nval h = image_height d H w s i).
      { unfold image_height. destruct (st_height s) as [|u0].
        - rewrite !given_spec.
          assert (G : forall r, run (w0 <- bnum content_width ;; bret (nmin (nhalf w0) (NI 150)))%bm b0 = Ok r ->
             fst r = b0 /\ nval (snd r) = qc_min (Z2Qc (Qfloor (this (w / Z2Qc 2)))) (Z2Qc 150)).
          { intros r X. run_simpl X. rewrite Ew in X. destruct (content_width b) as [x| |]; try discriminate. cbn [as_num bindr fst snd] in X. run_simpl X.
            apply Ok_inj in X. subst r. cbn [fst snd]. split; [reflexivity|]. rewrite nval_min_ref, nval_half, (Hw x eq_refl). reflexivity. }
          assert (G2 : forall r r0, run (w0 <- bnum content_width ;; bret (nmul w0 r0))%bm b0 = Ok r -> fst r = b0 /\ nval (snd r) = w * nval r0).
          { intros r r0 X. run_simpl X. rewrite Ew in X. destruct (content_width b) as [x| |]; try discriminate. cbn [as_num bindr fst snd] in X. run_simpl X.
            apply Ok_inj in X. subst r. cbn [fst snd]. split; [reflexivity|]. rewrite nval_mul, (Hw x eq_refl). reflexivity. }
          assert (G3 : forall r : box * num, forall h0, run (bret h0) b0 = Ok r -> fst r = b0 /\ nval (snd r) = nval h0).
          { intros r h0 X. run_simpl X. apply Ok_inj in X. subst r. auto. }
          destruct (st_width s), (s_height i) as [ih|], (s_ratio i) as [rt|];
            repeat match type of E with context[truthy ?x] => destruct (truthy x) eqn:? end; cbn [truthy] in *; try discriminate;
            first [exact (G _ E)|exact (G2 _ _ E)|exact (G3 _ _ E)].
        - run_simpl E. destruct (px c u0) as [p|] eqn:Ep; [|discriminate]. apply Ok_inj in E. injection E as <- <-. split; [reflexivity|].
          exact (px_len _ _ _ _ _ C Ep). }
      destruct K as [-> K].
      assert (Tm : zero_auto (margin_top b) = LNum mt) by (unfold b0 in T1; destruct b; exact T1).
      constructor; rewrite ?Hi, ?R; cbn [andb negb]; try assumption.
      * subst b'. unfold move_top. unfold b0 in *. transitivity (nval (setn (nadd (content_top b) dt) (content_top b))); [destruct b; reflexivity|].
        rewrite setn_val, nval_add, T3. rewrite (zero_auto_num _ _ Tm). destruct b; reflexivity.
      * subst b'. unfold b0. destruct b; reflexivity.
      * subst b'. unfold b0. destruct b; reflexivity.
      * subst b'. unfold b0. intros P. rewrite <- (K1 P). destruct b; reflexivity.
      * subst b'. unfold b0. intros P. rewrite <- (K2 P). destruct b; reflexivity.
      * unfold raw_height. rewrite Hi, R. exists h. split; [subst b'; unfold b0; destruct b; reflexivity|exact K].
      * discriminate.
    + unfold inline_non_replaced_height in Hp. run_simpl Hp. apply top_edge_run in Hp. cbn [fst snd] in Hp. destruct Hp as (mt & T1 & -> & T3).
      assert (Tm : margin_top b = LNum mt) by (destruct b; exact T1).
      constructor; rewrite ?Hi, ?R; cbn [andb negb]; try assumption.
      * subst b'. unfold move_top. transitivity (nval (setn (nadd (content_top b) dt) (content_top b))); [destruct b; reflexivity|].
        rewrite setn_val, nval_add, T3, Tm. destruct b; reflexivity.
      * rewrite Tm. subst b'. rewrite <- Tm. destruct b; cbn in *. subst; reflexivity.
      * subst b'. destruct b; reflexivity.
      * subst b'. destruct b; reflexivity.
      * subst b'. destruct b; reflexivity.
      * unfold raw_height. rewrite Hi, R. subst b'. destruct (s_height i); cbn; destruct b; [eexists; split; reflexivity|reflexivity].
      * discriminate.
Qed.

(** ** Offsets *)
Lemma rel_offset_ref d pos ext c st en cs ce v : rel_offset c st en cs ce = Ok v -> ctx_is d (or0 ext) c ->
  (forall x, cs = Ok x -> nval x = pos) -> (forall x, ce = Ok x -> nval x = pos + or0 ext) -> nval v = shift d pos ext st en.
Proof.
  intros H C Hs He. unfold rel_offset in H. unfold shift. destruct st as [| |u], en as [| |u'];
    try discriminate; try (exact (px_len _ _ _ _ _ C H)); try (exact (Hs _ H)).
  - apply Ok_inj in H. subst v. reflexivity.
  - apply bindr_ok in H. destruct H as (x & Hx & H). apply Ok_inj in H. subst v. rewrite nval_neg, (He _ Hx). reflexivity.
  - apply bindr_ok in H. destruct H as (x & Hx & H). apply Ok_inj in H. subst v. rewrite nval_neg, (px_len _ _ _ _ _ C Hx). reflexivity.
Qed.

Lemma has_used0 : has_used box0 used0.
Proof. constructor; cbn; try reflexivity; eexists; split; reflexivity. Qed.
Lemma whole_px_pos q : (0 <= whole_px q)%Z.
Proof. unfold whole_px. destruct (qc_eqb _ _); lia. Qed.

(** ** Trees *)
Section T.
Context {S : Type} (sty : S -> style).
Notation node := (node S).
Notation plb := (plb sty).

Lemma has_used_down t b u q : has_used b u -> nval t = u_top u + q -> has_used (upd_content_top t b) (move_down q u).
Proof. intros [] E. destruct u, b; constructor; assumption. Qed.
Lemma border_height_ref b u h : has_used b u -> border_box_height b = Ok h -> nval h = border_height u.
Proof.
  intros U H. unfold border_box_height in H. pose proof (hu_h _ _ U) as X. unfold border_height. destruct (u_h u) as [q|]; cbn [is_size or0] in *.
  2:{ rewrite X in H. discriminate. }
  destruct X as (x & E & Ex). rewrite E in H. cbn in H. apply Ok_inj in H. subst h.
  rewrite !nval_add. rewrite <- Ex, <- (hu_bt _ _ U), <- (hu_pt _ _ U), <- (hu_pb _ _ U), <- (hu_bb _ _ U). ring.
Qed.
Lemma border_bottom_ref b u h : has_used b u -> border_box_bottom b = Ok h -> nval h = border_bottom u.
Proof.
  intros U H. unfold border_box_bottom in H. pose proof (hu_h _ _ U) as X. unfold border_bottom. destruct (u_h u) as [q|]; cbn [is_size or0] in *.
  2:{ rewrite X in H. discriminate. }
  destruct X as (x & E & Ex). rewrite E in H. cbn in H. apply Ok_inj in H. subst h.
  rewrite !nval_add. rewrite <- Ex, <- (hu_top _ _ U), <- (hu_pb _ _ U), <- (hu_bb _ _ U). ring.
Qed.

(** Stacking: [F] is the reference layout of the children. *)
Definition flow_ref (F : node -> utree) (k : node) : utree := if blk sty k then F k else USkipped.
Lemma flowed_stack (F : node -> utree) lay ks b off bm ks' b' : flowed sty lay ks b off bm ks' b' ->
  (forall k, In k ks -> fresh sty k) ->
  (forall kt k k1, In k ks -> lay (upd_collapse_top kt b) k = Ok k1 -> shows k1 (F k)) ->
  (forall k, In k ks -> blk sty k = true -> exists u us, F k = UNode u us) ->
  Forall2 shows ks' (stack (nval off) bm (map (flow_ref F) ks)).
Proof.
  induction 1 as [ks b off bm Hn|k ks b off bm k1 kb kb' b' off' bm' ks2 b2 Hb Hl Hk Hp Hf IH]; intros HF HQ HB.
  - clear HQ HB. induction ks as [|k ks IH]; [constructor|]. cbn [map]. unfold flow_ref at 1. rewrite (Hn k (or_introl eq_refl)). cbn [stack].
    constructor; [|apply IH; intros k' I; [apply Hn|apply HF]; right; exact I].
    apply shows_skipped. intros kb Ek. destruct (fresh_nbox sty k (HF k (or_introl eq_refl))) as [Q|Q]; rewrite Q in Ek; [discriminate|].
    injection Ek as <-. apply has_used0.
  - assert (Sk : shows k1 (F k)).
    { apply (HQ (collapse_top b) k k1 (or_introl eq_refl)). destruct b; exact Hl. }
    cbn [map]. unfold flow_ref at 1. rewrite Hb. destruct (HB k (or_introl eq_refl) Hb) as (u & us & EF). rewrite EF in *.
    inversion Sk as [s1 i1 b1 ks1 u1 us1 Hu Hks E1 E2| |]; subst. cbn [n_box] in Hk. injection Hk as ->.
    unfold pplace in Hp. apply bindr_ok in Hp. destruct Hp as (o & Ho & Hp).
    apply bindr_ok in Hp. destruct Hp as (h & Hh & Hp). apply Ok_inj in Hp. injection Hp as <- <- <- <-.
    cbn [stack]. set (t := nval off + _).
    assert (Et : nval o = t).
    { unfold t. destruct bm as [m|].
      - apply bindr_ok in Ho. destruct Ho as (mt & Hm & Ho). apply Ok_inj in Ho. subst o.
        destruct (hu_mt _ _ Hu) as (x & E & Ex). rewrite E in Hm. apply Ok_inj in Hm. subst x. rewrite nval_add, nval_max, Ex. reflexivity.
      - apply Ok_inj in Ho. subst o. ring. }
    constructor.
    + unfold move_top. cbn [with_box]. constructor; [|exact Hks]. apply has_used_down; [exact Hu|].
      rewrite setn_val, nval_add, Et, (hu_top _ _ Hu). reflexivity.
    + rewrite nval_add, Et, (border_height_ref _ _ _ Hu Hh), (hu_cb _ _ Hu) in IH. apply IH.
      * intros k' Hk'. apply HF. right. exact Hk'.
      * intros kt k' k2 Hin Hl2. apply (HQ kt k' k2 (or_intror Hin)).
        destruct bm; [exact Hl2|]. unfold set_collapse_top in Hl2. destruct b; exact Hl2.
      * intros k' Hk'. apply HB. right. exact Hk'.
Qed.

Lemma shows_last (ks : list node) us : Forall2 shows ks us ->
  match last_kid us with
  | None => last_box ks = None
  | Some u => exists ob, last_box ks = Some ob /\ forall b, ob = Some b -> has_used b u
  end.
Proof.
  intros H. unfold last_kid, last_box.
  assert (R : Forall2 shows (rev ks) (rev us)).
  { induction H as [|k u ks us Hk H IH]; [constructor|]. cbn [rev]. apply Forall2_app; [exact IH|]. repeat constructor. exact Hk. }
  destruct R as [|k u ks' us' Hk _]; [reflexivity|]. destruct Hk; eexists; (split; [reflexivity|]); intros b' E; cbn [n_box] in E.
  - injection E as <-. assumption.
  - discriminate.
  - auto.
Qed.

(** The containing block [cb] is the area [a]. *)
Record area_is (d : display_t) (a : area) (cb : @cblock S) : Prop := {
  ai_w : is_size (cb_width d cb) (a_w a); ai_h : is_size (cb_height d cb) (a_h a);
  ai_spec : cb_style_height sty cb = a_spec_h a;
  ai_pos : forall s b, cb = CBNode s b -> nval (content_left b) = a_left a /\ nval (content_top b) = a_top a }.

Lemma ctx_area d v o : is_size v o -> ctx_is d (or0 o) (mkCtx d dummy_font v).
Proof.
  intros H. split; [reflexivity|]. split; [reflexivity|]. cbn [c_size]. intros x ->. destruct o as [q|]; [|discriminate].
  destruct H as (y & [= <-] & E). exact E.
Qed.
Lemma far_edge v o (x p : num) q : is_size v o -> nval p = q -> (h <-r as_num v ;; Ok (nadd p h)) = Ok x -> nval x = q + or0 o.
Proof.
  intros H <- E. destruct o as [h|]; [|cbn in H; subst v; discriminate]. destruct H as (y & -> & <-). cbn in E. apply Ok_inj in E. subst x.
  rewrite nval_add. reflexivity.
Qed.
Lemma shift_box_ref d a cb s b b' : area_is d a cb -> shift_box d dummy_font cb s b = Ok b' ->
  nval (content_left b') = nval (content_left b) + (if is_relative s then shift d (a_left a) (a_w a) (st_left s) (st_right s) else 0)
  /\ nval (content_top b') = nval (content_top b) + (if is_relative s then shift d (a_top a) (a_h a) (st_top s) (st_bottom s) else 0).
Proof.
  intros A W5. unfold shift_box in W5. destruct (is_relative s); [|apply Ok_inj in W5; subst b'; split; ring].
  apply bindr_ok in W5. destruct W5 as (vl & Hvl & W5). apply bindr_ok in W5. destruct W5 as (vt & Hvt & W5). apply Ok_inj in W5. cbv zeta in W5.
  rewrite <- (rel_offset_ref d (a_left a) (a_w a) _ _ _ _ _ _ Hvl (ctx_area d _ _ (ai_w _ _ _ A))).
  2:{ intros x E. destruct cb as [|s1 b1]; [discriminate|]. cbn in E. apply Ok_inj in E. subst x. apply (ai_pos _ _ _ A s1 b1 eq_refl). }
  2:{ intros x E. destruct cb as [|s1 b1]; [discriminate|]. cbn [cb_attr] in E. unfold content_right in E.
      eapply far_edge; [exact (ai_w _ _ _ A)| |exact E]. apply (ai_pos _ _ _ A s1 b1 eq_refl). }
  rewrite <- (rel_offset_ref d (a_top a) (a_h a) _ _ _ _ _ _ Hvt (ctx_area d _ _ (ai_h _ _ _ A))).
  2:{ intros x E. destruct cb as [|s1 b1]; [discriminate|]. cbn in E. apply Ok_inj in E. subst x. apply (ai_pos _ _ _ A s1 b1 eq_refl). }
  2:{ intros x E. destruct cb as [|s1 b1]; [discriminate|]. cbn [cb_attr] in E. unfold content_bottom in E.
      eapply far_edge; [exact (ai_h _ _ _ A)| |exact E]. apply (ai_pos _ _ _ A s1 b1 eq_refl). }
  subst b'. unfold move_top, move_left. split.
  - transitivity (nval (setn (nadd (content_left b) vl) (content_left b))); [destruct b; reflexivity|]. rewrite setn_val, nval_add. reflexivity.
  - transitivity (nval (setn (nadd (content_top b) vt) (content_top b))); [destruct b; reflexivity|]. rewrite setn_val, nval_add. reflexivity.
Qed.
Lemma format_node d a k : st_display (sty (n_style k)) <> None -> exists u us, format sty d a k = UNode u us.
Proof.
  destruct k as [s i bx ks]. cbn [n_style format]. intros D. destruct (st_display (sty s)) as [dk|]; [|congruence]. cbv zeta.
  match goal with |- exists u us, (match ?e with pair _ _ => _ end) = _ => destruct e as [[w ml] mr] end. eauto.
Qed.

(** The height, given the children. *)
Definition ref_height (d : display_t) (H w : Qc) (ph : option unit_) (s : style) (i : size) (last : option used) : option Qc :=
  if is_inline s then (if s_replaced i then Some (image_height d H w s i) else option_map nval (s_height i))
  else Some (used_block_height d H ph s last).
Lemma raw_height_ref d H w ph s i b b' (ks : list node) us : Forall2 shows ks us -> hdone d H w ph s i (last_box ks) b b' ->
  is_size (content_height b') (ref_height d H w ph s i (last_kid us)).
Proof.
  intros Hus HD. pose proof (hd_h _ _ _ _ _ _ _ _ _ HD) as Q. pose proof (hd_last _ _ _ _ _ _ _ _ _ HD) as L.
  unfold raw_height in Q. unfold ref_height. destruct (is_inline s); [exact Q|]. specialize (L eq_refl).
  unfold used_block_height. unfold spec_height in *. destruct (st_height s); [|exact Q]. destruct (L eq_refl) as [L1 L2].
  apply shows_last in Hus. destruct (last_kid us) as [u|]; [|rewrite Hus in Q; exact Q].
  destruct Hus as ([lb|] & El & Hl); [|congruence]. rewrite El in *. destruct (L2 lb eq_refl) as (x & Ex). rewrite Ex in Q.
  rewrite <- (border_bottom_ref _ _ _ (Hl lb eq_refl) Ex). exact Q.
Qed.
Lemma fresh_skipped (ks : list node) : (forall k, In k ks -> fresh sty k) -> Forall2 shows ks (map (fun _ => USkipped) ks).
Proof.
  induction ks as [|k ks IH]; intros H; constructor; [|apply IH; intros k' I; apply H; right; exact I].
  constructor. intros b Eb. destruct (fresh_nbox sty k (H k (or_introl eq_refl))) as [Q|Q]; rewrite Q in Eb; [discriminate|]. injection Eb as <-. apply has_used0.
Qed.
Lemma last_skipped (ks : list node) : ks <> [] -> last_kid (map (fun _ => USkipped) ks) = Some used0.
Proof.
  intros H. unfold last_kid. rewrite <- map_rev. destruct (rev ks) eqn:E; [|reflexivity]. exfalso. apply H. rewrite <- (rev_involutive ks), E. reflexivity.
Qed.

Lemma plb_format : forall fuel d cb n n' a, plb fuel d dummy_font cb n = Ok n' -> fresh sty n -> area_is d a cb -> shows n' (format sty d a n).
Proof.
  induction fuel as [|fuel IH]; intros d cb [s i bx ks] n' a Hp Hf A; [discriminate|].
  destruct (st_display (sty s)) as [dk|] eqn:Dk.
  2:{ apply plb_hidden in Hp; [|exact Dk]. subst n'. cbn [format with_box]. rewrite Dk. constructor. }
  assert (D : st_display (sty s) <> None) by congruence.
  destruct (fresh_box sty _ _ _ _ Hf D) as [Hbx Hkf].
  pose proof Hp as Hp0. apply plb_inv in Hp; [|exact D]. rewrite Hbx in Hp.
  destruct Hp as (b1 & b2 & ks' & b3 & b4 & b5 & -> & W1 & W2 & _ & _ & Hc & W4 & W5).
  pose proof (ctx_area d _ _ (ai_w _ _ _ A)) as CH. pose proof (ctx_area d _ _ (ai_h _ _ _ A)) as CV.
  change (mkCtx d dummy_font (cb_width d cb)) with (hctx d dummy_font cb) in CH.
  change (mkCtx d dummy_font (cb_height d cb)) with (vctx d dummy_font cb) in CV.
  set (W := or0 (a_w a)) in *. set (H := or0 (a_h a)) in *. rewrite (ai_spec _ _ _ A) in *.
  set (bt := border_len d W (st_border_top (sty s))). set (br := border_len d H (st_border_right (sty s))).
  set (bb := border_len d W (st_border_bottom (sty s))). set (bl := border_len d H (st_border_left (sty s))).
  set (pt := len d W (st_padding_top (sty s))). set (pr := len d H (st_padding_right (sty s))).
  set (pb := len d W (st_padding_bottom (sty s))). set (pl := len d H (st_padding_left (sty s))).
  set (mt := len0 d H (st_margin_top (sty s))).
  set (l := len0 d W (st_margin_left (sty s))). set (r := len0 d W (st_margin_right (sty s))).
  set (e := bl + pl + pr + br).
  set (inline := is_inline (sty s)). set (image := s_replaced i).
  (* widths *)
  assert (WD : exists w ml mr,
    (if inline then (if image then Some (image_width d W (W - e - l - r) (sty s) i) else option_map nval (s_width i), l, r)
     else let '(x, y, z) := widths d W e (sty s) in (Some x, y, z)) = (w, ml, mr)
    /\ wdone d W H (sty s) i b1 w ml mr (if inline && negb image then 0 else ml + bl + pl)).
  { destruct (hphase_kind _ _ _ _ _ _ _ W4) as [Hb|Hin].
    - pose proof (wphase_block_ref d W H _ _ _ _ _ CH CV W1 Hb) as Q. fold bl pl pr br in Q. fold e in Q.
      assert (Hi : inline = false) by (unfold inline, is_block_level, is_inline in *; destruct (st_display (sty s)) as [[]|]; congruence).
      rewrite Hi. cbn [andb]. destruct (widths d W e (sty s)) as [[x y] z]. exists (Some x), y, z. split; [reflexivity|exact Q].
    - pose proof (wphase_inline_ref d W H _ _ _ _ _ CH CV W1 Hin) as Q. cbv zeta in Q. fold bl pl pr br l r in Q. fold e in Q.
      assert (Hi : inline = true) by (unfold inline, is_inline; rewrite Hin; reflexivity). rewrite Hi. fold image in Q.
      destruct image; eexists _, l, r; (split; [reflexivity|]); exact Q. }
  destruct WD as (w & ml & mr & Ew & WD). set (lf := if inline && negb image then 0 else ml + bl + pl) in *.
  set (relative := is_relative (sty s)) in *.
  set (edge := (if inline then mt else 0) + bt + pt).
  assert (Hw : forall b', same_h b1 b' -> forall x, content_width b' = LNum x -> nval x = or0 w).
  { intros b' (_ & _ & _ & _ & _ & _ & _ & _ & _ & _ & E) x Ex. rewrite E in Ex. pose proof (wd_w _ _ _ _ _ _ _ _ _ _ WD) as Q. rewrite Ex in Q.
    destruct w as [q|]; [|discriminate]. destruct Q as (y & [= <-] & Q). exact Q. }
  assert (Emt : forall v, zero_auto v = zero_auto (margin_top b1) -> dflt (optv v) = mt).
  { intros v Ev. destruct (wd_mt _ _ _ _ _ _ _ _ _ _ WD) as (x & E & Ex). rewrite <- Ev in E. rewrite (zero_auto_num _ _ E) in *.
    unfold mt. exact Ex. }
  set (height := ref_height d H (or0 w) (a_spec_h a) (sty s) i).
  (* the first height phase *)
  assert (X2 : hv b1 b2 /\ nval (content_top b2) = (if relative then edge else 0)
    /\ zero_auto (margin_top b2) = zero_auto (margin_top b1) /\ zero_auto (margin_bottom b2) = zero_auto (margin_bottom b1)
    /\ (inline && negb image = true -> margin_bottom b2 = margin_bottom b1)
    /\ collapse_top b2 = collapse_top b1 /\ (inline = true -> collapse_bottom b2 = collapse_bottom b1)
    /\ (ks <> [] -> is_size (content_height b2) (if relative then height (Some used0) else Some 0))).
  { destruct relative.
    - pose proof (hphase_ref d H (or0 w) _ _ _ _ _ _ _ CV (Hw _ (same_h_refl b1)) W2) as HD.
      split; [apply HD|]. split; [|split; [|split; [|split; [|split; [|split]]]]].
      + rewrite (hd_top _ _ _ _ _ _ _ _ _ HD), (wd_top _ _ _ _ _ _ _ _ _ _ WD), (wd_bt _ _ _ _ _ _ _ _ _ _ WD), (wd_pt _ _ _ _ _ _ _ _ _ _ WD).
        rewrite (Emt _ eq_refl). fold inline bt pt. unfold edge. change (nval n0) with 0. ring.
      + rewrite (hd_mt _ _ _ _ _ _ _ _ _ HD). destruct (margin_top b1); reflexivity.
      + rewrite (hd_mb _ _ _ _ _ _ _ _ _ HD). destruct (is_inline _ && _); destruct (margin_bottom b1); reflexivity.
      + intros E. rewrite (hd_mb _ _ _ _ _ _ _ _ _ HD). fold inline image. rewrite E. reflexivity.
      + apply (hd_ct _ _ _ _ _ _ _ _ _ HD). rewrite (wd_ct _ _ _ _ _ _ _ _ _ _ WD). apply whole_px_pos.
      + intros E. rewrite (hd_cb _ _ _ _ _ _ _ _ _ HD); [fold inline; rewrite E; reflexivity|]. rewrite (wd_cb _ _ _ _ _ _ _ _ _ _ WD). apply whole_px_pos.
      + intros Hne. unfold height. rewrite <- (last_skipped ks Hne). eapply raw_height_ref; [apply fresh_skipped, Hkf|exact HD].
    - apply Ok_inj in W2. subst b2. split; [apply hv_refl|]. split; [rewrite (wd_top _ _ _ _ _ _ _ _ _ _ WD); reflexivity|].
      repeat (split; [auto|]). intros _. rewrite (wd_h _ _ _ _ _ _ _ _ _ _ WD). exists n0. split; reflexivity. }
  destruct X2 as (E12 & X2 & M2 & M3 & M4 & C2 & C3 & H2).
  pose proof Hc as Hc0. apply pchildren_kid in Hc0. destruct Hc0 as [[kt3 Hb3] _].
  assert (E23 : hv b2 b3) by (rewrite Hb3; destruct b2; repeat split).
  assert (Y3 : content_top b3 = content_top b2 /\ margin_top b3 = margin_top b2 /\ margin_bottom b3 = margin_bottom b2
    /\ collapse_bottom b3 = collapse_bottom b2) by (rewrite Hb3; destruct b2; repeat split).
  destruct Y3 as (Y1 & Y2 & Y3 & Y4).
  (* the children *)
  set (inner := mkArea w (if relative then height (Some used0) else Some 0) lf (if relative then edge else 0)
                 (match st_height (sty s) with Auto => None | Len u => Some u end)).
  assert (Kid : forall kt k k1, In k ks -> plb fuel d dummy_font (CBNode s (upd_collapse_top kt b2)) k = Ok k1 ->
     shows k1 (format sty d inner k)).
  { intros kt k k1 Ik Hl. apply (IH d (CBNode s (upd_collapse_top kt b2)) k k1 inner Hl (Hkf _ Ik)). destruct E12 as [E12 L12]. constructor.
    - cbn [cb_width inner a_w]. destruct E12 as (_ & _ & _ & _ & _ & _ & _ & _ & _ & _ & E12).
      replace (content_width (upd_collapse_top kt b2)) with (content_width b2) by (destruct b2; reflexivity). rewrite E12. apply (wd_w _ _ _ _ _ _ _ _ _ _ WD).
    - cbn [cb_height inner a_h]. replace (content_height (upd_collapse_top kt b2)) with (content_height b2) by (destruct b2; reflexivity).
      apply H2. intros ->. destruct Ik.
    - reflexivity.
    - intros s1 b0 [= <- <-]. cbn [inner a_left a_top]. split.
      + replace (content_left (upd_collapse_top kt b2)) with (content_left b2) by (destruct b2; reflexivity). rewrite L12. apply (wd_left _ _ _ _ _ _ _ _ _ _ WD).
      + replace (content_top (upd_collapse_top kt b2)) with (content_top b2) by (destruct b2; reflexivity). exact X2. }
  set (stacks := match dk with DBlock | DListItem => existsb (fun k => block_level (sty (n_style k))) ks | _ => false end).
  set (us := if stacks
              then stack 0 None (map (fun k => if block_level (sty (n_style k)) then format sty d inner k else USkipped) ks)
              else map (format sty d inner) ks).
  assert (Est : establishes_inline sty (Node s i (Some b2) ks) = negb stacks).
  { unfold establishes_inline, is_block_container, stacks. cbn [n_style n_intr n_kids]. rewrite Dk.
    change (fun k : node => is_block_level (sty (n_style k))) with (fun k : node => block_level (sty (n_style k))).
    destruct (hphase_kind _ _ _ _ _ _ _ W4) as [Hb|Hin].
    - pose proof (wphase_block _ _ _ _ _ _ W1 Hb) as (_ & _ & -> & _). unfold is_block_level in Hb. rewrite Dk in Hb. destruct dk; try discriminate; reflexivity.
    - rewrite Dk in Hin. injection Hin as ->. reflexivity. }
  assert (Hus : Forall2 shows ks' us).
  { unfold pchildren in Hc. rewrite Est in Hc. unfold us. destruct stacks; cbn [negb] in Hc.
    - apply pflow_flowed in Hc. change 0 with (nval n0). refine (flowed_stack (format sty d inner) _ _ _ _ _ _ _ Hc Hkf Kid _).
      intros k _ Hk. apply format_node. unfold blk, is_block_level in Hk. destruct (st_display (sty (n_style k))); congruence.
    - apply bindr_ok in Hc. destruct Hc as (r0 & Hr & Hc). apply Ok_inj in Hc. injection Hc as <- _. apply pall_forall2 in Hr.
      assert (Kid2 : forall k k1, In k ks -> plb fuel d dummy_font (CBNode s b2) k = Ok k1 -> shows k1 (format sty d inner k)).
      { intros k k1 Ik Hl. apply (Kid (collapse_top b2) k k1 Ik). destruct b2; exact Hl. }
      clear -Hr Kid2. induction Hr as [|k k1 l l' H1 H2 IH]; [constructor|]. cbn [map]. constructor.
      + apply Kid2; [left; reflexivity|exact H1].
      + apply IH. intros k2 k3 I2. apply Kid2. right. exact I2. }
  (* the second height phase *)
  pose proof (hv_trans _ _ _ E12 E23) as E13.
  pose proof (hphase_ref d H (or0 w) _ _ _ _ _ _ _ CV (Hw _ (proj1 E13)) W4) as HD.
  pose proof (hv_trans _ _ _ E13 (hd_hv _ _ _ _ _ _ _ _ _ HD)) as [E14 L14].
  pose proof (shift_box_same_h _ _ _ _ _ _ W5) as E45. pose proof (same_h_trans _ _ _ E14 E45) as E15.
  pose proof (shift_box_fix _ _ _ _ _ _ W5) as FX.
  destruct (shift_box_ref _ _ _ _ _ _ A W5) as [P5 P6]. fold relative in P5, P6.
  pose proof (hd_top _ _ _ _ _ _ _ _ _ HD) as P4. fold inline in P4.
  rewrite (Emt (margin_top b3)), Y1, X2 in P4 by (rewrite Y2; exact M2).
  destruct E13 as [E13 _]. unfold same_h in E13. destruct E13 as (_ & _ & _ & _ & E13a & _ & _ & _ & E13b & _).
  rewrite E13a, E13b, (wd_bt _ _ _ _ _ _ _ _ _ _ WD), (wd_pt _ _ _ _ _ _ _ _ _ _ WD) in P4. fold bt pt edge in P4.
  rewrite P4 in P6. rewrite L14, (wd_left _ _ _ _ _ _ _ _ _ _ WD) in P5.
  (* vertical margins *)
  destruct FX as (U1 & U2 & U3 & U4 & U5 & _ & _).
  set (mb := if inline && negb image && (match st_margin_bottom (sty s) with Auto => true | Len _ => false end)
            then None else Some (len0 d H (st_margin_bottom (sty s)))).
  assert (Vt : margin_top b5 = zero_auto (margin_top b1)) by (rewrite U1, (hd_mt _ _ _ _ _ _ _ _ _ HD), Y2; exact M2).
  assert (Vb : margin_bottom b5 = if inline && negb image then margin_bottom b1 else zero_auto (margin_bottom b1)).
  { rewrite U2, (hd_mb _ _ _ _ _ _ _ _ _ HD), Y3. fold inline image. destruct (inline && negb image); [apply M4; reflexivity|exact M3]. }
  assert (Vm : is_margin (margin_bottom b5) mb).
  { unfold mb. rewrite Vb. pose proof (wd_mb _ _ _ _ _ _ _ _ _ _ WD) as Q1. pose proof (wd_mba _ _ _ _ _ _ _ _ _ _ WD) as Q2.
    pose proof (wd_mbb _ _ _ _ _ _ _ _ _ _ WD) as Q3. destruct (inline && negb image); cbn [andb]; [|exact Q1].
    destruct (st_margin_bottom (sty s)); [exact (Q3 eq_refl)|]. cbn [is_margin]. rewrite <- Q2 by discriminate. exact Q1. }
  assert (Wm : whole_px (or0 mb) = whole_px (len0 d H (st_margin_bottom (sty s)))).
  { unfold mb. destruct (inline && negb image); cbn [andb]; [|reflexivity]. destruct (st_margin_bottom (sty s)); reflexivity. }
  (* extents *)
  set (first := if stacks then match us with UNode u _ :: _ => u_ct u | _ => 0%Z end else 0%Z).
  set (cbx := match st_height (sty s), last_kid us with
              | Auto, Some k => if inline then whole_px (or0 mb) else Z.max (whole_px (or0 mb)) (u_cb k)
              | _, _ => whole_px (or0 mb)
              end).
  assert (EX : collapse_top b5 = Z.max (whole_px mt) first /\ collapse_bottom b5 = cbx).
  { pose proof (plb_inputs sty _ _ _ _ _ _ Hp0) as Hin0.
    destruct (hphase_kind _ _ _ _ _ _ _ W4) as [Hb|Hin].
    - assert (Hi : inline = false) by (unfold inline, is_block_level, is_inline in *; destruct (st_display (sty s)) as [[]|]; congruence).
      destruct (call_block sty _ _ _ _ _ _ Hp0 Hb) as (b & h & mt0 & mb0 & B1 & _ & _ & _ & _ & _ & B8).
      cbn [n_box n_kids n_style] in *. injection B1 as <-. destruct (B8 Hf) as (B9 & B10 & _). rewrite B9, B10, Vt, Vb, Hi. cbn [andb].
      rewrite (wd_wt _ _ _ _ _ _ _ _ _ _ WD), (wd_wb _ _ _ _ _ _ _ _ _ _ WD). fold mt. split.
      + f_equal. unfold first_extent. rewrite (inputs_establishes sty _ _ Hin0). cbn [n_kids].
        change (establishes_inline sty (Node s i bx ks)) with (establishes_inline sty (Node s i (Some b2) ks)). rewrite Est.
        unfold first. destruct stacks; [|reflexivity]. cbn [negb]. clearbody us. clear -Hus. destruct Hus as [|k u l l' Hk _]; [reflexivity|].
        destruct Hk as [s1 i1 b1 k1 u us Hu _| |k Hk]; cbn [n_box]; [apply (hu_ct _ _ Hu)|reflexivity|].
        destruct (n_box k) as [kb|]; [|reflexivity]. apply (hu_ct _ _ (Hk kb eq_refl)).
      + unfold cbx, last_extent. rewrite Hi, Wm. pose proof (hd_last _ _ _ _ _ _ _ _ _ HD Hi) as L.
        destruct (st_height (sty s)); [|reflexivity]. destruct (L eq_refl) as [L1 _]. pose proof (shows_last _ _ Hus) as Sl.
        destruct (last_kid us) as [u|]; [|rewrite Sl; reflexivity]. destruct Sl as ([lb|] & El & Hl); [|congruence]. rewrite El.
        rewrite grow_max, (hu_cb _ _ (Hl lb eq_refl)). reflexivity.
    - assert (Hi : inline = true) by (unfold inline, is_inline; rewrite Hin; reflexivity).
      assert (Hs : stacks = false) by (unfold stacks; rewrite Dk in Hin; injection Hin as ->; reflexivity).
      assert (E3 : b3 = b2). { unfold pchildren in Hc. rewrite Est, Hs in Hc. cbn [negb] in Hc. apply bindr_ok in Hc. destruct Hc as (r0 & _ & Hc). apply Ok_inj in Hc. congruence. }
      split.
      + rewrite U3, (hd_ct _ _ _ _ _ _ _ _ _ HD); rewrite E3, C2, (wd_ct _ _ _ _ _ _ _ _ _ _ WD); fold mt; [|apply whole_px_pos].
        unfold first. rewrite Hs. pose proof (whole_px_pos mt). lia.
      + rewrite U4, (hd_cb _ _ _ _ _ _ _ _ _ HD); rewrite Y4, (C3 Hi), (wd_cb _ _ _ _ _ _ _ _ _ _ WD); [|apply whole_px_pos].
        fold inline. unfold cbx. rewrite Hi, Wm. destruct (st_height (sty s)), (last_kid us); reflexivity. }
  destruct EX as [EX1 EX2].
  (* assemble *)
  assert (G : format sty d a (Node s i bx ks) =
    UNode (mkUsed mt mr mb ml bt br bb bl pt pr pb pl w (height (last_kid us))
             (lf + (if relative then shift d (a_left a) (a_w a) (st_left (sty s)) (st_right (sty s)) else 0))
             (edge + (if relative then edge + shift d (a_top a) (a_h a) (st_top (sty s)) (st_bottom (sty s)) else 0))
             (Z.max (whole_px mt) first) cbx) us).
  { assert (Hi : inline = match dk with DInline => true | _ => false end) by (unfold inline, is_inline; rewrite Dk; destruct dk; reflexivity).
    cbn [format]. rewrite Dk. unfold cbx, first, us, inner, height, ref_height, edge, lf, mb. fold inline. rewrite Hi in *. cbv zeta.
    fold W H. fold bl pl pr br. fold e. fold l r. fold image. rewrite Ew. reflexivity. }
  rewrite G. constructor; [|exact Hus]. unfold same_h in E15. destruct E15 as (Q1 & Q2 & Q3 & Q4 & Q5 & Q6 & Q7 & Q8 & Q9 & Q10 & Q11).
  constructor; cbn [u_mt u_mr u_mb u_ml u_bt u_br u_bb u_bl u_pt u_pr u_pb u_pl u_w u_h u_left u_top u_ct u_cb].
  - rewrite Vt. apply (wd_mt _ _ _ _ _ _ _ _ _ _ WD).
  - rewrite Q2. apply (wd_mr _ _ _ _ _ _ _ _ _ _ WD).
  - exact Vm.
  - rewrite Q1. apply (wd_ml _ _ _ _ _ _ _ _ _ _ WD).
  - rewrite Q5. apply (wd_bt _ _ _ _ _ _ _ _ _ _ WD).
  - rewrite Q4. apply (wd_br _ _ _ _ _ _ _ _ _ _ WD).
  - rewrite Q6. apply (wd_bb _ _ _ _ _ _ _ _ _ _ WD).
  - rewrite Q3. apply (wd_bl _ _ _ _ _ _ _ _ _ _ WD).
  - rewrite Q9. apply (wd_pt _ _ _ _ _ _ _ _ _ _ WD).
  - rewrite Q8. apply (wd_pr _ _ _ _ _ _ _ _ _ _ WD).
  - rewrite Q10. apply (wd_pb _ _ _ _ _ _ _ _ _ _ WD).
  - rewrite Q7. apply (wd_pl _ _ _ _ _ _ _ _ _ _ WD).
  - rewrite Q11. apply (wd_w _ _ _ _ _ _ _ _ _ _ WD).
  - rewrite U5. eapply raw_height_ref; [exact Hus|exact HD].
  - exact P5.
  - rewrite P6. destruct relative; ring.
  - exact EX1.
  - exact EX2.
Qed.
End T.
