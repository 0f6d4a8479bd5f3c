(** * Inline replaced elements *)
From Coq Require Import ZArith QArith Qcanon Lqa Lia Bool List.
From Verif Require Import PyNum NumFacts Units BoxModel BoxSpec BoxFacts Engine EnginePure EngineFacts EngineSpec
  EngineTree EngineWidth EngineHeight.
Import ListNotations.
Open Scope Qc_scope.

Lemma nround_nearest a : nearest_pixel (nround a) (nval a).
Proof.
  destruct a as [x|q]; unfold nearest_pixel; cbn [nround nval].
  - split; [qclra|]. split; [qclra|]. intros [E|E]; exfalso; apply (f_equal this) in E; assert (X : (this (Z2Qc x) == this (Z2Qc x))%Q) by reflexivity; rewrite E in X at 1;
      rewrite ?this_sub, ?this_add, ?this_Z2Qc, ?this_qfrac in X; lra.
  - pose proof (rhe_cases (this q)) as C. cbv zeta in C. unfold Qcle. rewrite this_sub, this_add, this_Z2Qc, this_qfrac.
    split; [destruct C as [C|[_ [C|C]]]; lra|]. split; [destruct C as [C|[_ [C|C]]]; lra|].
    intros E. apply Z.even_spec. destruct C as [C|[C _]]; [|exact C]. exfalso.
    destruct E as [E|E]; apply (f_equal this) in E; assert (X : (this q == this q)%Q) by reflexivity; rewrite E in X at 1; rewrite ?this_sub, ?this_add, ?this_Z2Qc, ?this_qfrac in X; lra.
Qed.
Lemma nmin_smaller a b : smaller_of (nval a) (nval b) (nval (nmin a b)).
Proof. unfold smaller_of, nmin, nltb. destruct (qc_ltb_spec (nval b) (nval a)); (split; [auto|]); split; qclra. Qed.

(** Used width of an inline replaced element. *)
Lemma wphase_replaced s i hz vt b b' : wphase s i hz vt b = Ok b' -> st_display s = Some DInline -> s_replaced i = true ->
  exists w, content_width b' = LNum w /\ replaced_width hz s i b' w.
Proof.
  unfold wphase, calculate_width. intros H D R. inv_ok. destruct (is_float s); [discriminate|]. destruct (is_abspos s); [discriminate|].
  unfold is_inline in Hx0. rewrite D, R in Hx0. destruct x as [b1 u]. cbn [fst snd] in *. clear Hx.
  unfold inline_replaced_width, auto_left0, auto_right0 in Hx0. run_simpl Hx0.
  set (b2 := if is_auto (margin_left b1) then _ else _) in Hx0.
  set (b3 := if is_auto (margin_right b2) then _ else _) in Hx0.
  clearbody b3. clear b2 b1 u.
  match type of Hx0 with bindr ?m _ = _ => destruct m as [[b4 w]|] eqn:E; [|discriminate] end.
  cbn [bindr fst snd] in Hx0. run_simpl Hx0. destruct (run left_edge (upd_content_width (LNum w) b4)) as [[b5 l]|] eqn:El; [|discriminate].
  apply left_edge_run in El. destruct El as (ml & _ & El & _). cbn [bindr fst snd] in *. subst b5. run_simpl Hx0.
  apply Ok_inj in Hx0. subst x0. cbn [fst snd] in H. subst b'. exists w.
  split; [destruct b4; reflexivity|].
  destruct (st_width s) as [|u] eqn:Ew.
  - assert (Dft : st_height s <> Auto \/ s_ratio i = None -> s_width i = None -> w = NI 300 ->
       replaced_width hz s i (move_left l (upd_content_width (LNum w) b4)) w).
    { intros A B ->. apply rw_default; auto. }
    destruct (s_width i) as [iw|] eqn:Ei.
    { assert (w = iw) as -> by (destruct (st_height s); run_simpl E; apply Ok_inj in E; congruence). apply rw_intrinsic; auto. }
    destruct (st_height s) as [|u] eqn:Eh.
    + destruct (s_height i) as [ih|] eqn:Ej.
      * destruct (s_ratio i) as [r|] eqn:Er; run_simpl E; apply Ok_inj in E; injection E as <- <-.
        -- eapply rw_ratio; eauto. rewrite <- nval_mul. apply nround_nearest.
        -- apply Dft; auto.
      * destruct (s_ratio i) as [r|] eqn:Er.
        -- apply avail_width_run in E. destruct E as (sz & ml' & mr & E1 & E2 & E3 & E4 & E5). cbn [fst snd] in *. subst b4.
           eapply rw_fill; eauto; [destruct b3; reflexivity|].
           replace (nval sz) with (nval ml' + nval (border_left_width b3) + nval (padding_left b3) + nval w
                   + nval (padding_right b3) + nval (border_right_width b3) + nval mr) by (rewrite E5; ring).
           destruct b3. unfold move_left. cbn in *. apply (total_width_intro (mkBox _ _ _ _ _ _ _ _ _ _ _ _ _ _ _ _ _ _ _ _ _ _ _) ml' w mr); cbn; auto.
        -- run_simpl E. apply Ok_inj in E. injection E as <- <-. apply Dft; auto.
    + run_simpl E. apply Ok_inj in E. injection E as <- <-. apply Dft; auto. left. discriminate.
  - run_simpl E. destruct (px hz u) as [p|] eqn:Ep; [|discriminate]. apply Ok_inj in E. injection E as <- <-.
    eapply rw_specified; eauto.
Qed.

Lemma truthy_spec o : if truthy o then exists x, o = Some x /\ nval x <> 0 else no_number o.
Proof.
  destruct o as [x|]; cbn.
  - destruct (neqb_spec x n0) as [E|E]; cbn.
    + intros y [= <-]. exact E.
    + exists x. split; [reflexivity|]. exact E.
  - intros x [=].
Qed.

Lemma hphase_replaced s i ph last vt b b' : hphase s i ph last vt b = Ok b' -> st_display s = Some DInline -> s_replaced i = true ->
  content_width b' = content_width b /\
  exists h, content_height b' = LNum h /\ forall w, content_width b = LNum w -> replaced_height vt s i w h.
Proof.
  intros H D R. split.
  { apply hphase_hv in H. destruct H as [H _]. unfold same_h in H. intuition congruence. }
  unfold hphase, calculate_height in H. inv_ok. destruct (is_float s); [discriminate|]. destruct (is_abspos s); [discriminate|].
  unfold is_inline in Hx. rewrite D, R in Hx.
  unfold inline_replaced_height, auto_top0, auto_bottom0 in Hx. run_simpl Hx.
  set (b2 := if is_auto (margin_top b) then _ else _) in Hx.
  set (b3 := if is_auto (margin_bottom b2) then _ else _) in Hx.
  assert (E3 : content_width b3 = content_width b).
  { unfold b3, b2. destruct b; unfold set_margin_top, set_margin_bottom. 
    repeat match goal with |- context[if ?x then _ else _] => destruct x end; reflexivity. }
  clearbody b3. clear b2.
  match type of Hx with bindr ?m _ = _ => destruct m as [[b4 h]|] eqn:E; [|discriminate] end.
  cbn [bindr fst snd] in Hx. run_simpl Hx.
  assert (Ex : content_height (fst x) = LNum h).
  { unfold top_edge in Hx. run_simpl Hx. destruct (as_num _); [|discriminate]. cbn [bindr fst snd] in Hx. run_simpl Hx.
    apply Ok_inj in Hx. subst x. destruct b4; reflexivity. }
  exists h. split; [subst b'; unfold move_top; destruct (fst x); exact Ex|]. intros w Ew. clear Hx Ex H.
  rewrite <- E3 in Ew.
  assert (G : forall b6 h6, run (w0 <- bnum content_width ;; bret (nmin (nhalf w0) (NI 150)))%bm b3 = Ok (b6, h6) -> h6 = nmin (nhalf w) (NI 150)).
  { intros b6 h6 X. run_simpl X. rewrite Ew in X. cbn [as_num bindr fst snd] in X. run_simpl X. apply Ok_inj in X. congruence. }
  destruct (st_height s) as [|u] eqn:Eh.
  - assert (K : st_width s <> Auto \/ s_height i = None -> run (match s_ratio i with
                | Some r =>
                    if truthy (s_ratio i)
                    then w <- bnum content_width ;; bret (nmul w r)
                    else match s_height i with
                         | Some h =>
                             if truthy (s_height i) then bret h
                             else w <- bnum content_width ;; bret (nmin (nhalf w) (NI 150))
                         | None => w <- bnum content_width ;; bret (nmin (nhalf w) (NI 150))
                         end
                | None =>
                    match s_height i with
                    | Some h =>
                        if truthy (s_height i) then bret h
                        else w <- bnum content_width ;; bret (nmin (nhalf w) (NI 150))
                    | None => w <- bnum content_width ;; bret (nmin (nhalf w) (NI 150))
                    end
                end)%bm b3 = Ok (b4, h) -> replaced_height vt s i w h).
    { intros A X. pose proof (truthy_spec (s_ratio i)) as T1. pose proof (truthy_spec (s_height i)) as T2.
      assert (X' : if truthy (s_ratio i) then exists r, s_ratio i = Some r /\ nval r <> 0 /\ h = nmul w r
        else if truthy (s_height i) then s_height i = Some h else h = nmin (nhalf w) (NI 150)).
      { destruct (s_ratio i) as [r|].
        - destruct (truthy (Some r)).
          + run_simpl X. rewrite Ew in X. cbn [as_num bindr fst snd] in X. run_simpl X. apply Ok_inj in X. destruct T1 as (x' & [= ->] & T1). exists x'. split; [reflexivity|].
            split; [exact T1|]. congruence.
          + destruct (s_height i) as [ih|]; [|apply (G _ _ X)]. destruct (truthy (Some ih)); [|apply (G _ _ X)].
            run_simpl X. apply Ok_inj in X. congruence.
        - cbn [truthy]. destruct (s_height i) as [ih|]; [|apply (G _ _ X)]. destruct (truthy (Some ih)); [|apply (G _ _ X)].
          run_simpl X. apply Ok_inj in X. congruence. }
      clear X. destruct (truthy (s_ratio i)).
      - destruct X' as (r & E1 & E2 & ->). eapply rh_ratio; eauto. apply nval_mul.
      - destruct (truthy (s_height i)).
        + destruct T2 as (h' & E1 & E2). rewrite E1 in X'. injection X' as ->. eapply rh_intrinsic; eauto.
          destruct A as [A|A]; [exact A|congruence].
        + rewrite X'. apply rh_default; auto. change (smaller_of (hfloor (nval w)) (nval (NI 150)) (nval (nmin (nhalf w) (NI 150)))). rewrite <- nval_half. apply nmin_smaller. }
    destruct (st_width s) as [|uw] eqn:Eu.
    + destruct (s_height i) as [ih|] eqn:Ei.
      * run_simpl E. apply Ok_inj in E. injection E as _ <-. apply rh_both_auto; auto.
      * apply K; auto.
    + apply K; [left; discriminate|]. exact E.
  - run_simpl E. destruct (px vt u) as [p|] eqn:Ep; [|discriminate]. apply Ok_inj in E. injection E as _ <-.
    eapply rh_specified; eauto.
Qed.

Section R.
Context {S : Type} (sty : S -> style).
Notation node := (node S).

Lemma final_height d h5 (op : option node) (k0 k : node) b0 b : final d h5 op k0 k -> op <> None \/ h5 = false ->
  n_box k0 = Some b0 -> n_box k = Some b -> content_height b = content_height b0.
Proof.
  destruct op as [p|]; cbn [final].
  - intros (b1 & t & E & ->) _ E0 E1. rewrite with_box_box in E1. injection E1 as <-. rewrite E0 in E. injection E as <-. destruct b0; reflexivity.
  - intros H [A|A]; [congruence|]. subst h5. destruct k0 as [s i [b1|] ks]; [|discriminate]. cbn [pfinish] in H. apply Ok_inj in H. subst k.
    cbn [n_box]. intros [= <-] [= <-]. unfold move_top. destruct b1; reflexivity.
Qed.

Lemma laid_replaced d h5 (n n' : node) op k : layout sty d h5 n = (n', Ok tt) -> ready sty n -> laid sty n' op k -> parent_ok sty h5 n' op ->
  st_display (sty (n_style k)) = Some DInline -> s_replaced (n_intr k) = true -> op <> None \/ h5 = false ->
  exists b w h, n_box k = Some b /\ content_width b = LNum w /\ content_height b = LNum h
    /\ replaced_width (width_ctx d op) (sty (n_style k)) (n_intr k) b w
    /\ replaced_height (height_ctx sty d op) (sty (n_style k)) (n_intr k) w h.
Proof.
  intros H Rd L P D R A. destruct (laid_call sty _ _ _ _ _ _ H L P) as (fuel & cb & kin & k0 & Hp & Hf & Hfin & C1 & C2 & C3).
  destruct (call_inv sty _ _ _ _ _ _ False _ _ Hp ltac:(tauto) Hfin) as
    (s & i & bx & ks & b1 & b2 & ks' & b3 & b4 & b5 & b & S1 & S2 & S3 & S4 & _ & Dk & Fin & _ & W1 & W2 & A1 & A2 & Hc & W4 & W5).
  rewrite S1, S2 in *. rewrite C1, (C3 Rd) in *.
  apply wphase_replaced in W1; [|exact D|exact R]. destruct W1 as (w & W1 & W1').
  assert (E12 : same_h b1 b2).
  { destruct (is_relative (sty s)); [apply hphase_hv in W2; apply W2|]. apply Ok_inj in W2. subst. apply same_h_refl. }
  assert (E23 : same_h b2 b3).
  { apply pchildren_kid in Hc. destruct Hc as [[kt ->] _]. destruct b2; repeat split. }
  pose proof (hphase_hv _ _ _ _ _ _ _ W4) as [E34 _].
  apply hphase_replaced in W4; [|exact D|exact R]. destruct W4 as (_ & h & W4 & W4').
  pose proof (shift_box_same_h _ _ _ _ _ _ W5) as E45. pose proof (shift_box_fix _ _ _ _ _ _ W5) as (_ & _ & _ & _ & E45' & _).
  pose proof (final_same _ _ _ _ _ Fin) as (_ & _ & _ & b0 & bk & B0 & Bk & E56 & _).
  pose proof (final_height _ _ _ _ _ _ _ Fin ltac:(destruct op; [left; discriminate|destruct A; [congruence|right; assumption]]) B0 Bk) as E56'.
  cbn [n_box] in B0. injection B0 as <-. rewrite n_box_strip, S4 in Bk. injection Bk as <-.
  assert (E : same_h b1 b).
  { eapply same_h_trans; [exact E12|]. eapply same_h_trans; [exact E23|]. eapply same_h_trans; [exact E34|].
    eapply same_h_trans; [exact E45|]. eapply same_h_trans; [exact E56|]. destruct b; repeat split. }
  assert (E13 : same_h b1 b3) by (exact (same_h_trans _ _ _ E12 E23)).
  exists b, w, h. split; [exact S4|].
  assert (Ew : content_width b = LNum w) by (unfold same_h in E; intuition congruence).
  assert (Eh : content_height b = LNum h).
  { replace (content_height b) with (content_height (sb b)) by (destruct b; reflexivity). congruence. }
  split; [exact Ew|]. split; [exact Eh|]. split.
  - inversion W1'; subst; try solve [econstructor; eassumption].
    eapply rw_fill; try eassumption.
    match goal with T : total_width b1 _ |- _ => inversion T as [ml w1 mr T1 T2 T3 T4]; subst end.
    unfold same_h in E. destruct E as (Q1 & Q2 & Q3 & Q4 & Q5 & Q6 & Q7 & Q8 & Q9 & Q10 & Q11).
    rewrite <- Q3, <- Q4, <- Q7, <- Q8. constructor; congruence.
  - apply W4'. unfold same_h in E13. intuition congruence.
Qed.
End R.
