(** * Facts about horizontal geometry after layout *)
From Coq Require Import ZArith QArith Qcanon Qround Lqa Lia Bool List.
From Verif Require Import PyNum NumFacts Units UnitsFacts BoxModel BoxSpec BoxFacts Engine EnginePure EngineFacts EngineSpec EngineTree.
Import ListNotations.
Open Scope Qc_scope.

Lemma calc_len_px c u : calc_len c u = px c u.
Proof.
  unfold calc_len, u_eq_int. destruct u as [k v]. cbn [u_kind u_val].
  destruct k; try reflexivity.
  destruct (py_num_eqb v (PI 0)) eqn:E; [|reflexivity].
  assert (M : pval v = Fin 0).
  { unfold py_num_eqb, xeqb in E. destruct v as [z|[q| |]]; cbn in *; try discriminate.
    - destruct (qc_eqb_spec (Z2Qc z) (Z2Qc 0)) as [H|]; [|discriminate]. rewrite H. reflexivity.
    - destruct (qc_eqb_spec q (Z2Qc 0)) as [H|]; [|discriminate]. rewrite H. reflexivity. }
  unfold px, lu. cbn [u_kind u_val]. rewrite M. reflexivity.
Qed.
Lemma calc_margin_spec c v m : calc_margin c v = Ok m -> specified c v (dflt (optv m)) /\ (v = Auto <-> optv m = None).
Proof.
  destruct v as [|u]; cbn; intros H.
  - apply Ok_inj in H. subst m. split; [constructor|]. cbn. tauto.
  - rewrite calc_len_px in H. apply bindr_ok in H. destruct H as (x & Hx & H). apply Ok_inj in H. subst m. cbn.
    split; [|split; discriminate]. apply spec_len. exists x. auto.
Qed.

Lemma hfloor_bounds q : 0 <= q - (hfloor q + hfloor q) /\ q - (hfloor q + hfloor q) < Z2Qc 2.
Proof.
  unfold hfloor. pose proof (Qfloor_bounds (this (q / Z2Qc 2))) as [B1 B2].
  set (z := Qfloor (this (q / Z2Qc 2))) in *. clearbody z.
  rewrite this_div, this_Z2Qc in B1, B2. unfold Qcle, Qclt. qc_push. change (inject_Z 2) with 2%Q.
  assert (E : (this q / inject_Z 2 == this q * (1#2))%Q) by (unfold Qdiv; reflexivity).
  rewrite E in B1, B2. split; lra.
Qed.

Section W.
Context {S : Type} (sty : S -> style).
Notation node := (node S).

Lemma cb_ctx (F G : Prop) d op cb : cb_for sty F G (option_map strip op) cb ->
  hctx d dummy_font cb = width_ctx d op.
Proof.
  intros H. destruct op as [p|]; cbn [option_map] in H; inversion H as [|p0 b bc Hb Hs Hh Hh2]; subst.
  - unfold hctx, width_ctx. cbn [cb_width containing_width]. rewrite n_box_strip in Hb.
    destruct (n_box p) as [b0|]; [|discriminate]. injection Hb as <-.
    assert (E : content_width bc = content_width b0).
    { unfold same_h in Hs. destruct b0; cbn in *. intuition congruence. }
    rewrite E. reflexivity.
  - reflexivity.
Qed.

Record width_facts d (op : option node) (s : style) (b : box) (vt : ctx) : Prop := {
  wf_flow : is_float s = false /\ is_abspos s = false;
  wf_eq : exists W ml mr cw w0 mrs mls,
    containing_width d op = LNum W
    /\ calc_margin (width_ctx d op) (st_margin_right s) = Ok mrs
    /\ calc_margin (width_ctx d op) (st_margin_left s) = Ok mls
    /\ margin_left b = LNum ml /\ margin_right b = LNum mr /\ content_width b = LNum cw
    /\ match st_width s with
       | Auto => w0 = None
       | Len u => exists x, clamped_width s u (width_ctx d op) = Ok x /\ w0 = Some (nval x)
       end
    /\ (nval cw, nval ml, nval mr)
       = hsolve (st_direction s) (nval W) (h_edges b) w0 (optv mls) (optv mrs)
    /\ (is_relative s = false ->
        nval (content_left b) = nval ml + nval (border_left_width b) + nval (padding_left b));
  wf_edges : calc_border (width_ctx d op) (st_border_top s) = Ok (border_top_width b)
    /\ calc_border vt (st_border_right s) = Ok (border_right_width b)
    /\ calc_border (width_ctx d op) (st_border_bottom s) = Ok (border_bottom_width b)
    /\ calc_border vt (st_border_left s) = Ok (border_left_width b)
    /\ calc_len (width_ctx d op) (st_padding_top s) = Ok (padding_top b)
    /\ calc_len vt (st_padding_right s) = Ok (padding_right b)
    /\ calc_len (width_ctx d op) (st_padding_bottom s) = Ok (padding_bottom b)
    /\ calc_len vt (st_padding_left s) = Ok (padding_left b) }.

Lemma call_width d h5 fuel cb kin k0 (op : option node) (k : node) :
  plb sty (Datatypes.S fuel) d dummy_font cb kin = Ok k0 -> final d h5 (option_map strip op) k0 (strip k) ->
  hctx d dummy_font cb = width_ctx d op -> is_block_level (sty (n_style k)) = true ->
  s_replaced (n_intr k) = false /\
  exists b, n_box k = Some b /\ width_facts d op (sty (n_style k)) b (vctx d dummy_font cb).
Proof.
  intros Hp Hf Hctx Hb. destruct (call_inv sty _ _ _ _ _ _ False _ _ Hp ltac:(tauto) Hf) as
    (s & i & bx & ks & b1 & b2 & ks' & b3 & b4 & b5 & b & S1 & S2 & S3 & S4 & _ & D & Fin & _ & W1 & W2 & A1 & A2 & Hc & W4 & W5).
  rewrite S1, S2 in *. apply wphase_block in W1; [|exact Hb].
  destruct W1 as (F1 & F2 & F3 & W & ml & mr & cw & w0 & mts & mrs & mbs & mls & D1 & D2 & D3 & D4 & D5 & D6 & D7 & D8 & D9 & D10 & D11 & D12 & D13 & D14 & D15 & D16 & D17 & D18 & D19 & _).
  split; [exact F3|]. exists b. split; [exact S4|].
  (* the fields survive to b *)
  assert (E12 : same_h b1 b2 /\ content_left b2 = content_left b1).
  { destruct (is_relative (sty s)); [apply hphase_hv in W2; exact W2|]. apply Ok_inj in W2. subst. split; [apply same_h_refl|reflexivity]. }
  assert (E23 : same_h b2 b3 /\ content_left b3 = content_left b2).
  { apply pchildren_kid in Hc. destruct Hc as [[kt ->] _]. destruct b2; repeat split. }
  assert (E34 : same_h b3 b4 /\ content_left b4 = content_left b3) by (apply hphase_hv in W4; exact W4).
  assert (E45 : same_h b4 b5 /\ (is_relative (sty s) = false -> content_left b5 = content_left b4)).
  { split; [eapply shift_box_same_h, W5|]. intros R. rewrite (shift_box_static _ _ _ _ _ _ W5 R). reflexivity. }
  pose proof (final_same _ _ _ _ _ Fin) as (_ & _ & _ & b0 & bk & B0 & Bk & E56 & E56l & _).
  cbn [n_box] in B0. injection B0 as <-. rewrite n_box_strip, S4 in Bk. injection Bk as <-.
  destruct E12 as [E12 L12], E23 as [E23 L23], E34 as [E34 L34], E45 as [E45 L45].
  assert (E : same_h b1 b).
  { eapply same_h_trans; [exact E12|]. eapply same_h_trans; [exact E23|]. eapply same_h_trans; [exact E34|].
    eapply same_h_trans; [exact E45|]. eapply same_h_trans; [exact E56|]. destruct b; repeat split. }
  assert (El : is_relative (sty s) = false -> content_left b = content_left b1).
  { intros R. specialize (L45 R). replace (content_left b) with (content_left (sb b)) by (destruct b; reflexivity). congruence. }
  clear E12 E23 E34 E45 E56 L12 L23 L34 L45 E56l W2 W4 W5 Hc Fin.
  rewrite Hctx in *.
  destruct E as (Q1 & Q2 & Q3 & Q4 & Q5 & Q6 & Q7 & Q8 & Q9 & Q10 & Q11).
  rewrite <- Q3, <- Q4, <- Q7, <- Q8 in D19. rewrite <- Q3, <- Q7 in D17.
  rewrite <- Q1 in D14. rewrite <- Q2 in D15. rewrite <- Q11 in D16.
  split.
  - auto.
  - exists W, ml, mr, cw, w0, mrs, mls. repeat (split; [assumption|]). intros R. rewrite (El R). exact D17.
  - rewrite Q3, Q4, Q5, Q6, Q7, Q8, Q9, Q10. auto 10.
Qed.

Lemma laid_width d h5 (n n' : node) op k : layout sty d h5 n = (n', Ok tt) -> laid sty n' op k ->
  is_block_level (sty (n_style k)) = true -> s_replaced (n_intr k) = false /\
  exists b cb, n_box k = Some b /\ cb_for sty (ready sty n) (h5 = false) (option_map strip op) cb
    /\ width_facts d op (sty (n_style k)) b (vctx d dummy_font cb).
Proof.
  intros H L Hb. destruct (layout_laid sty _ _ _ _ _ _ H L) as (fuel & cb & kin & k0 & Hp & Hf & Hfin & Hcb).
  destruct (call_width _ _ _ _ _ _ _ _ Hp Hfin (cb_ctx _ _ d _ _ Hcb) Hb) as (A & b & B & C).
  split; [exact A|]. exists b, cb. auto.
Qed.

(** The vertical context of a node: heights seen during layout. *)
Lemma cb_vctx (F G : Prop) d op cb : cb_for sty F G (option_map strip op) cb -> F ->
  (forall p, op = Some p -> is_relative (sty (n_style p)) = true -> G) ->
  vctx d dummy_font cb = height_ctx sty d op.
Proof.
  intros H f g. destruct op as [p|]; cbn [option_map] in H; inversion H as [|p0 b bc Hb Hs Hh Hh2]; subst; [|reflexivity].
  unfold vctx, height_ctx. cbn [cb_height height_ref]. rewrite n_box_strip in Hb.
  rewrite n_style_strip in *.
  destruct (n_box p) as [b0|]; [|discriminate]. injection Hb as <-. f_equal.
  destruct (is_relative (sty (n_style p))) eqn:R.
  - rewrite (Hh2 f (g p eq_refl R) eq_refl). unfold rel_ref. destruct b0; reflexivity.
  - apply Hh; auto.
Qed.

Lemma laid_width_v d h5 (n n' : node) op p k : layout sty d h5 n = (n', Ok tt) -> ready sty n ->
  laid sty n' op p -> In k (n_kids p) -> displayed sty k ->
  (establishes_inline sty p = true \/ is_block_level (sty (n_style k)) = true) ->
  is_block_level (sty (n_style k)) = true ->
  (is_relative (sty (n_style p)) = true -> op <> None \/ h5 = false) ->
  exists b, n_box k = Some b /\ width_facts d (Some p) (sty (n_style k)) b (height_ctx sty d (Some p)).
Proof.
  intros H R L Hk D Hx Hb G.
  destruct (layout_laid_kid sty _ _ _ _ _ _ _ H L Hk D Hx) as (fuel & cb & kin & k0 & Hp & Hf & Hfin & Hcb).
  destruct (call_width _ _ _ _ _ _ (Some p) _ Hp Hfin (cb_ctx _ _ d (Some p) _ Hcb) Hb) as (A & b & B & C).
  exists b. split; [exact B|]. rewrite (cb_vctx _ _ d (Some p) cb Hcb R) in C; [exact C|].
  intros q [= <-]. exact G.
Qed.
Lemma laid_width_root d h5 (n n' : node) : layout sty d h5 n = (n', Ok tt) ->
  is_block_level (sty (n_style n')) = true ->
  exists b, n_box n' = Some b /\ width_facts d None (sty (n_style n')) b (height_ctx sty d None).
Proof.
  intros H Hb. destruct (laid_width d h5 n n' None n' H) as (_ & b & cb & B & Cb & C); [|exact Hb|].
  - apply laid_root. unfold displayed. unfold is_block_level in Hb. destruct (st_display _); congruence.
  - exists b. split; [exact B|]. inversion Cb; subst. exact C.
Qed.
End W.
