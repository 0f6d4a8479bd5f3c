(** * Properties C54, C55, C59, C67, C80: which documents are laid out *)
From Coq Require Import ZArith QArith Qcanon Lia Bool String List.
From Verif Require Import PyNum NumFacts Units BoxModel BoxSpec BoxFacts Engine EnginePure EngineFacts EngineSpec
  EngineTree EngineWidth EngineHeight EngineInv EngineTotal EngineExamples.
Import ListNotations.
Open Scope Z_scope.

(** The lengths that are convertible: all of the built-in length units with a
    finite magnitude.  (Angles and infinite or NaN magnitudes are not.) *)
Theorem finite_length_convertible : forall u q,
  In (u_kind u) (map u_kind [px_u; em_u; ex_u; ch_u; pt_u; pc_u; in_u; cm_u; mm_u; vh_u; vmax_u; vmin_u; vw_u; pct_u]) ->
  pval (u_val u) = Fin q -> convertible u.
Proof.
  intros [k v] q I E d f x. cbn [u_val u_kind] in *. cbn [map u_kind] in I.
  assert (Hn : forall a, nx a = Fin (nval a)) by reflexivity.
  unfold px, lu. cbn [u_val u_kind c_disp c_font c_size]. rewrite E.
  repeat (destruct I as [<-|I]; [unfold px_u, em_u, ex_u, ch_u, pt_u, pc_u, in_u, cm_u, mm_u, vh_u, vmax_u, vmin_u, vw_u, pct_u;
    cbn [u_kind font_attr String.eqb Ascii.eqb Bool.eqb bindr]; rewrite ?Hn; unfold lu64; cbn [xmul xround bindr as_num]; rewrite ?Hn;
    cbn [xmul xround bindr as_num]; eexists; reflexivity|]).
  destruct I.
Qed.
Theorem angle_not_convertible : forall s sc v, ~ convertible (mkU (KAngle s sc) v).
Proof.
  intros s sc v H. destruct (H screen dummy_font n0) as (p & E). discriminate.
Qed.

Section Props.
Context {S : Type} (sty : S -> style).
Notation node := (node S).

(** C54.  Every document of in-flow, block-level, non-replaced nodes with
    convertible lengths lays out, on every display, whatever its size or depth. *)
Theorem C54_block_documents_lay_out : forall d h5 (n : node),
  boxed n -> block_document sty n -> exists n', layout sty d h5 n = (n', Ok tt).
Proof. intros. apply layout_total; assumption. Qed.

(** C55.  If any node that takes part in layout uses an unsupported feature,
    layout raises. *)
Theorem C55_unsupported_raises : forall d h5 (n : node) op k,
  laid sty n op k -> unsupported (sty (n_style k)) (n_intr k) ->
  exists n' e, layout sty d h5 n = (n', Err e).
Proof.
  intros d h5 n op k L U. pose proof (unsupported_raises sty d h5 n op k L U) as H.
  destruct (layout sty d h5 n) as [n' [[]|e]]; [exfalso; eapply H; reflexivity|eauto].
Qed.

(** A node that is skipped: a child that is not block-level, of a block
    container that has block-level children. *)
Inductive skipped_on (root : node) : list nat -> Prop :=
| skip_here j p k : establishes_inline sty root = false -> nth_error (n_kids root) j = Some k ->
    is_block_level (sty (n_style k)) = false -> skipped_on root (j :: p)
| skip_below j p k : nth_error (n_kids root) j = Some k -> skipped_on k p -> skipped_on root (j :: p).

Lemma path_laid (root : node) p : forall op m k, laid sty root op m -> displayed_path sty p m -> get_path p m = Some k ->
  skipped_on m p \/ exists op', laid sty root op' k.
Proof.
  induction p as [|j p IH]; intros op m k L D G; inversion D as [? D0|? ? ? k' D0 E D1]; subst.
  - cbn in G. injection G as <-. right. eauto.
  - cbn in G. rewrite E in G.
    destruct (establishes_inline sty m) eqn:Ei; [|destruct (is_block_level (sty (n_style k'))) eqn:Bl].
    3:{ left. eapply skip_here; eassumption. }
    all: assert (L' : laid sty root (Some m) k') by
        (eapply laid_kid; [exact L|eapply nth_error_In, E| |auto]; inversion D1; assumption);
      destruct (IH _ _ _ L' D1 G) as [Sk|X]; [left; eapply skip_below; eassumption|right; exact X].
Qed.

(** C59, the part that holds: a displayed node (with displayed ancestors) has
    been laid out -- it has a box whose top padding is the one it specifies --
    unless it or an ancestor is an inline child next to a block child.  Missing:
    exactly those children, see the refutation. *)
Theorem C59_displayed_content_laid_out_partial : forall d h5 (n n' : node) p k,
  layout sty d h5 n = (n', Ok tt) -> displayed_path sty p n' -> get_path p n' = Some k -> ~ skipped_on n' p ->
  exists op b, laid sty n' op k /\ n_box k = Some b
    /\ length_is (width_ctx d op) (st_padding_top (sty (n_style k))) (nval (padding_top b))
    /\ length_is (width_ctx d op) (st_padding_bottom (sty (n_style k))) (nval (padding_bottom b)).
Proof.
  intros d h5 n n' p k H D G NS.
  assert (L0 : laid sty n' None n') by (apply laid_root; inversion D; assumption).
  destruct (path_laid n' p None n' k L0 D G) as [Sk|[op L]]; [contradiction|]. exists op.
  destruct (layout_laid sty d h5 n n' op k H L) as (fuel & cb & kin & k0 & Hp & _ & Fin & Hcb).
  destruct (call_inv sty d h5 fuel cb kin k0 False _ k Hp (fun f => match f with end) Fin)
    as (s & i & bx & ks & b1 & b2 & ks' & b3 & b4 & b5 & b & S1 & S2 & S3 & S4 & S5 & S6 & Fin' & _ & W1 & W2 & _ & _ & Hc & W4 & W5).
  exists b. split; [exact L|]. split; [exact S4|].
  rewrite (cb_ctx sty _ _ d op cb Hcb) in W1. rewrite S1.
  assert (E12 : same_h b1 b2).
  { destruct (is_relative (sty s)); [apply hphase_hv in W2; apply W2|]. apply Ok_inj in W2. subst. apply same_h_refl. }
  assert (E23 : same_h b2 b3).
  { apply pchildren_kid in Hc. destruct Hc as [[kt ->] _]. destruct b2; repeat split. }
  assert (E34 : same_h b3 b4) by (apply hphase_hv in W4; apply W4).
  assert (E45 : same_h b4 b5) by (eapply shift_box_same_h, W5).
  pose proof (final_same _ _ _ _ _ Fin') as (_ & _ & _ & b0 & bk & B0 & Bk & E56 & _).
  cbn [n_box] in B0. injection B0 as <-. rewrite n_box_strip, S4 in Bk. injection Bk as <-.
  assert (E : same_h b1 b).
  { eapply same_h_trans; [exact E12|]. eapply same_h_trans; [exact E23|]. eapply same_h_trans; [exact E34|].
    eapply same_h_trans; [exact E45|]. eapply same_h_trans; [exact E56|]. destruct b; repeat split. }
  assert (P : calc_len (width_ctx d op) (st_padding_top (sty s)) = Ok (padding_top b1)
           /\ calc_len (width_ctx d op) (st_padding_bottom (sty s)) = Ok (padding_bottom b1)).
  { clear -W1. unfold wphase in W1. apply bindr_ok in W1. destruct W1 as ([b0 []] & C & W1). apply copy_edges_run in C.
    destruct C as (mt & mr & mb & ml & bt & br & bb & bl & pt & pr & pb & pl & C1 & C2 & C3 & C4 & C5 & C6 & C7 & C8 & C9 & C10 & C11 & C12 & ->).
    apply bindr_ok in W1. destruct W1 as ([b2 ol] & C & W1). apply Ok_inj in W1. cbn [fst snd] in *.
    assert (K : keeps (fun b b' => padding_top b' = padding_top b /\ padding_bottom b' = padding_bottom b) (calculate_width (sty s) i (width_ctx d op))).
    { unfold calculate_width, inline_replaced_width, inline_non_replaced_width, block_non_replaced_width,
        drop_auto_margins, solve_right, solve_left, split_margins, left_edge, avail_width, auto_left0, auto_right0.
      repeat first
      [ apply keeps_bind; [intros ? ? ? [] []; split; congruence| |intros ?]
      | apply keeps_id; [intros; auto|intros; reflexivity]
      | match goal with |- keeps _ (match ?x with _ => _ end) => destruct x end
      | match goal with |- keeps _ (add_unless_auto _ ?f) =>
          let bb := fresh "bb" in intros bb; unfold add_unless_auto; destruct (is_auto (f bb)); auto end
      | match goal with |- keeps _ (bmod ?f) =>
          let bb := fresh "bb" in intros bb; unfold bmod; cbn [fst]; destruct bb; unfold set_margin_left, set_margin_right;
          repeat match goal with |- context[if ?x then _ else _] => destruct x end; repeat split end ]. }
    match type of C with run _ ?b0 = _ => specialize (K b0) end. unfold run in C.
    destruct (calculate_width (sty s) i (width_ctx d op) _) as [b3 [a|]]; [|discriminate]. apply Ok_inj in C. injection C as -> ->.
    cbn [fst] in K. destruct K as [K1 K2]. subst b1.
    assert (X : padding_top (match ol with Some l => move_left l b2 | None => b2 end) = padding_top b2
             /\ padding_bottom (match ol with Some l => move_left l b2 | None => b2 end) = padding_bottom b2) by (destruct ol, b2; split; reflexivity).
    destruct X as [-> ->]. rewrite K1, K2. split; assumption. }
  destruct P as [P1 P2]. rewrite calc_len_px in P1, P2.
  split.
  - exists (padding_top b1). split; [exact P1|]. unfold same_h in E. intuition congruence.
  - exists (padding_bottom b1). split; [exact P2|]. unfold same_h in E. intuition congruence.
Qed.

(** C80.  Layout never marks a box clean. *)
Theorem C80_boxes_stay_dirty : forall d h5 (n n' : node) op k b,
  layout sty d h5 n = (n', Ok tt) -> ready sty n -> laid sty n' op k ->
  is_block_level (sty (n_style k)) = true -> n_box k = Some b -> dirty b = Some true.
Proof.
  intros d h5 n n' op k b H R L B E. destruct (laid_vertical sty _ _ _ _ _ _ H L B) as (b' & h & cb & _ & VF).
  pose proof (vf_box _ _ _ _ _ _ _ _ _ _ VF) as Eb. rewrite E in Eb. injection Eb as <-. exact (vf_dirty _ _ _ _ _ _ _ _ _ _ VF R).
Qed.
End Props.

(** ** Examples *)
Lemma some_inj {A} (x y : A) : Some x = Some y -> x = y. Proof. congruence. Qed.
Definition rich_style : style :=
  s_border (BKw Medium) (BLen (pxu 2)) (BKw Thin) (BLen (mkU (KAbs "pt" (Z2Qc 1)) (PI 3)))
  (s_padding (pctu 5) (pxu 1) (emu 2) (mkU (KVp "vw" ScaleVw) (PI 3)) (s_margin Auto (Len (pctu 10)) (Len (pxu 4)) Auto
  (s_size (Len (pctu 50)) Auto block_style))).
Definition rich_doc : doc :=
  el rich_style [el (s_offsets (OLen (pctu 10)) OAuto OAuto (OLen (pxu 3)) (s_position PRelative rich_style)) [el rich_style []];
                 el (s_display (Some DTable) rich_style) [el (s_display (Some DListItem) rich_style) []]].
Ltac conv_tac := eapply finite_length_convertible; [cbn; auto 20|reflexivity].
Ltac conv_style := constructor; try (split; [discriminate|]); try (intros ? E; first [discriminate E|injection E as <-; conv_tac]); try conv_tac.
Example rich_doc_supported : boxed rich_doc /\ block_document idsty rich_doc.
Proof.
  split; [solve_boxed|].
  assert (C1 : convertible_style rich_style) by conv_style.
  assert (C2 : convertible_style (s_offsets (OLen (pctu 10)) OAuto OAuto (OLen (pxu 3)) (s_position PRelative rich_style))) by conv_style.
  assert (C3 : convertible_style (s_display (Some DTable) rich_style)) by conv_style.
  assert (C4 : convertible_style (s_display (Some DListItem) rich_style)) by conv_style.
  repeat first [ assumption | constructor; [cbn; auto|cbn; auto|reflexivity|reflexivity| |intros k I; cbn in I] | destruct I as [<-|I] | destruct I ].
Qed.
(** A float deep inside a document, below an inline formatting context. *)
Definition float_doc : doc :=
  el block_style [el block_style [el (s_display (Some DInline) block_style) [el (s_float (Some FRight) block_style) []]]].
Example float_doc_laid : exists op k, laid idsty float_doc op k /\ unsupported (n_style k) (n_intr k).
Proof.
  exists (Some (kid 0 (kid 0 float_doc))), (kid 0 (kid 0 (kid 0 float_doc))). split.
  - eapply laid_kid with (op := Some (kid 0 float_doc)); [|left; reflexivity|discriminate|right; reflexivity].
    eapply laid_kid with (op := Some float_doc); [|left; reflexivity|discriminate|left; reflexivity].
    eapply laid_kid with (op := None); [|left; reflexivity|discriminate|right; reflexivity].
    apply laid_root. discriminate.
  - eapply uns_float. reflexivity.
Qed.

(** C59 as stated is false: an inline child after a block child is never laid
    out; its 10px padding stays 0. *)
Definition mixed_doc : doc :=
  el block_style [el (hpx 40 block_style) []; el (s_padding (pxu 10) (pxu 10) (pxu 10) (pxu 10) (s_display (Some DInline) block_style)) []].
Theorem C59_mixed_content_refuted : exists (n n' : doc) k b,
  boxed n /\ all_displayed idsty n /\ layout idsty screen true n = (n', Ok tt) /\ n_kids n' = [kid 0 n'; k] /\ n_box k = Some b
  /\ st_padding_top (n_style k) = pxu 10 /\ nval (padding_top b) = 0%Qc.
Proof.
  exists mixed_doc, (out true mixed_doc), (kid 1 (out true mixed_doc)), (bx (kid 1 (out true mixed_doc))).
  split; [solve_boxed|]. split; [repeat first [constructor; [discriminate|intros k I; cbn in I] | destruct I as [<-|I] | destruct I]|].
  split; [apply ok_layout; vm_compute; reflexivity|]. do 3 (split; [vm_compute; reflexivity|]). apply qc_eq. vm_compute. reflexivity.
Qed.
(** The document of [rich_doc] satisfies the hypotheses of the positive part. *)
Example rich_doc_not_skipped : displayed_path idsty [1%nat; 0%nat] (out false rich_doc)
  /\ ~ skipped_on idsty (out false rich_doc) [1%nat; 0%nat] /\ ok false rich_doc = true.
Proof.
  split; [|split; [|vm_compute; reflexivity]].
  - eapply dp_kid with (k := kid 1 (out false rich_doc)); [vm_compute; discriminate|vm_compute; reflexivity|].
    eapply dp_kid with (k := kid 0 (kid 1 (out false rich_doc))); [vm_compute; discriminate|vm_compute; reflexivity|].
    apply dp_here. vm_compute. discriminate.
  - intros Sk. set (o := out false rich_doc) in *. inversion Sk as [j p k E N B|j p k N Sk']; subst.
    + assert (X : nth_error (n_kids o) 1 = Some (kid 1 o)) by (vm_compute; reflexivity). rewrite X in N. apply some_inj in N. rewrite <- N in *. clear N X.
      assert (Y : is_block_level (idsty (n_style (kid 1 o))) = true) by (vm_compute; reflexivity). rewrite Y in B. discriminate B.
    + assert (X : nth_error (n_kids o) 1 = Some (kid 1 o)) by (vm_compute; reflexivity). rewrite X in N. apply some_inj in N. rewrite <- N in *. clear N X.
      inversion Sk' as [j2 p2 k2 E N' B|j2 p2 k2 N' Sk2]; subst; [|inversion Sk2].
      assert (Y : establishes_inline idsty (kid 1 o) = true) by (vm_compute; reflexivity). rewrite Y in E. discriminate E.
Qed.

(** C67 as stated is false, already for the simplest document (and always, by
    [C80_boxes_stay_dirty]). *)
Theorem C67_dirty_after_layout_refuted : exists (n n' : doc) b,
  boxed n /\ layout idsty screen true n = (n', Ok tt) /\ n_box n' = Some b /\ dirty b = Some true.
Proof.
  exists (el block_style []), (out true (el block_style [])), (bx (out true (el block_style []))).
  split; [solve_boxed|]. split; [apply ok_layout; vm_compute; reflexivity|]. split; vm_compute; reflexivity.
Qed.

Print Assumptions finite_length_convertible.
Print Assumptions C54_block_documents_lay_out.
Print Assumptions C55_unsupported_raises.
Print Assumptions C59_displayed_content_laid_out_partial.
Print Assumptions C59_mixed_content_refuted.
Print Assumptions C67_dirty_after_layout_refuted.
Print Assumptions C80_boxes_stay_dirty.

(** ** The hypotheses of each theorem *)
Example C54_example : boxed rich_doc /\ block_document idsty rich_doc.
Proof. exact rich_doc_supported. Qed.
Example C55_example : exists op k, laid idsty float_doc op k /\ unsupported (n_style k) (n_intr k).
Proof. exact float_doc_laid. Qed.
Example C59_example : layout idsty screen false rich_doc = (out false rich_doc, Ok tt) /\ displayed_path idsty [1%nat; 0%nat] (out false rich_doc)
  /\ get_path [1%nat; 0%nat] (out false rich_doc) = Some (kid 0 (kid 1 (out false rich_doc))) /\ ~ skipped_on idsty (out false rich_doc) [1%nat; 0%nat].
Proof. split; [apply ok_layout, rich_doc_not_skipped|]. split; [apply rich_doc_not_skipped|]. split; [vm_compute; reflexivity|apply rich_doc_not_skipped]. Qed.
Example C80_example : layout idsty screen false rich_doc = (out false rich_doc, Ok tt) /\ ready idsty rich_doc
  /\ laid idsty (out false rich_doc) (Some (out false rich_doc)) (kid 1 (out false rich_doc)) /\ is_block_level (n_style (kid 1 (out false rich_doc))) = true.
Proof. split; [apply ok_layout, rich_doc_not_skipped|]. split; [apply boxed_ready, rich_doc_supported|]. split; [laid_tac|vm_compute; reflexivity]. Qed.
