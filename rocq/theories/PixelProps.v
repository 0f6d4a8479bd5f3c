(** * Properties C139 and C140: only the pixel values of lengths matter *)
From Coq Require Import ZArith QArith Qcanon Qabs Qround Lqa Lia Bool String List.
From Verif Require Import PyNum NumFacts Float64 TextFacts FloatFacts FloatUnits FloatUnitsFacts FloatSpec FloatProps Units UnitsSpec UnitsFacts UnitsProps
  BoxModel BoxSpec BoxFacts Engine EngineSpec EngineGSpec EngineGrid EngineGProps EngineExamples EngineArith EngineArithFacts EngineFFacts EngineFSpec PixelSpec PixelFacts.
Import ListNotations.
Open Scope Z_scope.

(** ** The two arithmetics *)
Lemma zero_px_val u : u_eq_int u 0 = true -> u_kind u = KPx /\ (u_val u = PI 0 \/ u_val u = PF (Fin 0%Qc)).
Proof.
  unfold u_eq_int. destruct u as [k v]. cbn [u_kind u_val]. destruct k; try discriminate. intros H. split; [reflexivity|].
  destruct v as [z|[q|b|]]; cbn in H; try discriminate.
  - left. f_equal. destruct (qc_eqb_spec (Z2Qc z) (Z2Qc 0)) as [E|E]; [apply Z2Qc_inj in E; exact E|discriminate].
  - right. do 2 f_equal. destruct (qc_eqb_spec q (Z2Qc 0)) as [E|E]; [|discriminate]. rewrite E. apply Qc_is_canon. reflexivity.
Qed.
Lemma exact_sub : sub_exact exact_arith px.
Proof.
  constructor; try (intros; apply Ok_inj in H; symmetry; exact H).
  - intros c u x H. split; [exact H|]. cbn in H. unfold px in H. destruct (lu c u) as [k|e]; [|discriminate]. apply Ok_inj in H. exists k. symmetry. exact H.
  - intros c u H. left. destruct (zero_px_val u H) as [K V]. destruct u as [k v]. cbn in K, V. subst k. destruct V as [-> | ->]; vm_compute; reflexivity.
Qed.
(** The binary64 quotient of an int by 64 is a multiple of 1/64. *)
Lemma quotient_grid k r : b64 (k # 64) = Fin r -> on_grid r.
Proof.
  intros H. destruct (Z_le_gt_dec (Z.abs k) (2 ^ 53)) as [L|G].
  - assert (X := px_quotient k L). unfold fdiv_int, int_div in X. rewrite H in X. apply Ok_inj in X. injection X as ->. exists k. reflexivity.
  - assert (NZ : ~ (k # 64 == 0)%Q) by (unfold Qeq; cbn; lia).
    assert (P : (qpow2 47 < Qabs (k # 64))%Q) by (unfold Qabs, Qlt, qpow2; cbn -[Z.pow]; change (2 ^ 47) with 140737488355328 in *; lia).
    assert (P0 : (0 < Qabs (k # 64))%Q) by (assert (X := qpow2_gt0 47); lra).
    destruct (ilog2_spec _ P0) as [L1 L2]. unfold b64 in H. destruct (Qeq_bool (k # 64) 0) eqn:Z0; [apply Qeq_bool_eq in Z0; contradiction|].
    cbv zeta in H. set (L := ilog2 (Qabs (k # 64))) in *.
    assert (LL : 47 < L + 1) by (apply qpow2_lt_inv; lra).
    destruct (_ <=? _) in H; [discriminate|]. injection H as <-. set (m := round_half_even _). set (ex := Z.max (L - 52) (-1074)).
    exists (m * 2 ^ (ex + 6)). apply Qc_is_canon. cbn [this Q2Qc]. rewrite Qred_correct, this_qfrac.
    replace ex with ((ex + 6) + -6) at 1 by lia. rewrite qpow2_add, (qpow2_pos (ex + 6)) by lia.
    change (qpow2 (-6)) with (1 # 64). unfold Qeq, inject_Z, Qmult. cbn [Qnum Qden]. lia.
Qed.
Lemma px_f_grid c u x : px_f c u = Ok x -> exists k, x = lu_to_px k.
Proof.
  unfold px_f. destruct (lu_f c u) as [k|e]; [|discriminate]. cbn [bindr fdiv_int]. unfold int_div.
  destruct (b64 (k # 64)) as [v|s|] eqn:B; cbn [bindr]; try discriminate. intros H. apply Ok_inj in H. subst x.
  destruct (quotient_grid k v B) as [j ->]. exists j. reflexivity.
Qed.
Lemma rounded_sub : sub_exact rounded_arith px_f.
Proof.
  constructor.
  - intros x y r H. apply guarded_ok in H. tauto.
  - intros x y r H. apply guarded_ok in H. tauto.
  - intros x y r H. apply guarded_ok in H. tauto.
  - intros x r H. apply guarded_ok in H. tauto.
  - intros c u x H. split; [exact H|]. exact (px_f_grid c u x H).
  - intros c u H. left. destruct (zero_px_val u H) as [K V]. destruct u as [k v]. cbn in K, V. subst k. destruct V as [-> | ->]; vm_compute; reflexivity.
Qed.
Lemma rounded_checks : checks rounded_arith.
Proof.
  constructor; try reflexivity. intros c u x H. destruct (px_f_grid c u x H) as [k ->]. unfold gn. rewrite lu_to_px_val. exists k. reflexivity.
Qed.
Lemma rounded_conforms : conforms rounded_arith float_arith.
Proof.
  constructor.
  - exact (cf_add _ _ float_conforms).
  - exact (cf_sub _ _ float_conforms).
  - exact (cf_mul _ _ float_conforms).
  - exact (cf_half _ _ float_conforms).
  - reflexivity.
Qed.

(** ** A document and its boxes determine the document in pixels *)
Lemma in_pixels_unique P d {S} (sty : S -> style) (n : node S) : forall op out m m', in_pixels P d sty op n out m -> in_pixels P d sty op n out m' -> forget m = forget m' -> m = m'.
Proof.
  induction n as [s i bx ks IH] using node_ind'. intros op out m m' H H' F. inversion H as [op0 s0 i0 b0 ks0 out0 b1 ms X]; subst. inversion H' as [op0 s0 i0 b0 ks0 out0 b2 ms' X']; subst.
  injection F as -> F. f_equal. clear H H'. revert ms' X' F IH. revert X. generalize (n_kids out). intros os X. induction X as [|k o t ks os ts R X IHX]; intros ms' X' F IH; inversion X'; subst; [reflexivity|].
  injection F as F1 F2. f_equal; [eapply IH; [left; reflexivity|eassumption|eassumption|exact F1]|]. eapply IHX; [eassumption|exact F2|]. intros k' K. apply IH. right. exact K.
Qed.

Notation self := (fun s : style => s).
Section Props.
Context {S : Type} (sty : S -> style).
(** C139.  Replace every length of a laid out document by the pixels it converts
    to: there is such a document, with the same structure, intrinsic sizes and
    old boxes, and it is laid out with the same result, box for box. *)
Theorem C139_pixel_values : forall d h5 (n out : node S), ready sty n -> (h5 = false \/ is_relative (sty (n_style n)) = false) ->
  layout sty d h5 n = (out, Ok tt) ->
  (exists m, in_pixels px d sty None n out m /\ forget m = forget n)
  /\ forall m, in_pixels px d sty None n out m -> forget m = forget n ->
       exists out', layout self d h5 m = (out', Ok tt) /\ forget out' = forget out.
Proof.
  intros d h5 n out R H5 H. rewrite <- ex_layout in H. destruct (in_pixels_layout exact_arith px exact_sub sty d h5 n out R H5 H) as (m & out' & Hm & Fm & E & F).
  split; [exists m; split; assumption|]. intros m' Hm' Fm'. rewrite (in_pixels_unique _ _ _ _ _ _ _ _ Hm' Hm (eq_trans Fm' (eq_sym Fm))). exists out'. split; assumption.
Qed.
(** C140.  Layout in Python's floats gives exactly the boxes that exact
    arithmetic gives for the document whose lengths are replaced by the pixels
    they convert to in floats, unless some value on the way is above 2^46 px. *)
Theorem C140_rounded_document : forall d h5 (n out : node S), measured_display d -> measured_sizes n -> measured n ->
  ready sty n -> (h5 = false \/ is_relative (sty (n_style n)) = false) ->
  snd (layoutA rounded_arith sty d h5 n) <> Err Unmodelled ->
  layoutA float_arith sty d h5 n = (out, Ok tt) ->
  (exists m, in_pixels px_f d sty None n out m /\ forget m = forget n)
  /\ forall m, in_pixels px_f d sty None n out m -> forget m = forget n ->
       exists out', layout self d h5 m = (out', Ok tt) /\ forget out' = forget out.
Proof.
  intros d h5 n out D Z M R H5 NU H.
  destruct (s_layout _ _ rounded_checks rounded_conforms sty d h5 n D (proj2 (gtree_measured n) (conj M Z))) as [E|E]; [contradiction|]. rewrite <- E in H.
  destruct (in_pixels_layout rounded_arith px_f rounded_sub sty d h5 n out R H5 H) as (m & out' & Hm & Fm & E' & F).
  split; [exists m; split; assumption|]. intros m' Hm' Fm'. rewrite (in_pixels_unique _ _ _ _ _ _ _ _ Hm' Hm (eq_trans Fm' (eq_sym Fm))). exists out'. split; assumption.
Qed.
(** C139 and C140: the document in pixels has no other length. *)
Theorem C139_only_pixels : forall P d op (n out : node S) m, in_pixels P d sty op n out m ->
  forall p k u, get_path p m = Some k -> In u (lengths_of (n_style k)) -> exists x, u = pixels x.
Proof.
  intros P d op n out m H p. revert op n out m H. induction p as [|j p IH]; intros op n out m H k u Hp Hu.
  - injection Hp as <-. inversion H as [op0 s0 i0 b0 ks0 out0 b1 ms X]; subst. cbn [n_style] in Hu.
    assert (A : forall c v, In u (of_lenauto (in_lenauto P c v)) -> exists x, u = pixels x).
    { intros c [|w]; cbn; [intros []|]. intros [<-|[]]. apply in_px_pixels. }
    assert (B : forall c v, In u (of_option (in_option P c v)) -> exists x, u = pixels x).
    { intros c [w|]; cbn; [|intros []]. intros [<-|[]]. apply in_px_pixels. }
    assert (C : forall c v, In u (of_border (in_border P c v)) -> exists x, u = pixels x).
    { intros c [w|w]; cbn; [intros []|]. intros [<-|[]]. apply in_px_pixels. }
    assert (D : forall c v, In u (of_offset (in_offset P c v)) -> exists x, u = pixels x).
    { intros c [| |w]; cbn; [intros []|intros []|]. intros [<-|[]]. apply in_px_pixels. }
    unfold lengths_of, style_in_px in Hu. cbn [st_width st_height st_min_width st_min_height st_max_width st_max_height st_margin_top st_margin_right st_margin_bottom st_margin_left
      st_padding_top st_padding_right st_padding_bottom st_padding_left st_border_top st_border_right st_border_bottom st_border_left st_top st_right st_bottom st_left] in Hu.
    rewrite !in_app_iff in Hu. cbn [In] in Hu.
    repeat match type of Hu with _ \/ _ => destruct Hu as [Hu|Hu] | (_ \/ _) \/ _ => destruct Hu as [Hu|Hu] end; eauto; try (subst u; apply in_px_pixels); contradiction.
  - inversion H as [op0 s0 i0 b0 ks0 out0 b1 ms X]; subst. cbn [get_path n_kids] in Hp. destruct (nth_error ms j) as [t|] eqn:Ej; [|discriminate].
    assert (Y : exists a o, in_pixels P d sty (Some out) a o t).
    { apply nth_error_In in Ej. clear -X Ej. revert X. generalize (n_kids out). intros os X. induction X as [|a o t' ks os ts R X IHX]; [destruct Ej|]. destruct Ej as [->|Ej]; [eauto|exact (IHX Ej)]. }
    destruct Y as (a & o & Y). exact (IH _ _ _ _ Y k u Hp Hu).
Qed.
End Props.

(** ** Examples *)
(** Half of the 1000 px wide screen with a child of a tenth of that and an inch of left padding. *)
Definition p_leaf : doc := el (s_padding zero_px zero_px zero_px (mkU (KAbs "in" (qfrac 72 1)) (PI 1)) (s_size (Len (pctu 10)) (Len (pctu 25)) block_style)) [].
Definition p_doc : doc := el (s_size (Len (pctu 50)) (Len (mkU (KVp "vh" ScaleVh) (PI 40))) block_style) [p_leaf].
(** The same in pixels. *)
Definition p_leaf_px : doc := el (s_padding zero_px zero_px zero_px (pxu 96) (s_size (Len (pxu 50)) (Len (pxu 60)) block_style)) [].
Definition p_doc_px : doc := el (s_size (Len (pxu 500)) (Len (pxu 240)) block_style) [p_leaf_px].
Definition p_out : doc := fst (layout idsty screen false p_doc).
Definition p_out_f : doc := fst (layoutA float_arith idsty screen false p_doc).
Lemma p_ready : ready idsty p_doc.
Proof. apply ready_boxed. intros k [<-|[]]. apply ready_boxed. intros k []. Qed.
Lemma p_in_pixels P out : (P = px /\ out = p_out) \/ (P = px_f /\ out = p_out_f) -> in_pixels P screen idsty None p_doc out p_doc_px.
Proof.
  intros H. assert (L : in_pixels P screen idsty (Some out) p_leaf (kid 0 out) p_leaf_px).
  { refine (eq_ind _ (in_pixels P screen idsty (Some out) p_leaf (kid 0 out)) (InPixels P screen idsty (Some out) _ _ _ _ (kid 0 out) (Some box0) [] _) _ _).
    - replace (n_kids (kid 0 out)) with (@nil doc); [constructor|]. destruct H as [[-> ->]|[-> ->]]; vm_compute; reflexivity.
    - destruct H as [[-> ->]|[-> ->]]; vm_compute; reflexivity. }
  refine (eq_ind _ (in_pixels P screen idsty None p_doc out) (InPixels P screen idsty None _ _ _ _ out (Some box0) [p_leaf_px] _) _ _).
  - replace (n_kids out) with [kid 0 out]; [constructor; [exact L|constructor]|]. destruct H as [[-> ->]|[-> ->]]; vm_compute; reflexivity.
  - destruct H as [[-> ->]|[-> ->]]; vm_compute; reflexivity.
Qed.
Lemma p_measured : gtree p_doc.
Proof.
  assert (Z0 : gsize size0) by (repeat split; discriminate).
  assert (B0 : forall b, Some box0 = Some b -> gbox b) by (intros b E; injection E as <-; apply gbox0).
  constructor; [exact Z0|exact B0|]. intros k [<-|[]]. constructor; [exact Z0|exact B0|]. intros k [].
Qed.
Example C139_example : ready idsty p_doc /\ layout idsty screen false p_doc = (p_out, Ok tt)
  /\ in_pixels px screen idsty None p_doc p_out p_doc_px /\ forget p_doc_px = forget p_doc
  /\ lq (content_width (bx (kid 0 p_out))) = Some 50%Q /\ forget (fst (layout idsty screen false p_doc_px)) = forget p_out.
Proof.
  split; [exact p_ready|]. split; [vm_compute; reflexivity|]. split; [apply p_in_pixels; auto|]. split; [reflexivity|]. split; vm_compute; reflexivity.
Qed.
Example C140_example : measured_display screen /\ measured_sizes p_doc /\ measured p_doc /\ ready idsty p_doc
  /\ layoutA float_arith idsty screen false p_doc = (p_out_f, Ok tt) /\ snd (layoutA rounded_arith idsty screen false p_doc) <> Err Unmodelled
  /\ in_pixels px_f screen idsty None p_doc p_out_f p_doc_px /\ forget p_doc_px = forget p_doc.
Proof.
  pose proof (proj1 (gtree_measured p_doc) p_measured) as [M Z].
  split; [exact g_screen|]. split; [exact Z|]. split; [exact M|]. split; [exact p_ready|]. split; [vm_compute; reflexivity|]. split; [vm_compute; discriminate|].
  split; [apply p_in_pixels; auto|reflexivity].
Qed.

Print Assumptions C139_pixel_values.
Print Assumptions C139_only_pixels.
Print Assumptions C140_rounded_document.
