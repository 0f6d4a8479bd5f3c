(** * What layout depends on *)
From Coq Require Import ZArith QArith Qcanon Lqa Lia Bool List.
From Verif Require Import PyNum NumFacts Units BoxModel BoxSpec BoxFacts Engine EnginePure EngineFacts EngineSpec EngineTree EngineWidth EngineInv.
Import ListNotations.
Open Scope Z_scope.

Definition beq {A} (m m' : BM A) : Prop := forall b, m b = m' b.
Lemma beq_refl {A} (m : BM A) : beq m m. Proof. intros b. reflexivity. Qed.
Lemma beq_bind {A B} (m m' : BM A) (f f' : A -> BM B) : beq m m' -> (forall a, beq (f a) (f' a)) -> beq (bbind m f) (bbind m' f').
Proof. intros H1 H2 b. unfold bbind. rewrite H1. destruct (m' b) as [b' [a|e]]; [apply H2|reflexivity]. Qed.
Lemma beq_lift {A} (r r' : res A) : r = r' -> beq (blift r) (blift r').
Proof. intros ->. apply beq_refl. Qed.

Definition px_same (c c' : ctx) (u : unit_) : Prop := px c u = px c' u.
Lemma px_kpx c c' u : u_kind u = KPx -> px c u = px c' u.
Proof. destruct u as [k v]. cbn. intros ->. reflexivity. Qed.
Lemma calc_len_kpx c c' u : u_kind u = KPx -> calc_len c u = calc_len c' u.
Proof. intros H. unfold calc_len. rewrite (px_kpx c c' u H). reflexivity. Qed.

Section Style.
Variable s : style.
Hypothesis Ps : px_style s.
Ltac inu := unfold style_units; rewrite !in_app_iff; cbn [In]; tauto.
Lemma px_la v : In v [st_width s; st_height s; st_min_width s; st_min_height s; st_margin_top s; st_margin_right s; st_margin_bottom s; st_margin_left s] ->
  forall u, v = Len u -> u_kind u = KPx.
Proof.
  intros I u ->. apply Ps. unfold style_units. rewrite !in_app_iff.
  assert (X : forall w, w = Len u -> In u (la_units w)) by (intros w ->; left; reflexivity).
  cbn [In] in I. intuition (auto 20).
Qed.
Lemma px_bw v : In v [st_border_top s; st_border_right s; st_border_bottom s; st_border_left s] ->
  forall u, v = BLen u -> u_kind u = KPx.
Proof.
  intros I u ->. apply Ps. unfold style_units. rewrite !in_app_iff.
  assert (X : forall w, w = BLen u -> In u (bw_units w)) by (intros w ->; left; reflexivity).
  cbn [In] in I. intuition (auto 30).
Qed.
Lemma px_op v : In v [st_max_width s; st_max_height s] -> forall u, v = Some u -> u_kind u = KPx.
Proof.
  intros I u ->. apply Ps. unfold style_units. rewrite !in_app_iff.
  assert (X : forall w, w = Some u -> In u (op_units w)) by (intros w ->; left; reflexivity).
  cbn [In] in I. intuition (auto 20).
Qed.
Lemma px_of v : In v [st_top s; st_right s; st_bottom s; st_left s] -> forall u, v = OLen u -> u_kind u = KPx.
Proof.
  intros I u ->. apply Ps. unfold style_units. rewrite !in_app_iff.
  assert (X : forall w, w = OLen u -> In u (of_units w)) by (intros w ->; left; reflexivity).
  cbn [In] in I. intuition (auto 30).
Qed.
Lemma px_pad u : In u [st_padding_top s; st_padding_right s; st_padding_bottom s; st_padding_left s] -> u_kind u = KPx.
Proof. intros I. apply Ps. unfold style_units. rewrite !in_app_iff. auto 20. Qed.

Lemma calc_margin_kpx c c' v : In v [st_width s; st_height s; st_min_width s; st_min_height s; st_margin_top s; st_margin_right s; st_margin_bottom s; st_margin_left s] ->
  calc_margin c v = calc_margin c' v.
Proof. intros I. destruct v as [|u]; [reflexivity|]. cbn. rewrite (calc_len_kpx c c' u); [reflexivity|]. eapply px_la; [exact I|reflexivity]. Qed.
Lemma calc_border_kpx c c' v : (forall k, fixed_size (c_disp c) k = fixed_size (c_disp c') k) ->
  In v [st_border_top s; st_border_right s; st_border_bottom s; st_border_left s] -> calc_border c v = calc_border c' v.
Proof. intros F I. destruct v as [k|u]; cbn; [rewrite F; reflexivity|]. apply calc_len_kpx. eapply px_bw; [exact I|reflexivity]. Qed.

Lemma copy_edges_kpx hz vt hz' vt' :
  (forall k, fixed_size (c_disp hz) k = fixed_size (c_disp hz') k) -> (forall k, fixed_size (c_disp vt) k = fixed_size (c_disp vt') k) ->
  beq (copy_edges s hz vt) (copy_edges s hz' vt').
Proof.
  intros Fh Fv. unfold copy_edges.
  rewrite (calc_margin_kpx vt vt' (st_margin_top s)), (calc_margin_kpx hz hz' (st_margin_right s)),
    (calc_margin_kpx vt vt' (st_margin_bottom s)), (calc_margin_kpx hz hz' (st_margin_left s)) by (cbn; tauto).
  rewrite (calc_border_kpx hz hz' (st_border_top s) Fh), (calc_border_kpx vt vt' (st_border_right s) Fv),
    (calc_border_kpx hz hz' (st_border_bottom s) Fh), (calc_border_kpx vt vt' (st_border_left s) Fv) by (cbn; tauto).
  rewrite (calc_len_kpx hz hz' (st_padding_top s)), (calc_len_kpx vt vt' (st_padding_right s)),
    (calc_len_kpx hz hz' (st_padding_bottom s)), (calc_len_kpx vt vt' (st_padding_left s)) by (apply px_pad; cbn; tauto).
  apply beq_refl.
Qed.
Lemma clamped_kpx u c c' : u_kind u = KPx -> clamped_width s u c = clamped_width s u c'.
Proof.
  intros K. unfold clamped_width. rewrite (px_kpx c c' u K).
  destruct (st_max_width s) as [m|] eqn:Em; [rewrite (px_kpx c c' m) by (eapply px_op; [left; reflexivity|exact Em])|];
  (destruct (st_min_width s) as [|m'] eqn:En; [|rewrite (px_kpx c c' m') by (eapply px_la; [right; right; left; reflexivity|exact En])]); reflexivity.
Qed.
Ltac bext := repeat first
  [ apply beq_refl | apply beq_bind; [|intros ?]
  | match goal with |- beq (match ?x with _ => _ end) _ => destruct x eqn:?; cbv iota beta end ].
Lemma avail_kpx c c' : c_size c = c_size c' -> beq (avail_width c) (avail_width c').
Proof. intros E. unfold avail_width. rewrite E. apply beq_refl. Qed.
Lemma calculate_width_kpx i c c' : c_size c = c_size c' -> beq (calculate_width s i c) (calculate_width s i c').
Proof.
  intros E. unfold calculate_width. destruct (is_inline s); [destruct (s_replaced i)|destruct (is_block_level s); [destruct (s_replaced i)|]];
    try solve [bext].
  - unfold inline_replaced_width, avail_width. rewrite ?E. bext.
    apply beq_lift, px_kpx. eapply px_la; [left; reflexivity|eassumption].
  - unfold block_non_replaced_width, drop_auto_margins, solve_right, solve_left, split_margins, avail_width. rewrite E.
    destruct (st_width s) as [|u] eqn:Ew; [apply beq_refl|].
    rewrite (clamped_kpx u c c'); [apply beq_refl|]. eapply px_la; [left; reflexivity|exact Ew].
Qed.
Lemma calculate_height_kpx i ph last c c' : (forall u, ph = Some u -> u_kind u = KPx) ->
  beq (calculate_height s i ph last c) (calculate_height s i ph last c').
Proof.
  intros P. unfold calculate_height, inline_replaced_height, block_non_replaced_height, block_content_height.
  assert (Hh : forall u, st_height s = Len u -> u_kind u = KPx) by (intros u; apply px_la; cbn; tauto).
  assert (Hm : forall u, st_min_height s = Len u -> u_kind u = KPx) by (intros u; apply px_la; cbn; tauto).
  assert (Hx : forall u, st_max_height s = Some u -> u_kind u = KPx) by (intros u; apply px_op; cbn; tauto).
  bext; apply beq_lift, px_kpx; auto.
Qed.
Lemma rel_offset_kpx c c' a z cs ce : In a [st_top s; st_right s; st_bottom s; st_left s] -> In z [st_top s; st_right s; st_bottom s; st_left s] ->
  rel_offset c a z cs ce = rel_offset c' a z cs ce.
Proof.
  intros Ia Iz. destruct a as [| |u], z as [| |w]; cbn [rel_offset]; try reflexivity;
  first [rewrite (px_kpx c c' u) by (eapply px_of; [exact Ia|reflexivity]) | rewrite (px_kpx c c' w) by (eapply px_of; [exact Iz|reflexivity])]; reflexivity.
Qed.
End Style.

Section Cong.
Context {S : Type} (sty : S -> style).
Notation node := (node S).
Notation cblock := (@cblock S).
Definition px_document : node -> Prop := every_node (fun s _ => px_style (sty s)).
Definition px_cb (cb : cblock) : Prop := match cb with CBView => True | CBNode s _ => px_style (sty s) end.

Definition meq {A} (m m' : M A) : Prop := forall n : node, m n = m' n.
Lemma on_box_meq {A} (m m' : BM A) n : beq m m' -> @on_box S A m n = on_box m' n.
Proof. intros H. destruct n as [s i [b|] ks]; cbn; [rewrite H|]; reflexivity. Qed.
Lemma lay_all_ext (lay lay' : node -> node * res unit) ks : (forall k, In k ks -> lay k = lay' k) -> lay_all lay ks = lay_all lay' ks.
Proof.
  induction ks as [|k ks IH]; intros H; [reflexivity|]. cbn. rewrite (H k (or_introl eq_refl)).
  rewrite IH by (intros; apply H; right; assumption). reflexivity.
Qed.
Lemma flow_ext (lay lay' : box -> node -> node * res unit) ks : (forall b k, In k ks -> lay b k = lay' b k) ->
  forall pend b off bm, flow sty lay ks pend b off bm = flow sty lay' ks pend b off bm.
Proof.
  induction ks as [|k ks IH]; intros H pend b off bm; [reflexivity|]. cbn. rewrite (H b k (or_introl eq_refl)).
  assert (H' : forall b k, In k ks -> lay b k = lay' b k) by (intros; apply H; right; assumption).
  destruct (is_block_level _); [|rewrite IH by exact H'; reflexivity].
  destruct pend; [reflexivity|]. destruct (lay' b k) as [k1 [u|e]]; [|reflexivity].
  destruct (place_child k1 b off bm) as [[k2 b2] [[o m]|e]]; [|reflexivity]. rewrite IH by exact H'. reflexivity.
Qed.
Lemma children_ext (lay lay' : cblock -> node -> node * res unit) s i bx ks :
  (forall b k, In k ks -> lay (CBNode s b) k = lay' (CBNode s b) k) ->
  layout_children sty lay (Node s i bx ks) = layout_children sty lay' (Node s i bx ks).
Proof.
  intros H. destruct bx as [b|]; [|reflexivity]. cbn [layout_children]. destruct (establishes_inline sty _).
  - rewrite (lay_all_ext _ (lay' (CBNode s b)) ks) by (intros; apply H; assumption). reflexivity.
  - rewrite (flow_ext _ (fun b0 => lay' (CBNode s b0)) ks) by (intros; apply H; assumption). reflexivity.
Qed.

Definition inp (n n' : node) : Prop := inputs n' = inputs n.
Lemma every_inputs (P : S -> size -> Prop) (n m : node) : every_node P n -> inputs n = inputs m -> every_node P m.
Proof.
  intros A. revert m. induction A as [s i bx ks D Hk IH]. intros [s' i' bx' ks'] E. cbn in E. injection E as -> -> E.
  constructor; [exact D|]. clear D bx bx' Hk. revert ks' E. induction ks as [|k ks IHk]; intros [|k' ks'] E k0 I; try discriminate; [destruct I|].
  cbn in E. injection E as E1 E2. destruct I as [<-|I].
  - eapply IH; [left; reflexivity|exact E1].
  - eapply IHk; [|exact E2|exact I]. intros x Ix. apply IH. right. exact Ix.
Qed.

(** Equality of computations on documents with the same inputs as [n0]. *)
Definition meq_at (n0 : node) {A} (m m' : @M S A) : Prop := forall n, inputs n = inputs n0 -> m n = m' n.
Lemma meq_bind n0 {A B} (m m' : @M S A) (f f' : A -> @M S B) :
  meq_at n0 m m' -> (forall n, inputs n = inputs n0 -> inputs (fst (m n)) = inputs n) -> (forall a, meq_at n0 (f a) (f' a)) ->
  meq_at n0 (mbind m f) (mbind m' f').
Proof.
  intros H1 K H2 n E. unfold mbind. rewrite <- (H1 n E). specialize (K n E). destruct (m n) as [n' [a|e]]; [|reflexivity].
  apply H2. cbn in K. congruence.
Qed.
Lemma meq_refl n0 {A} (m : @M S A) : meq_at n0 m m. Proof. intros n _. reflexivity. Qed.

Lemma layout_box_kpx fuel : forall d d' f f' cb n,
  disp_width d = disp_width d' -> (forall k, fixed_size d k = fixed_size d' k) ->
  px_document n -> px_cb cb -> layout_box sty fuel d f cb n = layout_box sty fuel d' f' cb n.
Proof.
  induction fuel as [|fuel IH]; intros d d' f f' cb n Ew Ef P Pc; [reflexivity|].
  cbn [layout_box]. destruct n as [s i bx ks]. cbn [n_style]. destruct (st_display (sty s)) eqn:Ed; [|reflexivity].
  inversion P as [? ? ? ? Ps Pk]; subst.
  assert (Eh : cb_width d cb = cb_width d' cb) by (destruct cb; cbn; congruence).
  assert (Pp : forall u, cb_style_height sty cb = Some u -> u_kind u = KPx).
  { destruct cb as [|s' b']; cbn; [discriminate|]. intros u E. destruct (st_height (sty s')) eqn:Eq; [discriminate|].
    injection E as ->. eapply (px_la (sty s') Pc); [right; left; reflexivity|exact Eq]. }
  pose proof (stable_inputs sty) as SI.
  refine (_ : mbind _ _ _ = mbind _ _ _). 
  set (n := Node s i bx ks).
  assert (St : forall m : node, inputs m = inputs n -> n_style m = s /\ n_intr m = i).
  { intros m E. apply inputs_style in E. exact E. }
  enough (Q : meq_at n (mbind (mmod ensure_box) (fun _ => mbind (on_box (copy_edges (sty s) (hctx d f cb) (vctx d f cb))) (fun _ =>
     mbind (calculate_width_and_margins sty (hctx d f cb)) (fun _ =>
     mbind (if is_relative (sty s) then calculate_height_and_margins sty (vctx d f cb) cb else mret tt) (fun _ =>
     mbind (if is_abspos (sty s) then mlift (Err NotImplementedError) else if is_float (sty s) then mlift (Err NotImplementedError)
            else layout_children sty (layout_box sty fuel d f)) (fun _ =>
     mbind (calculate_height_and_margins sty (vctx d f cb) cb) (fun _ => relative_shift sty d f cb)))))))
     (mbind (mmod ensure_box) (fun _ => mbind (on_box (copy_edges (sty s) (hctx d' f' cb) (vctx d' f' cb))) (fun _ =>
     mbind (calculate_width_and_margins sty (hctx d' f' cb)) (fun _ =>
     mbind (if is_relative (sty s) then calculate_height_and_margins sty (vctx d' f' cb) cb else mret tt) (fun _ =>
     mbind (if is_abspos (sty s) then mlift (Err NotImplementedError) else if is_float (sty s) then mlift (Err NotImplementedError)
            else layout_children sty (layout_box sty fuel d' f')) (fun _ =>
     mbind (calculate_height_and_margins sty (vctx d' f' cb) cb) (fun _ => relative_shift sty d' f' cb)))))))) by (apply Q; reflexivity).
  assert (Hh : meq_at n (calculate_height_and_margins sty (vctx d f cb) cb) (calculate_height_and_margins sty (vctx d' f' cb) cb)).
  { intros m E. destruct (St m E) as [E1 E2]. unfold calculate_height_and_margins, mbind. rewrite E1.
    rewrite (on_box_meq _ _ m (calculate_height_kpx (sty s) Ps (n_intr m) _ (last_layout m) (vctx d f cb) (vctx d' f' cb) Pp)). reflexivity. }
  apply meq_bind; [apply meq_refl|intros m _; apply inputs_ensure|]. intros _.
  apply meq_bind.
  { intros m E. apply on_box_meq, copy_edges_kpx; [exact Ps|exact Ef|exact Ef]. }
  { intros m _. apply (mkeeps_box sty _ SI), copy_edges_geom. } intros _.
  apply meq_bind.
  { intros m E. destruct (St m E) as [E1 E2]. unfold calculate_width_and_margins, mbind. rewrite E1.
    rewrite (on_box_meq _ _ m (calculate_width_kpx (sty s) Ps (n_intr m) (hctx d f cb) (hctx d' f' cb) Eh)). reflexivity. }
  { intros m _. apply (mkeeps_width sty _ SI). } intros _.
  apply meq_bind; [destruct (is_relative (sty s)); [exact Hh|apply meq_refl]| |].
  { intros m _. destruct (is_relative (sty s)); [apply (mkeeps_height sty _ SI)|reflexivity]. } intros _.
  apply meq_bind.
  { destruct (is_abspos (sty s)); [apply meq_refl|]. destruct (is_float (sty s)); [apply meq_refl|].
    intros m E. destruct m as [s' i' bx' ks']. destruct (St _ E) as [E1 E2]. cbn in E1, E2. subst s' i'.
    assert (Pm : px_document (Node s i bx' ks')) by (eapply every_inputs; [exact P|symmetry; exact E]).
    inversion Pm as [? ? ? ? _ Pk']; subst. apply children_ext. intros b k I. apply IH; [exact Ew|exact Ef|exact (Pk' k I)|exact Ps]. }
  { intros m E. destruct (is_abspos (sty s)); [reflexivity|]. destruct (is_float (sty s)); [reflexivity|].
    apply (children_R sty _ SI).
    - intros cb' n'. apply (layout_box_R sty _ SI). intros a b X. apply inputs_style in X. apply X.
    - destruct (St m E) as [-> _]. congruence. } intros _.
  apply meq_bind; [exact Hh|intros m _; apply (mkeeps_height sty _ SI)|]. intros _.
  intros m E. destruct (St m E) as [E1 E2]. unfold relative_shift. rewrite E1. destruct (is_relative (sty s)); [|reflexivity].
  rewrite (rel_offset_kpx (sty s) Ps (hctx d f cb) (hctx d' f' cb)), (rel_offset_kpx (sty s) Ps (vctx d f cb) (vctx d' f' cb)) by (cbn; tauto).
  reflexivity.
Qed.
End Cong.
