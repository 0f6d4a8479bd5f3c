(** * C127: declarations without effect *)
From Coq Require Import ZArith QArith Qcanon Bool List.
From Verif Require Import PyNum NumFacts Units BoxModel Engine EngineSpec EngineExamples EffectSpec.
Import ListNotations.

(** ** One node *)
Lemma edges_eff s hz vt : copy_edges (effective s) hz vt = copy_edges s hz vt. Proof. reflexivity. Qed.
Lemma width_eff s i c b : calculate_width (effective s) i c b = calculate_width s i c b.
Proof.
  unfold calculate_width. change (is_float (effective s)) with (is_float s). change (is_abspos (effective s)) with (is_abspos s).
  change (is_inline (effective s)) with (is_inline s). change (is_block_level (effective s)) with (is_block_level s). change (is_inline_block (effective s)) with (is_inline_block s).
  assert (E1 : inline_replaced_width (effective s) i c = inline_replaced_width s i c) by reflexivity.
  assert (E2 : is_block_level s = true -> block_non_replaced_width (effective s) c b = block_non_replaced_width s c b).
  { intros B. assert (B' : match st_display s with Some (DBlock | DListItem | DTable) => true | _ => false end = true) by exact B.
    unfold block_non_replaced_width. change (st_width (effective s)) with (st_width s). destruct (st_width s) as [|u] eqn:W.
    - unfold bbind, bget, bret. destruct (is_auto (margin_left b)), (is_auto (margin_right b)); reflexivity.
    - replace (clamped_width (effective s) u c) with (clamped_width s u c) by (unfold clamped_width, effective; cbn; rewrite B', W; reflexivity).
      replace (st_direction (effective s)) with (st_direction s) by (unfold effective; cbn; rewrite B', W; reflexivity). reflexivity. }
  rewrite E1. destruct (is_float s), (is_abspos s), (is_inline s), (is_block_level s), (s_replaced i); try reflexivity. apply E2; reflexivity.
Qed.
Lemma height_eff s i ph last c b : calculate_height (effective s) i ph last c b = calculate_height s i ph last c b.
Proof.
  unfold calculate_height. change (is_float (effective s)) with (is_float s). change (is_abspos (effective s)) with (is_abspos s).
  change (is_inline (effective s)) with (is_inline s). change (is_block_level (effective s)) with (is_block_level s). change (is_inline_block (effective s)) with (is_inline_block s).
  assert (E1 : inline_replaced_height (effective s) i c = inline_replaced_height s i c) by reflexivity.
  assert (E2 : is_block_level s = true -> block_content_height (effective s) ph last c = block_content_height s ph last c).
  { intros B. assert (B' : match st_display s with Some (DBlock | DListItem | DTable) => true | _ => false end = true) by exact B.
    unfold block_content_height. change (st_height (effective s)) with (st_height s). destruct (st_height s) as [|u] eqn:W.
    - replace (st_min_height (effective s)) with (st_min_height s) by (unfold effective; cbn; rewrite B', W; reflexivity). reflexivity.
    - replace (st_max_height (effective s)) with (st_max_height s) by (unfold effective; cbn; rewrite B', W; reflexivity). reflexivity. }
  rewrite E1. destruct (is_float s), (is_abspos s), (is_inline s), (is_block_level s), (s_replaced i); try reflexivity.
  unfold block_non_replaced_height. rewrite E2 by reflexivity. reflexivity.
Qed.

(** ** Trees *)
Section Eff.
Context {S : Type} (sty sty' : S -> style).
Notation node := (node S).
Hypothesis Same : forall s, effective (sty s) = effective (sty' s).
Lemma via {A} (f : style -> A) s : (forall x, f (effective x) = f x) -> f (sty s) = f (sty' s).
Proof. intros H. rewrite <- (H (sty s)), <- (H (sty' s)), Same. reflexivity. Qed.
Definition meq {A} (m m' : node -> node * res A) : Prop := forall n, m n = m' n.
Lemma meq_bind {A B} (m m' : @M S A) (f f' : A -> @M S B) : meq m m' -> (forall a, meq (f a) (f' a)) -> meq (mbind m f) (mbind m' f').
Proof. intros H G n. unfold mbind. rewrite H. destruct (m' n) as [n' [a|e]]; [apply G|reflexivity]. Qed.
Lemma on_box_eq {A} (m m' : BM A) : (forall b, m b = m' b) -> forall n : node, on_box m n = on_box m' n.
Proof. intros H [s i [b|] ks]; cbn; rewrite ?H; reflexivity. Qed.
Lemma wm_eq c : meq (calculate_width_and_margins sty c) (calculate_width_and_margins sty' c).
Proof.
  intros n. unfold calculate_width_and_margins, mbind. rewrite (on_box_eq (calculate_width (sty (n_style n)) (n_intr n) c) (calculate_width (sty' (n_style n)) (n_intr n) c)); [reflexivity|].
  intros b. apply (via (fun s => calculate_width s (n_intr n) c b)). intros x. apply width_eff.
Qed.
Lemma cb_height_eq cb : cb_style_height sty cb = cb_style_height sty' cb.
Proof. destruct cb as [|s b]; [reflexivity|]. cbn. rewrite (via st_height s) by reflexivity. reflexivity. Qed.
Lemma hm_eq c cb : meq (calculate_height_and_margins sty c cb) (calculate_height_and_margins sty' c cb).
Proof.
  intros n. unfold calculate_height_and_margins, mbind. rewrite cb_height_eq.
  rewrite (on_box_eq (calculate_height (sty (n_style n)) (n_intr n) (cb_style_height sty' cb) (last_layout n) c)
    (calculate_height (sty' (n_style n)) (n_intr n) (cb_style_height sty' cb) (last_layout n) c)); [reflexivity|].
  intros b. apply (via (fun s => calculate_height s (n_intr n) (cb_style_height sty' cb) (last_layout n) c b)). intros x. apply height_eff.
Qed.
Lemma lay_all_eq (lay lay' : node -> node * res unit) : meq lay lay' -> forall ks, lay_all lay ks = lay_all lay' ks.
Proof. intros H. induction ks as [|k ks IH]; [reflexivity|]. cbn. rewrite H, IH. reflexivity. Qed.
Lemma level_eq s : is_block_level (sty s) = is_block_level (sty' s).
Proof. apply (via is_block_level). reflexivity. Qed.
Lemma flow_eq (lay lay' : box -> node -> node * res unit) : (forall b, meq (lay b) (lay' b)) -> forall ks pend b off bm,
  flow sty lay ks pend b off bm = flow sty' lay' ks pend b off bm.
Proof.
  intros H. induction ks as [|k ks IH]; intros pend b off bm; [reflexivity|]. cbn [flow]. rewrite level_eq, H.
  destruct (is_block_level _); [|rewrite IH; reflexivity]. destruct pend; [reflexivity|]. destruct (lay' b k) as [k1 [u|e]]; [|reflexivity].
  destruct (place_child k1 b off bm) as [[k2 b2] [[off' bm']|e]]; [|reflexivity]. rewrite IH. reflexivity.
Qed.
Lemma children_eq (lay lay' : cblock -> node -> node * res unit) : (forall cb, meq (lay cb) (lay' cb)) -> meq (layout_children sty lay) (layout_children sty' lay').
Proof.
  intros H [s i [b|] ks]; [|reflexivity]. unfold layout_children.
  assert (E : establishes_inline sty (Node s i (Some b) ks) = establishes_inline sty' (Node s i (Some b) ks)).
  { unfold establishes_inline. cbn [n_style n_intr n_kids]. rewrite (via (fun s => is_block_container s i) s) by reflexivity.
    destruct (is_block_container _ _); [|reflexivity]. f_equal. induction ks as [|k ks IH]; [reflexivity|]. cbn. rewrite level_eq, IH. reflexivity. }
  rewrite E. destruct (establishes_inline sty' _).
  - rewrite (lay_all_eq _ _ (H _)). reflexivity.
  - rewrite (flow_eq _ (fun b0 => lay' (CBNode s b0))) by (intros; apply H). reflexivity.
Qed.
Lemma shift_eq d f cb : meq (relative_shift sty d f cb) (relative_shift sty' d f cb).
Proof.
  intros n. unfold relative_shift. rewrite (via is_relative (n_style n)) by reflexivity. destruct (is_relative (sty' (n_style n))) eqn:R; [|reflexivity].
  assert (R' : is_relative (sty (n_style n)) = true) by (rewrite (via is_relative) by reflexivity; exact R).
  assert (P : forall s, is_relative s = true -> st_left (effective s) = st_left s /\ st_right (effective s) = st_right s /\ st_top (effective s) = st_top s /\ st_bottom (effective s) = st_bottom s).
  { intros s Hs. unfold is_relative in Hs. unfold effective. cbn. destruct (st_position s); try discriminate. auto. }
  destruct (P _ R) as (P1 & P2 & P3 & P4), (P _ R') as (Q1 & Q2 & Q3 & Q4). rewrite Same in Q1, Q2, Q3, Q4.
  rewrite <- P1, <- P2, <- P3, <- P4, Q1, Q2, Q3, Q4. reflexivity.
Qed.
Lemma layout_box_eq fuel : forall d f cb, meq (layout_box sty fuel d f cb) (layout_box sty' fuel d f cb).
Proof.
  induction fuel as [|fuel IH]; intros d f cb n; [reflexivity|]. cbn [layout_box]. rewrite (via st_display) by reflexivity. destruct (st_display _); [|reflexivity].
  rewrite (via is_relative) by reflexivity. rewrite (via is_abspos) by reflexivity. rewrite (via is_float) by reflexivity.
  replace (copy_edges (sty (n_style n)) (hctx d f cb) (vctx d f cb)) with (copy_edges (sty' (n_style n)) (hctx d f cb) (vctx d f cb))
    by (symmetry; apply (via (fun s => copy_edges s (hctx d f cb) (vctx d f cb))); intros x; reflexivity).
  assert (R : forall {A} (m : @M S A), meq m m) by (intros ? ? ?; reflexivity).
  apply meq_bind; [apply R|intros _]. apply meq_bind; [apply R|intros _]. apply meq_bind; [apply wm_eq|intros _].
  apply meq_bind; [destruct (is_relative _); [apply hm_eq|apply R]|intros _]. apply meq_bind; [|intros _].
  { destruct (is_abspos _); [apply R|]. destruct (is_float _); [apply R|]. apply children_eq, IH. }
  apply meq_bind; [apply hm_eq|intros _]. apply shift_eq.
Qed.
End Eff.

(** C127. *)
Theorem C127_without_effect : forall {S : Type} (sty sty' : S -> style) d h5 (n : node S),
  (forall s, effective (sty s) = effective (sty' s)) -> layout sty d h5 n = layout sty' d h5 n.
Proof.
  intros S sty sty' d h5 n H. unfold layout. destruct (n_box n); [|reflexivity]. unfold mbind, mmod.
  rewrite (layout_box_eq sty sty' H). reflexivity.
Qed.
Print Assumptions C127_without_effect.

(** ** Examples *)
(** A document and the same one with ignored declarations added to its boxes. *)
Definition plain_a : style := hpx 10 block_style.
Definition plain_b : style := s_border (BLen (pxu 3)) (BLen zero_px) (BLen zero_px) (BLen zero_px) block_style.
Definition styled (a b : style) (i : bool) : style := if i then a else b.
Definition noisy (s : style) : style :=
  s_offsets (OLen (pxu 9)) OInherit (OLen (pctu 50)) (OLen (pxu 7)) (s_direction RTL s).
Definition plain_doc : node bool :=
  Node false size0 (Some box0) [Node true size0 (Some box0) []; Node false size0 (Some box0) [Node true size0 (Some box0) []]].
Example C127_example :
  let noisy_a := s_limits (Len (pxu 500)) (Len (pxu 600)) (Some (pxu 10)) None (noisy plain_a) in
  let noisy_b := s_limits (Len (pxu 500)) Auto (Some (pxu 10)) (Some (pxu 1)) (noisy plain_b) in
  noisy_a <> plain_a /\ noisy_b <> plain_b
  /\ (forall s, effective (styled noisy_a noisy_b s) = effective (styled plain_a plain_b s))
  /\ snd (layout (styled plain_a plain_b) screen true plain_doc) = Ok tt.
Proof.
  split; [discriminate|]. split; [discriminate|]. split; [|vm_compute; reflexivity]. intros [|]; reflexivity.
Qed.
