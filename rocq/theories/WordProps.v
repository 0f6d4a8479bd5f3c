(** * C205: width and height do not apply to inline text *)
From Coq Require Import ZArith QArith Qcanon Bool List.
From Verif Require Import PyNum NumFacts Units BoxModel BoxFacts Engine EngineSpec EngineExamples EngineInv EngineTree PinSpec DrawnSpec WordSpec.
Import ListNotations.

Definition like (i : size) (s t : style) : Prop :=
  t = s \/ st_display s = Some DInline /\ s_replaced i = false /\ exists w h, t = with_size w h s.
Lemma like_width s t i c b : like i s t -> calculate_width t i c b = calculate_width s i c b.
Proof. intros [->|(D & R & w & h & ->)]; [reflexivity|]. unfold calculate_width. change (is_inline (with_size w h s)) with (is_inline s). unfold is_inline. rewrite D, R. reflexivity. Qed.
Lemma like_height s t i ph ph' last c b : like i s t -> ph' = ph \/ ~ tall_block s -> calculate_height t i ph' last c b = calculate_height s i ph last c b.
Proof.
  intros [->|(D & R & w & h & ->)] P.
  - destruct P as [->|P]; [reflexivity|]. unfold calculate_height. destruct (is_float s); [reflexivity|]. destruct (is_abspos s); [reflexivity|]. destruct (is_inline s); [reflexivity|].
    destruct (is_block_level s) eqn:B; [|reflexivity]. destruct (s_replaced i); [reflexivity|]. unfold block_non_replaced_height, block_content_height.
    destruct (st_height s) as [|u] eqn:H; [reflexivity|]. exfalso. apply P. unfold tall_block. unfold is_block_level in B. destruct (st_display s) as [[]|]; try discriminate; rewrite H; discriminate.
  - unfold calculate_height. change (is_inline (with_size w h s)) with (is_inline s). unfold is_inline. rewrite D, R. reflexivity.
Qed.

Section T.
Context {S : Type} (sty sty' : S -> style).
Notation node := (node S).
Notation fine := (resized_words sty sty').
Lemma fine_like (n : node) : fine n -> like (n_intr n) (sty (n_style n)) (sty' (n_style n)).
Proof. intros [s i b ks [K|(D & R & w & h & E & _)] _]; cbn [n_style n_intr]; [left; exact K|right]. eauto. Qed.
Lemma fine_inputs (n : node) : forall m, inputs m = inputs n -> fine n -> fine m.
Proof.
  induction n as [s i b ks IH] using node_ind'. intros [s' i' b' ks'] H F. cbn [inputs] in H. injection H as -> -> H. inversion F as [? ? ? ? K G]; subst.
  assert (X : forall k', In k' ks' -> exists k, In k ks /\ inputs k' = inputs k).
  { intros k' I. assert (J : In (inputs k') (map inputs ks)) by (rewrite <- H; apply in_map, I). apply in_map_iff in J. destruct J as (k & E & J). exists k. split; [exact J|symmetry; exact E]. }
  constructor.
  - destruct K as [K|(D & R & w & h & E & K)]; [left; exact K|]. right. split; [exact D|]. split; [exact R|]. exists w, h. split; [exact E|]. destruct K as [K|K]; [left; exact K|]. right.
    intros k' I. destruct (X k' I) as (k & J & Ek). apply inputs_style in Ek. destruct Ek as [-> _]. apply K, J.
  - intros k' I. destruct (X k' I) as (k & J & E). apply (IH k J k' E), G, J.
Qed.
Lemma mbind_at {X Y} (m m' : M (S := S) X) (f f' : X -> M Y) n :
  m n = m' n -> inputs (fst (m' n)) = inputs n -> (forall x n', inputs n' = inputs n -> f x n' = f' x n') -> mbind m f n = mbind m' f' n.
Proof. intros H P F. unfold mbind. rewrite H. destruct (m' n) as [n' [x|e]]; [apply F; exact P|reflexivity]. Qed.
Lemma on_box_eq {A} (m m' : BM A) : (forall b, m b = m' b) -> forall n : node, on_box m n = on_box m' n.
Proof. intros H [s i [b|] ks]; cbn; rewrite ?H; reflexivity. Qed.
Lemma w_width c (n : node) : fine n -> calculate_width_and_margins sty' c n = calculate_width_and_margins sty c n.
Proof. intros F. unfold calculate_width_and_margins, mbind. rewrite (on_box_eq (calculate_width (sty' (n_style n)) (n_intr n) c) (calculate_width (sty (n_style n)) (n_intr n) c)); [reflexivity|]. intros b. apply like_width, fine_like, F. Qed.
(** The declared height around an element is the same or does not matter to it. *)
Definition gcb (cb : cblock (S := S)) (s : S) : Prop := match cb with CBNode p _ => st_height (sty' p) = st_height (sty p) \/ ~ tall_block (sty s) | _ => True end.
Lemma w_height c cb (n : node) : gcb cb (n_style n) -> fine n -> calculate_height_and_margins sty' c cb n = calculate_height_and_margins sty c cb n.
Proof.
  intros G F. unfold calculate_height_and_margins, mbind.
  rewrite (on_box_eq (calculate_height (sty' (n_style n)) (n_intr n) (cb_style_height sty' cb) (last_layout n) c) (calculate_height (sty (n_style n)) (n_intr n) (cb_style_height sty cb) (last_layout n) c)); [reflexivity|].
  intros b. apply like_height; [apply fine_like, F|]. destruct cb as [|p b']; [left; reflexivity|]. destruct G as [G|G]; [left; cbn; rewrite G; reflexivity|right; exact G].
Qed.
Lemma w_level (n : node) : fine n -> is_block_level (sty' (n_style n)) = is_block_level (sty (n_style n)).
Proof. intros F. destruct (fine_like n F) as [->|(_ & _ & w & h & ->)]; reflexivity. Qed.
Lemma w_flow (lay lay' : box -> node -> node * res unit) ks : (forall k, In k ks -> fine k) -> (forall b k, In k ks -> lay' b k = lay b k) -> forall pend b off bm,
  flow sty' lay' ks pend b off bm = flow sty lay ks pend b off bm.
Proof.
  induction ks as [|k ks IH]; intros F L pend b off bm; [reflexivity|]. cbn [flow]. rewrite (w_level k (F k (or_introl eq_refl))).
  assert (J : forall pend b off bm, flow sty' lay' ks pend b off bm = flow sty lay ks pend b off bm) by (apply IH; intros; [apply F|apply L]; right; assumption).
  destruct is_block_level; [|rewrite J; reflexivity]. destruct pend; [reflexivity|]. rewrite L by (left; reflexivity). destruct (lay b k) as [k1 [u|e]]; [|reflexivity].
  destruct (place_child k1 b off bm) as [[k2 b2] [[o m]|e]]; [|reflexivity]. rewrite J. reflexivity.
Qed.
Lemma w_all (lay lay' : node -> node * res unit) ks : (forall k, In k ks -> lay' k = lay k) -> lay_all lay' ks = lay_all lay ks.
Proof. intros L. induction ks as [|k ks IH]; [reflexivity|]. cbn [lay_all]. rewrite L by (left; reflexivity). rewrite IH by (intros; apply L; right; assumption). reflexivity. Qed.
Lemma w_levels ks : (forall k, In k ks -> fine k) -> existsb (fun k => is_block_level (sty' (n_style k))) ks = existsb (fun k => is_block_level (sty (n_style k))) ks.
Proof. induction ks as [|k ks IH]; intros F; [reflexivity|]. cbn [existsb]. rewrite (w_level k (F k (or_introl eq_refl))), IH by (intros; apply F; right; assumption). reflexivity. Qed.
Lemma w_children (lay lay' : cblock -> node -> node * res unit) (n : node) : fine n ->
  (forall cb k, gcb cb (n_style k) -> fine k -> lay' cb k = lay cb k) -> layout_children sty' lay' n = layout_children sty lay n.
Proof.
  intros F L. pose proof (fine_like n F) as Li. inversion F as [s i bx ks K G]; subst. destruct bx as [b|]; [|reflexivity]. cbn [layout_children n_style n_intr] in *.
  assert (Gc : forall b k, In k ks -> gcb (CBNode s b) (n_style k)).
  { intros b0 k I. cbn. destruct K as [->|(_ & _ & w & h & E & [K|K])]; [left; reflexivity|left; rewrite E; exact K|right; apply K, I]. }
  assert (E : establishes_inline sty' (Node s i (Some b) ks) = establishes_inline sty (Node s i (Some b) ks)).
  { unfold establishes_inline. cbn [n_style n_intr n_kids]. rewrite (w_levels ks G). destruct Li as [->|(_ & _ & w & h & ->)]; reflexivity. }
  rewrite E. destruct (establishes_inline sty (Node s i (Some b) ks)).
  - rewrite (w_all (lay (CBNode s b))); [reflexivity|]. intros k I. apply L; [apply Gc, I|apply G, I].
  - rewrite (w_flow (fun b0 => lay (CBNode s b0))); [reflexivity|exact G|]. intros b' k I. apply L; [apply Gc, I|apply G, I].
Qed.
Lemma w_shift d f cb (n : node) : fine n -> relative_shift sty' d f cb n = relative_shift sty d f cb n.
Proof. intros F. unfold relative_shift. destruct (fine_like n F) as [->|(_ & _ & w & h & ->)]; reflexivity. Qed.
Lemma w_layout_box fuel : forall d f cb (n : node), gcb cb (n_style n) -> fine n -> layout_box sty' fuel d f cb n = layout_box sty fuel d f cb n.
Proof.
  induction fuel as [|fuel IH]; intros d f cb n C F; [reflexivity|]. cbn [layout_box]. pose proof (stable_inputs sty) as ST. pose proof (fine_like n F) as Li.
  assert (Q : is_relative (sty' (n_style n)) = is_relative (sty (n_style n)) /\ is_abspos (sty' (n_style n)) = is_abspos (sty (n_style n)) /\ is_float (sty' (n_style n)) = is_float (sty (n_style n))
    /\ copy_edges (sty' (n_style n)) (hctx d f cb) (vctx d f cb) = copy_edges (sty (n_style n)) (hctx d f cb) (vctx d f cb) /\ st_display (sty' (n_style n)) = st_display (sty (n_style n)))
    by (destruct Li as [->|(_ & _ & w & h & ->)]; repeat split; reflexivity).
  destruct Q as (-> & -> & -> & -> & ->). destruct (st_display (sty (n_style n))) as [k0|] eqn:D; [|reflexivity].
  apply mbind_at; [reflexivity|apply inputs_ensure|]. intros _ n1 I1. apply mbind_at; [reflexivity| |].
  { destruct n1 as [s1 i1 [b1|] k1]; cbn; [|reflexivity]. destruct (copy_edges _ _ _ b1); reflexivity. }
  assert (Cs : forall m, inputs m = inputs n -> gcb cb (n_style m)) by (intros m X; pose proof (inputs_style _ _ X) as [-> _]; exact C).
  intros _ n2 I2. apply mbind_at; [apply w_width, (fine_inputs n); [congruence|exact F]|apply (mkeeps_width sty _ ST)|].
  intros u3 n3 I3. apply mbind_at; [destruct is_relative; [apply w_height; [apply Cs; congruence|apply (fine_inputs n); [congruence|exact F]]|reflexivity]|destruct is_relative; [apply (mkeeps_height sty _ ST)|reflexivity]|].
  intros _ n4 I4. assert (X4 : inputs n4 = inputs n) by congruence. pose proof (inputs_style _ _ X4) as [Y4 _]. apply mbind_at.
  { destruct is_abspos; [reflexivity|]. destruct is_float; [reflexivity|]. apply w_children; [apply (fine_inputs n); [congruence|exact F]|]. intros cb' x. apply IH. }
  { destruct is_abspos; [reflexivity|]. destruct is_float; [reflexivity|].
    apply (children_R sty _ ST (layout_box sty fuel d f) n4).
    - intros cb' m. apply (layout_box_R sty _ ST fuel d f cb' m). intros a b X. apply (inputs_style b a X).
    - rewrite Y4. cbn. congruence. }
  intros _ n5 I5. apply mbind_at; [apply w_height; [apply Cs; congruence|apply (fine_inputs n); [congruence|exact F]]|apply (mkeeps_height sty _ ST)|].
  intros _ n6 I6. apply w_shift, (fine_inputs n); [congruence|exact F].
Qed.
(** C205.  Whatever has been done to the document before, the boxes are the same after the layout, or the same exception is raised in the same state. *)
Theorem C205_no_effect d h5 (n : node) : resized_words sty sty' n -> layout sty' d h5 n = layout sty d h5 n.
Proof.
  intros F. unfold layout. destruct (n_box n); [|reflexivity]. apply mbind_at; [reflexivity|apply inputs_reset|]. intros _ n1 I1. unfold mbind. rewrite w_layout_box; [reflexivity|exact I|apply (fine_inputs n); assumption].
Qed.
End T.
Print Assumptions C205_no_effect.

(** ** Examples *)
Open Scope Z_scope.
Definition inline_style : style := DrawnSpec.with_display (Some DInline) block_style.
Definition word (w h : option num) (ks : list doc) : doc := Node inline_style (mkSize w h true true None false) (Some box0) ks.
(** Text with its own size, and text around text and around a block without height. *)
Definition wdoc : doc :=
  el block_style [el block_style [word (Some (NI 30)) (Some (NI 12)) []; word (Some (NI 90)) (Some (NI 14)) [word (Some (NI 40)) (Some (NI 13)) []; el block_style []]]; el (hpx 20 block_style) []].
Definition resized (s : style) : style := match st_display s with Some DInline => with_size (Len (pxu 77)) (Len (pctu 5)) s | _ => s end.
Ltac solve_words := repeat match goal with |- resized_words _ _ _ => apply resized_node; [first [left; reflexivity|right; split; [reflexivity|]; split; [reflexivity|]; do 2 eexists; split; [reflexivity|]; right; cbn [In]; intros ? H; repeat (destruct H as [<-|H]); cbn; tauto]
  |cbn [In]; intros ? H; repeat (destruct H as [<-|H]); [..|destruct H]] | H : False |- _ => destruct H end.
Example C205_example : resized_words idsty resized wdoc /\ layout idsty screen false wdoc = (out false wdoc, Ok tt).
Proof. split; [unfold wdoc, word, el; solve_words|apply ok_layout; vm_compute; reflexivity]. Qed.
(** The height of text does matter to a block with a declared height in it: percentages of this block refer to the height declared around it. *)
Definition odd_doc : doc := el block_style [word (Some (NI 90)) (Some (NI 14)) [el (s_size Auto (Len (pctu 50)) block_style) []]].
Definition half_height (n : doc) : lval := match n with Node _ _ _ [Node _ _ _ [Node _ _ (Some b) _]] => content_height b | _ => LAuto end.
Example C205_heights_inside : half_height (fst (layout idsty screen false odd_doc)) <> half_height (fst (layout (fun s => match st_display s with Some DInline => with_size Auto (Len (pxu 60)) s | _ => s end) screen false odd_doc)).
Proof. vm_compute. discriminate. Qed.
