(** * C204: displays that are laid out alike *)
From Coq Require Import ZArith QArith Qcanon Bool List.
From Verif Require Import PyNum NumFacts Units BoxModel BoxFacts Engine EngineSpec EngineExamples EngineInv EngineTree DrawnSpec.
Import ListNotations.

Lemma level_of s : is_block_level s = of_level (st_display s).
Proof. unfold is_block_level, of_level. destruct (st_display s) as [[]|]; reflexivity. Qed.
Definition like (s t : style) : Prop :=
  (exists k, t = with_display k s) /\ (treated (st_display t) = treated (st_display s) \/ of_level (st_display s) = true /\ of_level (st_display t) = true).
Lemma like_tests s t : like s t -> is_inline t = is_inline s /\ is_block_level t = is_block_level s /\ is_inline_block t = is_inline_block s /\ (st_display t = None <-> st_display s = None).
Proof.
  intros (_ & H). unfold is_inline, is_block_level, is_inline_block. destruct (st_display s) as [[]|], (st_display t) as [[]|]; cbn in H; destruct H as [H|(H & H')]; try discriminate; repeat split; try reflexivity; discriminate.
Qed.
Lemma like_width s t i c b : like s t -> calculate_width t i c b = calculate_width s i c b.
Proof. intros L. destruct (like_tests _ _ L) as (E1 & E2 & E3 & _). destruct L as ((k & ->) & _). unfold calculate_width. rewrite E1, E2, E3. reflexivity. Qed.
Lemma like_height s t i ph last c b : like s t -> calculate_height t i ph last c b = calculate_height s i ph last c b.
Proof. intros L. destruct (like_tests _ _ L) as (E1 & E2 & E3 & _). destruct L as ((k & ->) & _). unfold calculate_height. rewrite E1, E2, E3. reflexivity. Qed.
Lemma width_supported s i c b b' l : calculate_width s i c b = (b', Ok l) -> is_inline s = true \/ is_block_level s = true.
Proof. unfold calculate_width. destruct (is_float s); [discriminate|]. destruct (is_abspos s); [discriminate|]. destruct (is_inline s); [auto|]. destruct (is_block_level s); [auto|]. destruct (is_inline_block s); discriminate. Qed.

Section T.
Context {S : Type} (sty sty' : S -> style).
Notation node := (node S).
Notation fine := (drawn_alike sty sty').
Lemma fine_like (n : node) : fine n -> like (sty (n_style n)) (sty' (n_style n)).
Proof. intros [s i b ks K D _]. split; [exact K|]. cbn [n_style]. destruct D as [D|(A & B & _)]; [left|right]; auto. Qed.
Lemma fine_inputs (n : node) : forall m, inputs m = inputs n -> fine n -> fine m.
Proof.
  induction n as [s i b ks IH] using node_ind'. intros [s' i' b' ks'] H F. cbn [inputs] in H. injection H as -> -> H. inversion F as [? ? ? ? K D G]; subst.
  assert (X : forall k', In k' ks' -> exists k, In k ks /\ inputs k' = inputs k).
  { intros k' I. assert (J : In (inputs k') (map inputs ks)) by (rewrite <- H; apply in_map, I). apply in_map_iff in J. destruct J as (k & E & J). exists k. split; [exact J|symmetry; exact E]. }
  constructor; [exact K| |].
  - destruct D as [D|(A & B & C)]; [left; exact D|]. right. split; [exact A|]. split; [exact B|]. intros k' I. destruct (X k' I) as (k & J & E). apply inputs_style in E. destruct E as [-> _]. apply C, J.
  - intros k' I. destruct (X k' I) as (k & J & E). apply (IH k J k' E), G, J.
Qed.
Lemma mbind_at {X Y} (m m' : M (S := S) X) (f f' : X -> M Y) n :
  m n = m' n -> inputs (fst (m' n)) = inputs n -> (forall x n', m' n = (n', Ok x) -> inputs n' = inputs n -> f x n' = f' x n') -> mbind m f n = mbind m' f' n.
Proof. intros H P F. unfold mbind. rewrite H. destruct (m' n) as [n' [x|e]]; [apply F; [reflexivity|exact P]|reflexivity]. Qed.
Lemma on_box_eq {A} (m m' : BM A) : (forall b, m b = m' b) -> forall n : node, on_box m n = on_box m' n.
Proof. intros H [s i [b|] ks]; cbn; rewrite ?H; reflexivity. Qed.
Lemma d_width c (n : node) : fine n -> calculate_width_and_margins sty' c n = calculate_width_and_margins sty c n.
Proof. intros F. unfold calculate_width_and_margins, mbind. rewrite (on_box_eq (calculate_width (sty' (n_style n)) (n_intr n) c) (calculate_width (sty (n_style n)) (n_intr n) c)); [reflexivity|]. intros b. apply like_width, fine_like, F. Qed.
Definition gcb (cb : cblock (S := S)) : Prop := match cb with CBNode s _ => st_height (sty' s) = st_height (sty s) | _ => True end.
Lemma d_height c cb (n : node) : gcb cb -> fine n -> calculate_height_and_margins sty' c cb n = calculate_height_and_margins sty c cb n.
Proof.
  intros G F. unfold calculate_height_and_margins, mbind. replace (cb_style_height sty' cb) with (cb_style_height sty cb) by (destruct cb; [reflexivity|]; cbn in *; rewrite G; reflexivity).
  rewrite (on_box_eq (calculate_height (sty' (n_style n)) (n_intr n) (cb_style_height sty cb) (last_layout n) c) (calculate_height (sty (n_style n)) (n_intr n) (cb_style_height sty cb) (last_layout n) c)); [reflexivity|].
  intros b. apply like_height, fine_like, F.
Qed.
Lemma d_flow (lay lay' : box -> node -> node * res unit) ks : (forall k, In k ks -> fine k) -> (forall b k, In k ks -> lay' b k = lay b k) -> forall pend b off bm,
  flow sty' lay' ks pend b off bm = flow sty lay ks pend b off bm.
Proof.
  induction ks as [|k ks IH]; intros F L pend b off bm; [reflexivity|]. cbn [flow]. destruct (like_tests _ _ (fine_like k (F k (or_introl eq_refl)))) as (_ & -> & _).
  assert (J : forall pend b off bm, flow sty' lay' ks pend b off bm = flow sty lay ks pend b off bm) by (apply IH; intros; [apply F|apply L]; right; assumption).
  destruct is_block_level; [|rewrite J; reflexivity]. destruct pend; [reflexivity|]. rewrite L by (left; reflexivity). destruct (lay b k) as [k1 [u|e]]; [|reflexivity].
  destruct (place_child k1 b off bm) as [[k2 b2] [[o m]|e]]; [|reflexivity]. rewrite J. reflexivity.
Qed.
Lemma d_all (lay lay' : node -> node * res unit) ks : (forall k, In k ks -> lay' k = lay k) -> lay_all lay' ks = lay_all lay ks.
Proof. intros L. induction ks as [|k ks IH]; [reflexivity|]. cbn [lay_all]. rewrite L by (left; reflexivity). rewrite IH by (intros; apply L; right; assumption). reflexivity. Qed.
Lemma d_levels ks : (forall k, In k ks -> fine k) -> existsb (fun k => is_block_level (sty' (n_style k))) ks = existsb (fun k => is_block_level (sty (n_style k))) ks.
Proof. induction ks as [|k ks IH]; intros F; [reflexivity|]. cbn [existsb]. destruct (like_tests _ _ (fine_like k (F k (or_introl eq_refl)))) as (_ & -> & _). rewrite IH by (intros; apply F; right; assumption). reflexivity. Qed.
Lemma d_children (lay lay' : cblock -> node -> node * res unit) (n : node) : fine n -> is_inline (sty (n_style n)) = true \/ is_block_level (sty (n_style n)) = true ->
  (forall cb k, gcb cb -> fine k -> lay' cb k = lay cb k) -> layout_children sty' lay' n = layout_children sty lay n.
Proof.
  intros F Su L. pose proof (fine_like n F) as Li. inversion F as [s i bx ks K D G]; subst. destruct bx as [b|]; [|reflexivity]. cbn [layout_children n_style] in *.
  assert (Gc : forall b, gcb (CBNode s b)) by (intros b0; destruct K as (k & E); cbn; rewrite E; reflexivity).
  assert (E : establishes_inline sty' (Node s i (Some b) ks) = establishes_inline sty (Node s i (Some b) ks)).
  { unfold establishes_inline. cbn [n_style n_intr n_kids]. rewrite (d_levels ks G).
    destruct D as [D|(A & B & C)].
    - replace (is_block_container (sty' s) i) with (is_block_container (sty s) i); [reflexivity|]. unfold is_block_container, is_inline, is_block_level in *. destruct (st_display (sty s)) as [[]|], (st_display (sty' s)) as [[]|]; cbn in D; try discriminate; try reflexivity; destruct Su; discriminate.
    - replace (existsb (fun k => is_block_level (sty (n_style k))) ks) with false; [cbn; destruct (is_block_container (sty' s) i), (is_block_container (sty s) i); reflexivity|].
      symmetry. clear -C. induction ks as [|k ks IH]; [reflexivity|]. cbn [existsb]. rewrite level_of, (C k (or_introl eq_refl)). apply IH. intros x I. apply C. right. exact I. }
  rewrite E. destruct (establishes_inline sty (Node s i (Some b) ks)).
  - rewrite (d_all (lay (CBNode s b))); [reflexivity|]. intros k I. apply L; [apply Gc|apply G, I].
  - rewrite (d_flow (fun b0 => lay (CBNode s b0))); [reflexivity|exact G|]. intros b' k I. apply L; [apply Gc|apply G, I].
Qed.
Lemma d_shift d f cb (n : node) : fine n -> relative_shift sty' d f cb n = relative_shift sty d f cb n.
Proof. intros F. destruct (fine_like n F) as ((k & E) & _). unfold relative_shift. rewrite E. reflexivity. Qed.
Lemma width_ok_supported c (n n' : node) u : calculate_width_and_margins sty c n = (n', Ok u) -> is_inline (sty (n_style n)) = true \/ is_block_level (sty (n_style n)) = true.
Proof.
  unfold calculate_width_and_margins, mbind. destruct n as [s i [b|] ks]; cbn [on_box n_style n_intr]; [|discriminate]. destruct (calculate_width (sty s) i c b) as [b' [l|e]] eqn:E; [|discriminate]. intros _. apply (width_supported _ _ _ _ _ _ E).
Qed.
Lemma d_layout_box fuel : forall d f cb (n : node), gcb cb -> fine n -> layout_box sty' fuel d f cb n = layout_box sty fuel d f cb n.
Proof.
  induction fuel as [|fuel IH]; intros d f cb n C F; [reflexivity|]. cbn [layout_box]. pose proof (stable_inputs sty) as ST. pose proof (fine_like n F) as Li. destruct (like_tests _ _ Li) as (_ & _ & _ & Nn).
  destruct Li as ((k & E) & _). assert (Q : is_relative (sty' (n_style n)) = is_relative (sty (n_style n)) /\ is_abspos (sty' (n_style n)) = is_abspos (sty (n_style n)) /\ is_float (sty' (n_style n)) = is_float (sty (n_style n))
    /\ copy_edges (sty' (n_style n)) (hctx d f cb) (vctx d f cb) = copy_edges (sty (n_style n)) (hctx d f cb) (vctx d f cb)) by (rewrite E; repeat split; reflexivity).
  destruct Q as (-> & -> & -> & ->). destruct (st_display (sty (n_style n))) as [k0|] eqn:D; [|rewrite (proj2 Nn eq_refl); reflexivity]. destruct (st_display (sty' (n_style n))); [|discriminate (proj1 Nn eq_refl)].
  apply mbind_at; [reflexivity|apply inputs_ensure|]. intros _ n1 _ I1. apply mbind_at; [reflexivity| |].
  { destruct n1 as [s1 i1 [b1|] k1]; cbn; [|reflexivity]. destruct (copy_edges _ _ _ b1); reflexivity. }
  intros _ n2 _ I2. apply mbind_at; [apply d_width, (fine_inputs n); [congruence|exact F]|apply (mkeeps_width sty _ ST)|].
  intros u3 n3 W I3. apply width_ok_supported in W. assert (X2 : inputs n2 = inputs n) by congruence. pose proof (inputs_style _ _ X2) as [Y2 _]. rewrite Y2 in W.
  apply mbind_at; [destruct is_relative; [apply d_height; [exact C|apply (fine_inputs n); [congruence|exact F]]|reflexivity]|destruct is_relative; [apply (mkeeps_height sty _ ST)|reflexivity]|].
  intros _ n4 _ I4. assert (X4 : inputs n4 = inputs n) by congruence. pose proof (inputs_style _ _ X4) as [Y4 _]. apply mbind_at.
  { destruct is_abspos; [reflexivity|]. destruct is_float; [reflexivity|]. apply d_children; [apply (fine_inputs n); [congruence|exact F]|rewrite Y4; exact W|]. intros cb' x. apply IH. }
  { destruct is_abspos; [reflexivity|]. destruct is_float; [reflexivity|].
    apply (children_R sty _ ST (layout_box sty fuel d f) n4).
    - intros cb' m. apply (layout_box_R sty _ ST fuel d f cb' m). intros a b X. apply (inputs_style b a X).
    - rewrite Y4. cbn. congruence. }
  intros _ n5 _ I5. apply mbind_at; [apply d_height; [exact C|apply (fine_inputs n); [congruence|exact F]]|apply (mkeeps_height sty _ ST)|].
  intros _ n6 _ I6. apply d_shift, (fine_inputs n); [congruence|exact F].
Qed.
(** C204.  A block, a list item and (without block-level children) a table are laid out alike, and so are all displays that are refused: whatever has been done to the
    document before, the boxes are the same after the layout, or the same exception is raised in the same state. *)
Theorem C204_alike d h5 (n : node) : drawn_alike sty sty' n -> layout sty' d h5 n = layout sty d h5 n.
Proof.
  intros F. unfold layout. destruct (n_box n); [|reflexivity]. apply mbind_at; [reflexivity|apply inputs_reset|]. intros _ n1 _ I1. unfold mbind. rewrite d_layout_box; [reflexivity|exact I|apply (fine_inputs n); assumption].
Qed.
End T.
Print Assumptions C204_alike.

(** ** Example *)
Open Scope Z_scope.
(** A list with two items, a block and an empty table in the first one; read with list items and tables as blocks.  Another document has a table-row, read as an
    inline-table, which is refused. *)
Definition shown (k : display_k) (s : style) : style := with_display (Some k) s.
Definition ddoc : doc :=
  el block_style
    [el (shown DListItem (vmargin 4 6 block_style)) [el (hpx 20 block_style) []; el (shown DTable (vmargin 3 3 (hpx 7 block_style))) []];
     el (shown DListItem (vmargin 9 0 (hpx 11 block_style))) []].
Definition bad_doc : doc := el block_style [el (hpx 20 block_style) []; el block_style [el (shown DTableRow block_style) []]].
Definition other (s : style) : style :=
  match st_display s with Some (DListItem | DTable) => shown DBlock s | Some DTableRow => shown DInlineTable s | _ => s end.
Lemma other_display s : exists k, other s = with_display k s.
Proof. unfold other. destruct (st_display s) as [[]|] eqn:D; first [exists (Some DBlock); reflexivity|exists (Some DInlineTable); reflexivity|exists (st_display s); destruct s; reflexivity]. Qed.
Ltac solve_drawn := repeat match goal with |- drawn_alike _ _ _ => apply drawn_node; [apply other_display|first [left; reflexivity|right; split; [reflexivity|]; split; [reflexivity|intros ? []]]|cbn [In]; intros ? H; repeat (destruct H as [<-|H]); [..|destruct H]] | H : False |- _ => destruct H end.
Example C204_example : drawn_alike idsty other ddoc /\ layout idsty screen false ddoc = (out false ddoc, Ok tt) /\ drawn_alike idsty other bad_doc
  /\ snd (layout idsty screen false bad_doc) = Err PlainException /\ snd (layout other screen false bad_doc) = Err PlainException
  /\ (match n_box (fst (layout other screen false ddoc)) with Some b => content_height b | None => LAuto end) = LNum (NI 50).
Proof.
  split; [unfold ddoc, el; solve_drawn|]. split; [apply ok_layout; vm_compute; reflexivity|]. split; [unfold bad_doc, el; solve_drawn|]. split; [vm_compute; reflexivity|]. split; [vm_compute; reflexivity|].
  vm_compute. reflexivity.
Qed.
