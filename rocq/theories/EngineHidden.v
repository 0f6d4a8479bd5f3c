(** * Hidden nodes: laying out a document and dropping its hidden nodes commute *)
From Coq Require Import ZArith QArith Qcanon Lia Bool List.
From Verif Require Import PyNum NumFacts Units BoxModel BoxFacts Engine EnginePure EngineSpec EngineTree EngineInv EngineCong EngineFuel EngineHSpec.
Import ListNotations.
Open Scope Z_scope.

Section Hidden.
Context {S : Type} (sty : S -> style).
Notation node := (node S).
Notation prune := (prune sty).
Notation hides := (hides sty).
Notation harmless := (harmless sty).
Notation pk := (fun k => if hides k then [] else [prune k]).

Lemma prune_eq s i bx ks : prune (Node s i bx ks) = Node s i bx (flat_map pk ks).
Proof. reflexivity. Qed.
Lemma hides_style n m : n_style n = n_style m -> hides n = hides m.
Proof. unfold EngineHSpec.hides. intros ->. reflexivity. Qed.
Lemma prune_box n : n_box (prune n) = n_box n. Proof. destruct n. reflexivity. Qed.
Lemma prune_style n : n_style (prune n) = n_style n. Proof. destruct n. reflexivity. Qed.
Lemma prune_intr n : n_intr (prune n) = n_intr n. Proof. destruct n. reflexivity. Qed.
Lemma flat_map_ext_in {A B} (f g : A -> list B) l : (forall a, In a l -> f a = g a) -> flat_map f l = flat_map g l.
Proof. induction l as [|a l IH]; intros H; [reflexivity|]. cbn. rewrite (H a (or_introl eq_refl)), IH; [reflexivity|]. intros; apply H; right; assumption. Qed.
(** A function on nodes that keeps styles commutes with pruning the children. *)
Lemma kids_comm (f : node -> node) ks : (forall k, n_style (f k) = n_style k) -> (forall k, In k ks -> prune (f k) = f (prune k)) ->
  flat_map pk (map f ks) = map f (flat_map pk ks).
Proof.
  intros Hs. induction ks as [|k ks IH]; intros H; [reflexivity|]. cbn [map flat_map]. rewrite map_app, <- IH by (intros; apply H; right; assumption).
  rewrite (hides_style _ _ (Hs k)). destruct (hides k); [reflexivity|]. cbn. rewrite (H k) by (left; reflexivity). reflexivity.
Qed.
Lemma origin_top_style v (n : node) : n_style (set_origin_top v n) = n_style n.
Proof. destruct n as [s i [b|] ks]; cbn; [destruct (neqb _ _)|]; reflexivity. Qed.
Lemma origin_left_style v (n : node) : n_style (set_origin_left v n) = n_style n.
Proof. destruct n as [s i [b|] ks]; cbn; [destruct (neqb _ _)|]; reflexivity. Qed.
Lemma prune_origin_top n : forall v, prune (set_origin_top v n) = set_origin_top v (prune n).
Proof.
  induction n as [s i bx ks IH] using node_ind'. intros v. destruct bx as [b|]; [|reflexivity]. rewrite prune_eq. cbn [set_origin_top].
  destruct (neqb _ _); [reflexivity|]. rewrite prune_eq, kids_comm; [reflexivity|intros; apply origin_top_style|]. intros k I. apply IH, I.
Qed.
Lemma prune_origin_left n : forall v, prune (set_origin_left v n) = set_origin_left v (prune n).
Proof.
  induction n as [s i bx ks IH] using node_ind'. intros v. destruct bx as [b|]; [|reflexivity]. rewrite prune_eq. cbn [set_origin_left].
  destruct (neqb _ _); [reflexivity|]. rewrite prune_eq, kids_comm; [reflexivity|intros; apply origin_left_style|]. intros k I. apply IH, I.
Qed.
Lemma prune_content_top v n : prune (set_content_top v n) = set_content_top v (prune n).
Proof.
  destruct n as [s i [b|] ks]; [|reflexivity]. rewrite prune_eq. cbn [set_content_top].
  destruct (neqb _ _); [reflexivity|]. rewrite prune_eq, kids_comm; [reflexivity|intros; apply origin_top_style|intros; apply prune_origin_top].
Qed.
Lemma prune_content_left v n : prune (set_content_left v n) = set_content_left v (prune n).
Proof.
  destruct n as [s i [b|] ks]; [|reflexivity]. rewrite prune_eq. cbn [set_content_left].
  destruct (neqb _ _); [reflexivity|]. rewrite prune_eq, kids_comm; [reflexivity|intros; apply origin_left_style|intros; apply prune_origin_left].
Qed.
Lemma prune_reset_self n : prune (reset_self n) = reset_self (prune n).
Proof.
  destruct n as [s i bx ks]. cbn [reset_self]. rewrite !prune_eq. cbn [reset_self]. rewrite kids_comm; [reflexivity| |].
  - intros k. rewrite origin_left_style, origin_top_style. reflexivity.
  - intros k _. rewrite prune_origin_left, prune_origin_top. reflexivity.
Qed.
Lemma reset_style (n : node) : n_style (reset n) = n_style n. Proof. destruct n as [s i [b|] ks]; reflexivity. Qed.
Lemma prune_reset n : prune (reset n) = reset (prune n).
Proof.
  induction n as [s i bx ks IH] using node_ind'. destruct bx as [b|]; [|reflexivity]. cbn [reset]. rewrite !prune_eq. cbn [reset].
  rewrite kids_comm; [reflexivity|intros; apply reset_style|]. intros k I. apply IH, I.
Qed.
Lemma prune_with_box b n : prune (with_box b n) = with_box b (prune n). Proof. destruct n. reflexivity. Qed.
Lemma prune_ensure n : prune (ensure_box n) = ensure_box (prune n).
Proof. unfold ensure_box. rewrite prune_box. destruct (n_box n); [reflexivity|apply prune_reset_self]. Qed.

(** ** Computations *)
Definition comm {A} (m : @M S A) (n : node) : Prop := m (prune n) = (prune (fst (m n)), snd (m n)).
(** Harmlessness depends on the inputs only. *)
Lemma inputs_node s i bx ks (m : node) : inputs m = inputs (Node s i bx ks) -> exists bx' ls, m = Node s i bx' ls /\ map inputs ls = map inputs ks.
Proof. destruct m as [s' i' bx' ls]. cbn. intros E. injection E as -> -> E. eauto. Qed.
Lemma like_hides n m : inputs n = inputs m -> hides n = hides m.
Proof. intros E. apply hides_style, inputs_style, E. Qed.
Lemma map_app_inv {A B} (f : A -> B) l m n : map f l = m ++ n -> exists l1 l2, l = l1 ++ l2 /\ map f l1 = m /\ map f l2 = n.
Proof.
  revert l. induction m as [|x m IH]; intros l E; [exists [], l; auto|]. destruct l as [|y l]; [discriminate|]. cbn in E. injection E as Ex E.
  destruct (IH l E) as (l1 & l2 & -> & <- & <-). exists (y :: l1), l2. subst. auto.
Qed.
Lemma harmless_like n : harmless n -> forall m, inputs m = inputs n -> harmless m.
Proof.
  intros H. induction H as [n H|s i bx ks Hk IH Hf Hl]; intros m E.
  { apply harmless_hidden. rewrite (like_hides _ _ E). exact H. }
  destruct (inputs_node _ _ _ _ _ E) as (bx' & ls & -> & El). apply harmless_node.
  - intros k I. apply (in_map inputs) in I. rewrite El in I. apply in_map_iff in I. destruct I as (k' & Ek & I). eapply IH; [exact I|]. congruence.
  - intros pre h post k F -> Hh I. rewrite map_app in El. symmetry in El. apply map_app_inv in El. destruct El as (p' & q' & -> & Ep & Eq).
    destruct q' as [|h' post']; [discriminate|]. cbn [map] in Eq. injection Eq as Eh Eq.
    apply (in_map inputs) in I. rewrite <- Eq in I. apply in_map_iff in I. destruct I as (k' & Ek & I).
    apply inputs_style in Ek. destruct Ek as [Ek _]. rewrite <- Ek. eapply (Hf p' h' post'); [|reflexivity|rewrite (like_hides h' h Eh); exact Hh|exact I].
    rewrite <- F. unfold establishes_inline. cbn [n_style n_intr n_kids].
    rewrite (inputs_blk sty (p' ++ h' :: post') (pre ++ h :: post)); [reflexivity|]. rewrite !map_app. cbn [map]. congruence.
  - intros pre k B A ->. rewrite map_app in El. symmetry in El. apply map_app_inv in El. destruct El as (p' & q' & -> & Ep & Eq).
    destruct q' as [|k' [|]]; try discriminate. cbn in Eq. injection Eq as Ek. rewrite <- (like_hides k' k Ek). eapply (Hl p' k' B A). reflexivity.
Qed.

Lemma comm_bind {A B} n0 (m : @M S A) (f : A -> @M S B) :
  (forall x, inputs x = inputs n0 -> comm m x) -> mkeeps (fun a b : node => inputs b = inputs a) m ->
  (forall a x, inputs x = inputs n0 -> comm (f a) x) -> forall x, inputs x = inputs n0 -> comm (mbind m f) x.
Proof.
  intros C K F x E. unfold comm, mbind. rewrite (C x E). specialize (K x). destruct (m x) as [x' [a|e]]; cbn [fst snd] in *; [|reflexivity].
  apply F. congruence.
Qed.
Lemma comm_step {A B} (m : @M S A) (f : A -> @M S B) x : comm m x -> (forall a, comm (f a) (fst (m x))) -> comm (mbind m f) x.
Proof. intros C F. unfold comm, mbind. rewrite C. destruct (m x) as [x' [a|e]]; cbn [fst snd] in *; [apply F|reflexivity]. Qed.
Lemma comm_box {A} (m : BM A) x : comm (on_box m) x.
Proof. destruct x as [s i [b|] ks]; unfold comm; rewrite prune_eq; cbn [on_box]; [destruct (m b)|]; reflexivity. Qed.
Lemma comm_add_top v x : comm (add_content_top v) x.
Proof. unfold comm, add_content_top. rewrite prune_box. destruct (n_box x); [|reflexivity]. cbn [fst snd]. rewrite prune_content_top. reflexivity. Qed.
Lemma comm_add_left v x : comm (add_content_left v) x.
Proof. unfold comm, add_content_left. rewrite prune_box. destruct (n_box x); [|reflexivity]. cbn [fst snd]. rewrite prune_content_left. reflexivity. Qed.
Lemma comm_lift {A} (r : res A) x : comm (mlift r) x. Proof. reflexivity. Qed.
Lemma comm_bind' {A B} (m : @M S A) (f : A -> @M S B) x : (forall x, comm m x) -> (forall a x, comm (f a) x) -> comm (mbind m f) x.
Proof.
  intros C F. unfold comm, mbind. rewrite (C x). destruct (m x) as [x' [a|e]]; cbn [fst snd]; [apply F|reflexivity].
Qed.
Lemma comm_width c x : comm (calculate_width_and_margins sty c) x.
Proof.
  unfold comm, calculate_width_and_margins. rewrite prune_style, prune_intr. apply comm_bind'; [intros; apply comm_box|].
  intros [l|] y; [|reflexivity]. unfold comm, mmod. cbn [fst snd]. rewrite prune_content_left. reflexivity.
Qed.
(** The height of a node depends on its last child only if the node is a block of auto height. *)
Lemma height_last s i ph l l' c : (is_block_level s = true -> st_height s = Auto -> l = l') -> calculate_height s i ph l c = calculate_height s i ph l' c.
Proof.
  intros H. unfold calculate_height. destruct (is_float s); [reflexivity|]. destruct (is_abspos s); [reflexivity|]. destruct (is_inline s) eqn:I; [reflexivity|].
  destruct (is_block_level s) eqn:B; [|reflexivity]. destruct (s_replaced i); [reflexivity|]. unfold block_non_replaced_height, block_content_height.
  destruct (st_height s) eqn:Hh; [|reflexivity]. rewrite H; reflexivity.
Qed.
Lemma last_prune s i bx ks : (forall pre k, ks = pre ++ [k] -> hides k = false) -> last_layout (prune (Node s i bx ks)) = last_layout (Node s i bx ks).
Proof.
  intros H. rewrite prune_eq. unfold last_layout. cbn [n_kids]. destruct ks as [|k ks _] using rev_ind; [reflexivity|].
  rewrite flat_map_app. cbn [flat_map]. rewrite (H ks k eq_refl), app_nil_r, !rev_app_distr. cbn. rewrite prune_box. reflexivity.
Qed.
Lemma comm_height c cb x : harmless x -> hides x = false -> comm (calculate_height_and_margins sty c cb) x.
Proof.
  intros H D. unfold comm, calculate_height_and_margins. rewrite prune_style, prune_intr.
  rewrite (height_last _ _ _ (last_layout (prune x)) (last_layout x)).
  - apply comm_bind'; [intros; apply comm_box|]. intros. apply comm_add_top.
  - intros B A. destruct H as [n H|s i bx ks Hk Hf Hl]; [congruence|]. apply last_prune. intros pre k E. eapply Hl; eassumption.
Qed.
Lemma comm_shift d f cb x : comm (relative_shift sty d f cb) x.
Proof.
  unfold comm, relative_shift. rewrite prune_style. destruct (is_relative _); [|reflexivity].
  apply comm_bind'; [reflexivity|]. intros vl y. apply comm_bind'; [intros; apply comm_add_left|]. intros _ z. apply comm_bind'; [reflexivity|]. intros. apply comm_add_top.
Qed.
Lemma prune_kids_blk ks : existsb (fun k => is_block_level (sty (n_style k))) (flat_map pk ks) = existsb (fun k => is_block_level (sty (n_style k))) ks.
Proof.
  induction ks as [|k ks IH]; [reflexivity|]. cbn [flat_map existsb]. rewrite existsb_app, IH. f_equal. unfold EngineHSpec.hides.
  unfold is_block_level. destruct (st_display (sty (n_style k))) eqn:E; [|reflexivity]. cbn [existsb]. rewrite prune_style, E, orb_false_r. reflexivity.
Qed.
Lemma prune_inline n : establishes_inline sty (prune n) = establishes_inline sty n.
Proof. destruct n as [s i bx ks]. rewrite prune_eq. unfold establishes_inline. cbn [n_style n_intr n_kids]. rewrite prune_kids_blk. reflexivity. Qed.
Lemma lay_all_prune (lay : node -> node * res unit) ks :
  (forall k, In k ks -> hides k = false -> comm lay k) -> (forall k, In k ks -> hides k = true -> snd (lay k) = Ok tt) ->
  (forall k, In k ks -> n_style (fst (lay k)) = n_style k) ->
  lay_all lay (flat_map pk ks) = (flat_map pk (fst (lay_all lay ks)), snd (lay_all lay ks)).
Proof.
  induction ks as [|k ks IH]; intros C H St; [reflexivity|].
  specialize (IH (fun x I => C x (or_intror I)) (fun x I => H x (or_intror I)) (fun x I => St x (or_intror I))). cbn [flat_map].
  specialize (C k (or_introl eq_refl)). specialize (H k (or_introl eq_refl)). specialize (St k (or_introl eq_refl)).
  pose proof (hides_style _ _ St) as Hs. cbn [lay_all]. destruct (hides k).
  - specialize (H eq_refl). destruct (lay k) as [k' r]. cbn in H. subst r. cbn [fst] in *. cbn [app]. rewrite IH. destruct (lay_all lay ks) as [ks' r].
    cbn [fst snd flat_map]. rewrite Hs. reflexivity.
  - specialize (C eq_refl). unfold comm in C. cbn [app lay_all]. rewrite C. destruct (lay k) as [k' [u|e]]; cbn [fst snd] in *.
    + rewrite IH. destruct (lay_all lay ks) as [ks' r]. cbn [fst snd flat_map]. rewrite Hs. reflexivity.
    + cbn [flat_map]. rewrite Hs. reflexivity.
Qed.
Lemma flow_no_blocks (lay : box -> node -> node * res unit) ks : (forall k, In k ks -> is_block_level (sty (n_style k)) = false) ->
  forall pend b off bm, flow sty lay ks pend b off bm = (ks, b, Ok tt).
Proof.
  induction ks as [|k ks IH]; intros H pend b off bm; [reflexivity|]. cbn [flow]. rewrite (H k (or_introl eq_refl)). rewrite IH; [reflexivity|].
  intros; apply H; right; assumption.
Qed.
Lemma place_prune (k : node) b off bm : place_child (prune k) b off bm =
  (prune (fst (fst (place_child k b off bm))), snd (fst (place_child k b off bm)), snd (place_child k b off bm)).
Proof.
  unfold place_child. rewrite prune_box. destruct (n_box k) as [kb|]; [|reflexivity]. destruct bm as [m|].
  - destruct (bindr _ _); cbn [fst snd]; [rewrite prune_content_top|]; reflexivity.
  - cbn [fst snd]. rewrite prune_content_top. reflexivity.
Qed.
Lemma place_style (k : node) b off bm : n_style (fst (fst (place_child k b off bm))) = n_style k.
Proof.
  assert (T : forall v, n_style (set_content_top v k) = n_style k) by (intros v; destruct k as [s i [b'|] ks]; cbn; [destruct (neqb _ _)|]; reflexivity).
  unfold place_child. destruct (n_box k) as [kb|]; [|reflexivity]. destruct bm as [m|].
  - destruct (bindr _ _); cbn [fst snd]; [apply T|]; reflexivity.
  - cbn [fst snd]. apply T.
Qed.
Lemma flow_prune (lay : box -> node -> node * res unit) ks :
  (forall b k, In k ks -> hides k = false -> comm (lay b) k) -> (forall b k, In k ks -> n_style (fst (lay b k)) = n_style k) ->
  (forall pre h post k, ks = pre ++ h :: post -> hides h = true -> In k post -> is_block_level (sty (n_style k)) = false) ->
  forall pend b off bm, flow sty lay (flat_map pk ks) pend b off bm =
    (flat_map pk (fst (fst (flow sty lay ks pend b off bm))), snd (fst (flow sty lay ks pend b off bm)), snd (flow sty lay ks pend b off bm)).
Proof.
  induction ks as [|k ks IH]; intros C St H pend b off bm; [reflexivity|].
  assert (IH' := IH (fun b x I => C b x (or_intror I)) (fun b x I => St b x (or_intror I))). cbn [flat_map]. destruct (hides k) eqn:Hk.
  - assert (N : forall x, In x ks -> is_block_level (sty (n_style x)) = false) by (intros x I; exact (H [] k ks x eq_refl Hk I)).
    cbn [app]. rewrite (flow_no_blocks lay (flat_map pk ks)).
    + rewrite (flow_no_blocks lay (k :: ks)). { cbn [fst snd flat_map]. rewrite Hk. reflexivity. }
      intros x [<-|I]; [|apply N, I]. unfold EngineHSpec.hides in Hk. unfold is_block_level. destruct (st_display _); [discriminate|reflexivity].
    + intros x I. apply in_flat_map in I. destruct I as (y & I & Y). destruct (hides y); [destruct Y|]. destruct Y as [<-|[]]. rewrite prune_style. apply N, I.
  - assert (H' : forall pre h post x, ks = pre ++ h :: post -> hides h = true -> In x post -> is_block_level (sty (n_style x)) = false).
    { intros pre h post x E. apply (H (k :: pre) h post x). rewrite E. reflexivity. }
    specialize (IH' H'). specialize (fun b => C b k (or_introl eq_refl) Hk). specialize (fun b => St b k (or_introl eq_refl)). cbn [app flow]. rewrite prune_style.
    destruct (is_block_level (sty (n_style k))).
    + destruct pend; [cbn [fst snd flat_map]; rewrite Hk; reflexivity|]. unfold comm in C. rewrite (C b). specialize (St b). destruct (lay b k) as [k1 [u|e]]; cbn [fst snd] in *.
      * rewrite place_prune. pose proof (place_style k1 b off bm) as Sp. destruct (place_child k1 b off bm) as [[k2 b2] [[o m]|e]]; cbn [fst snd] in *.
        -- rewrite IH'. destruct (flow sty lay ks false b2 o m) as [[ks2 b3] r]. cbn [fst snd flat_map]. rewrite (hides_style k2 k) by congruence. rewrite Hk. reflexivity.
        -- cbn [flat_map]. rewrite (hides_style k2 k) by congruence. rewrite Hk. reflexivity.
      * cbn [flat_map]. rewrite (hides_style k1 k) by congruence. rewrite Hk. reflexivity.
    + rewrite IH'. destruct (flow sty lay ks true b off bm) as [[ks2 b3] r]. cbn [fst snd flat_map]. rewrite Hk. reflexivity.
Qed.
Lemma layout_box_style fuel d f cb n : n_style (fst (layout_box sty fuel d f cb n)) = n_style n.
Proof.
  pose proof (layout_box_R sty _ (stable_inputs sty) fuel d f cb n) as H. cbv beta in H. apply inputs_style, H. intros a b E. apply inputs_style in E. apply E.
Qed.
Lemma layout_box_prune fuel d f : forall cb n, (height n <= fuel)%nat -> harmless n -> comm (layout_box sty fuel d f cb) n.
Proof.
  induction fuel as [|fuel IH]; intros cb n Hn H; [reflexivity|]. unfold comm. cbn [layout_box]. rewrite prune_style.
  destruct (st_display (sty (n_style n))) eqn:D; [|rewrite <- prune_with_box; reflexivity].
  pose proof (stable_inputs sty) as SI.
  assert (Hd : hides n = false) by (unfold EngineHSpec.hides; rewrite D; reflexivity).
  assert (Hh : forall x, inputs x = inputs n -> harmless x /\ hides x = false).
  { intros x E. split; [eapply harmless_like; eassumption|rewrite (like_hides _ _ E); exact Hd]. }
  refine (_ : comm (mbind (mmod ensure_box) _) n).
  apply (comm_bind n); [intros x E|intros x; apply inputs_ensure| |reflexivity].
  { unfold comm, mmod. rewrite <- prune_ensure. reflexivity. } intros _.
  apply comm_bind; [intros; apply comm_box|apply (mkeeps_box sty _ SI), copy_edges_geom|]. intros _.
  apply comm_bind; [intros; apply comm_width|apply (mkeeps_width sty _ SI)|]. intros _.
  apply comm_bind; [|destruct (is_relative _); [apply (mkeeps_height sty _ SI)|intros ?; reflexivity]|].
  { intros x E. destruct (is_relative _); [|reflexivity]. apply comm_height; apply Hh, E. } intros _ x E. destruct (Hh x E) as [Hx Dx].
  assert (Cc : comm (if is_abspos (sty (n_style n)) then mlift (Err NotImplementedError)
     else if is_float (sty (n_style n)) then mlift (Err NotImplementedError) else layout_children sty (layout_box sty fuel d f)) x).
  { destruct (is_abspos _); [reflexivity|]. destruct (is_float _); [reflexivity|].
    destruct Hx as [x Hx|s i bx ks Hk Hf Hl]; [congruence|]. unfold comm. destruct bx as [b|]; [|reflexivity].
    assert (Gk : forall k, In k ks -> (height k <= fuel)%nat).
    { intros k I. apply (height_kid s i (Some b)) in I. apply height_like in E. lia. }
    pose proof (prune_inline (Node s i (Some b) ks)) as Ei. rewrite prune_eq in *. cbn [layout_children]. rewrite Ei. destruct (establishes_inline sty (Node s i (Some b) ks)) eqn:Eb.
    - rewrite lay_all_prune.
      + destruct (lay_all _ ks). reflexivity.
      + intros k I _. apply IH; [apply Gk, I|apply Hk, I].
      + intros k I Hi. specialize (Gk k I). destruct fuel; cbn [layout_box]; [destruct k; cbn in Gk; lia|]. unfold EngineHSpec.hides in Hi. destruct (st_display (sty (n_style k))); [discriminate Hi|reflexivity].
      + intros k I. apply layout_box_style.
    - rewrite flow_prune.
      + destruct (flow _ _ ks _ _ _ _) as [[ks' b'] r]. reflexivity.
      + intros b0 k I _. apply IH; [apply Gk, I|apply Hk, I].
      + intros b0 k I. apply layout_box_style.
      + intros pre h post k. apply Hf. reflexivity. }
  pose proof (fun Q => children_R sty _ SI (layout_box sty fuel d f) x Q) as Kc. cbv beta in Kc.
  assert (Ks : inputs (fst ((if is_abspos (sty (n_style n)) then mlift (Err NotImplementedError)
     else if is_float (sty (n_style n)) then mlift (Err NotImplementedError) else layout_children sty (layout_box sty fuel d f)) x)) = inputs n).
  { destruct (is_abspos _); [exact E|]. destruct (is_float _); [exact E|]. rewrite Kc; [exact E| |].
    - intros cb' m. pose proof (layout_box_R sty _ SI fuel d f cb' m) as R. cbv beta in R. apply R. intros a b0 E0. apply inputs_style in E0. apply E0.
    - destruct (inputs_style _ _ E) as [-> _]. congruence. }
  apply comm_step; [exact Cc|]. intros _. apply (comm_bind n); [|apply (mkeeps_height sty _ SI)|intros; apply comm_shift|exact Ks].
  intros y Ey. apply comm_height; apply Hh, Ey.
Qed.
Lemma height_prune n : (height (prune n) <= height n)%nat.
Proof.
  induction n as [s i bx ks IH] using node_ind'. rewrite prune_eq. cbn [height]. apply le_n_S. induction ks as [|k ks IHk]; [apply le_n|]. cbn [flat_map map fold_right].
  specialize (IHk (fun x I => IH x (or_intror I))). specialize (IH k (or_introl eq_refl)). destruct (hides k); cbn [app map fold_right]; lia.
Qed.
Lemma layout_prune d h5 n : harmless n -> layout sty d h5 (prune n) = (prune (fst (layout sty d h5 n)), snd (layout sty d h5 n)).
Proof.
  intros H. unfold layout. rewrite prune_box. destruct (n_box n); [|reflexivity]. unfold mbind, mmod. rewrite <- prune_reset.
  rewrite (layout_box_fuel sty d dummy_font (height (prune n)) (height n)); [|rewrite prune_reset, (height_like _ _ (inputs_reset (prune n))); [apply le_n]..|].
  2:{ rewrite prune_reset, (height_like _ _ (inputs_reset (prune n))). apply height_prune. }
  rewrite layout_box_prune; [|rewrite (height_like _ _ (inputs_reset n)); apply le_n|eapply harmless_like; [exact H|apply inputs_reset]].
  destruct (layout_box _ _ _ _ _ _) as [n1 [u|e]]; cbn [fst snd]; [|reflexivity].
  unfold finish_root. rewrite prune_box. destruct (n_box n1) as [b1|]; [|reflexivity]. rewrite <- prune_content_top.
  destruct h5; [apply comm_box|reflexivity].
Qed.
End Hidden.
