(** * Lower bounds on the work of layout() (lemmas for C188) *)
From Coq Require Import ZArith QArith Qcanon Bool List Lia.
From Verif Require Import PyNum NumFacts Units BoxModel BoxSpec BoxFacts Engine EngineSpec EngineFacts EngineTree EngineInv EngineFSpec
  Cost CostSpec CostFacts DepthSpec.
Import ListNotations.

Section Facts.
Context {S : Type} (sty : S -> style) (call turn : nat).
Notation node := (node S).
Notation total := (inset_boxes sty).

Lemma boxes_some (s : S) i b ks : boxes (Node s i (Some b) ks) = Datatypes.S (over boxes ks).
Proof. reflexivity. Qed.
Lemma total_some (s : S) i b ks : total (Node s i (Some b) ks) =
  ((if is_block_level (sty s) && inset b then boxes (Node s i (Some b) ks) else 0) + over total ks)%nat.
Proof. reflexivity. Qed.
Lemma over_map_ext {A} (f : A -> nat) g ks : (forall k, In k ks -> f (g k) = f k) -> over f (map g ks) = over f ks.
Proof. intros H. unfold over. rewrite map_map. f_equal. apply map_ext_in, H. Qed.
Lemma origin_top_same (n : node) : forall v, boxes (set_origin_top v n) = boxes n /\ total (set_origin_top v n) = total n.
Proof.
  induction n as [s i b ks IH] using node_ind'. intros v. destruct b as [b|]; [|split; reflexivity]. cbn [set_origin_top].
  destruct (neqb v (origin_top b)); [split; reflexivity|]. rewrite !total_some, !boxes_some.
  rewrite (over_map_ext boxes), (over_map_ext total); [|intros k Hk; apply (IH k Hk)|intros k Hk; apply (IH k Hk)].
  split; [reflexivity|]. destruct b; reflexivity.
Qed.
Lemma origin_left_same (n : node) : forall v, boxes (set_origin_left v n) = boxes n /\ total (set_origin_left v n) = total n.
Proof.
  induction n as [s i b ks IH] using node_ind'. intros v. destruct b as [b|]; [|split; reflexivity]. cbn [set_origin_left].
  destruct (neqb v (origin_left b)); [split; reflexivity|]. rewrite !total_some, !boxes_some.
  rewrite (over_map_ext boxes), (over_map_ext total); [|intros k Hk; apply (IH k Hk)|intros k Hk; apply (IH k Hk)].
  split; [reflexivity|]. destruct b; reflexivity.
Qed.
(** The total of the children, when the node has a box. *)
Definition kids_total (n : node) : nat := match n with Node _ _ None _ => 0 | Node _ _ (Some _) ks => over total ks end.
Lemma content_top_same v (n : node) : total (set_content_top v n) = total n /\ kids_total (set_content_top v n) = kids_total n.
Proof.
  destruct n as [s i [b|] ks]; [|split; reflexivity]. cbn [set_content_top]. destruct (neqb _ _); [split; reflexivity|].
  cbn [kids_total]. rewrite !total_some, !boxes_some.
  rewrite (over_map_ext boxes), (over_map_ext total); [|intros k Hk; apply origin_top_same|intros k Hk; apply origin_top_same].
  split; [|reflexivity]. destruct b; reflexivity.
Qed.
Lemma content_left_same v (n : node) : total (set_content_left v n) = total n /\ kids_total (set_content_left v n) = kids_total n.
Proof.
  destruct n as [s i [b|] ks]; [|split; reflexivity]. cbn [set_content_left]. destruct (neqb _ _); [split; reflexivity|].
  cbn [kids_total]. rewrite !total_some, !boxes_some.
  rewrite (over_map_ext boxes), (over_map_ext total); [|intros k Hk; apply origin_left_same|intros k Hk; apply origin_left_same].
  split; [|reflexivity]. destruct b; reflexivity.
Qed.
Lemma reset_total (n : node) : total (reset n) = 0%nat.
Proof.
  induction n as [s i b ks IH] using node_ind'. destruct b as [b|]; [|reflexivity]. cbn [reset]. rewrite total_some.
  assert (inset box0 = false) as ->. { unfold inset. destruct (Qc_eq_dec _ _) as [_|N]; [reflexivity|]. exfalso. apply N. apply Qc_is_canon. reflexivity. }
  rewrite andb_false_r. unfold over. rewrite map_map. cbn [Nat.add].
  induction ks as [|k ks IHk]; [reflexivity|]. cbn [map fold_right]. rewrite (IH k (or_introl eq_refl)). apply IHk. intros k' H. apply IH. right. exact H.
Qed.
(** In a document with consistent positions a change goes through all boxes. *)
Lemma origin_top_full (n : node) : forall v b, consistent n -> n_box n = Some b -> nval v <> nval (origin_top b) ->
  origin_top_cost turn v n = (turn * boxes n)%nat.
Proof.
  induction n as [s i bx ks IH] using node_ind'. intros v b C E N. cbn [n_box] in E. subst bx. rewrite boxes_some. cbn [origin_top_cost].
  destruct (neqb_spec v (origin_top b)) as [X|_]; [contradiction|].
  apply consistent_iff in C as [C1 C2].
  assert (X : over (origin_top_cost turn (absolute_content_top (upd_origin_top v b))) ks = over (fun k => turn * boxes k)%nat ks).
  { unfold over. f_equal. apply map_ext_in. intros k Hk. destruct (n_box k) as [kb|] eqn:Ek.
    - apply (IH k Hk _ kb (C1 k Hk) Ek). destruct (C2 b k kb eq_refl Hk Ek) as [T _]. rewrite T. unfold absolute_content_top. rewrite !nval_add.
      destruct b. cbn. cbn in N. intros Q. apply N. qclra.
    - destruct k as [s0 i0 b0 k0]. cbn in Ek. subst b0. cbn. lia. }
  unfold over in X. rewrite X. change (fold_right Nat.add 0%nat (map (fun k => turn * boxes k)%nat ks)) with (over (fun k => turn * boxes k)%nat ks).
  rewrite over_mul. lia.
Qed.
Lemma content_top_full (s : S) i b ks v : consistent (Node s i (Some b) ks) -> nval v <> nval (content_top b) ->
  content_top_cost turn v (Node s i (Some b) ks) = (turn * boxes (Node s i (Some b) ks))%nat.
Proof.
  intros C N. rewrite boxes_some. cbn [content_top_cost]. destruct (neqb_spec v (content_top b)) as [X|_]; [contradiction|].
  apply consistent_iff in C as [C1 C2].
  assert (X : over (origin_top_cost turn (absolute_content_top (upd_content_top v b))) ks = over (fun k => turn * boxes k)%nat ks).
  { unfold over. f_equal. apply map_ext_in. intros k Hk. destruct (n_box k) as [kb|] eqn:Ek.
    - apply (origin_top_full k _ kb (C1 k Hk) Ek). destruct (C2 b k kb eq_refl Hk Ek) as [T _]. rewrite T. unfold absolute_content_top. rewrite !nval_add.
      destruct b. cbn. cbn in N. intros Q. apply N. qclra.
    - destruct k as [s0 i0 b0 k0]. cbn in Ek. subst b0. cbn. lia. }
  rewrite X, over_mul. lia.
Qed.
(** The height functions of block-level elements return the inset. *)
Lemma height_inset s i ph last c b b' d : calculate_height s i ph last c b = (b', Ok d) -> is_block_level s = true ->
  d = nadd (border_top_width b') (padding_top b').
Proof.
  intros E B. unfold calculate_height in E. destruct (is_float s); [discriminate|]. destruct (is_abspos s); [discriminate|].
  assert (I : is_inline s = false) by (unfold is_inline, is_block_level in *; destruct (st_display s) as [[]|]; congruence). rewrite I, B in E.
  destruct (s_replaced i); [discriminate|]. unfold block_non_replaced_height in E.
  revert E. unfold bbind at 1. destruct (auto_top0 b) as [b1 [?|]]; [|discriminate].
  unfold bbind at 1. destruct (auto_bottom0 b1) as [b2 [?|]]; [|discriminate].
  unfold bbind at 1. destruct (block_content_height s ph last c b2) as [b3 [h|]]; [|discriminate].
  unfold bbind, bmod, bget, bret. intros E. injection E as <- <-. reflexivity.
Qed.

(** ** What the steps of layout_box() do to the total *)
Section Steps.
Context (s0 : S) (D : st_display (sty s0) <> None).
(** A displayed node in a document with boxes and consistent positions. *)
Definition fit (n : node) : Prop := n_style n = s0 /\ ready sty n /\ consistent n.
Lemma fit_step (n n' : node) : cons_step sty n n' -> fit n -> fit n'.
Proof. intros [E H] (A & R & C). destruct (H R) as (R' & _ & C' & _). split; [congruence|]. split; [exact R'|exact (C' C)]. Qed.
Lemma fit_box n : fit n -> exists i b ks, n = Node s0 i (Some b) ks.
Proof. intros (A & R & _). destruct R as [n H|s i b ks _]; [congruence|]. cbn in A. subst s. eauto. Qed.
Definition pstep {A} (m : @CM S A) : Prop := forall n, fit n ->
  fit (fst (fst (m n))) /\ forall a, snd (fst (m n)) = Ok a -> (turn * kids_total (fst (fst (m n))) <= turn * kids_total n + snd (m n))%nat.
Definition fstep {A} (m : @CM S A) : Prop := forall n, fit n ->
  fit (fst (fst (m n))) /\ forall a, snd (fst (m n)) = Ok a -> (turn * total (fst (fst (m n))) <= turn * kids_total n + snd (m n))%nat.
Lemma pstep_bind {A B} (m : @CM S A) (f : A -> @CM S B) : pstep m -> (forall a, pstep (f a)) -> pstep (cbind m f).
Proof.
  intros Hm Hf n F. unfold cbind. destruct (Hm n F) as [F1 H1]. destruct (m n) as [[n' [a|e]] x]; cbn [fst snd] in *; [|split; [exact F1|discriminate]].
  destruct (Hf a n' F1) as [F2 H2]. destruct (f a n') as [[n'' r] y]. cbn [fst snd] in *. split; [exact F2|]. intros b E. specialize (H1 a eq_refl). specialize (H2 b E). lia.
Qed.
Lemma fstep_bind {A B} (m : @CM S A) (f : A -> @CM S B) : pstep m -> (forall a, fstep (f a)) -> fstep (cbind m f).
Proof.
  intros Hm Hf n F. unfold cbind. destruct (Hm n F) as [F1 H1]. destruct (m n) as [[n' [a|e]] x]; cbn [fst snd] in *; [|split; [exact F1|discriminate]].
  destruct (Hf a n' F1) as [F2 H2]. destruct (f a n') as [[n'' r] y]. cbn [fst snd] in *. split; [exact F2|]. intros b E. specialize (H1 a eq_refl). specialize (H2 b E). lia.
Qed.
Lemma fstep_then {A B} (m : @CM S A) (f : A -> @CM S B) : fstep m ->
  (forall a n, fit n -> fit (fst (fst (f a n))) /\ total (fst (fst (f a n))) = total n) -> fstep (cbind m f).
Proof.
  intros Hm Hf n F. unfold cbind. destruct (Hm n F) as [F1 H1]. destruct (m n) as [[n' [a|e]] x]; cbn [fst snd] in *; [|split; [exact F1|discriminate]].
  destruct (Hf a n' F1) as [F2 H2]. destruct (f a n') as [[n'' r] y]. cbn [fst snd] in *. split; [exact F2|]. intros b E. specialize (H1 a eq_refl). rewrite H2. lia.
Qed.
Lemma keeps_fit {A} (m : @M S A) n : mkeeps (cons_step sty) m -> fit n -> fit (fst (m n)).
Proof. intros H F. exact (fit_step _ _ (H n) F). Qed.
Lemma pstep_box {A} (m : BM A) : keeps geom m -> pstep (free (on_box m)).
Proof.
  intros K n F. split; [exact (keeps_fit (on_box m) n (mkeeps_box sty _ (stable_cons sty) m K) F)|]. intros a E. destruct (fit_box n F) as (i & b & ks & ->).
  unfold free, on_box in *. destruct (m b) as [b' r]. cbn [fst snd kids_total] in *. lia.
Qed.
Lemma pstep_ret {A} (a : A) : pstep (cret a).
Proof. intros n F. split; [exact F|]. intros. cbn [cret fst snd]. lia. Qed.
Lemma pstep_raise {A} e : pstep (free (mlift (Err e : res A))).
Proof. intros n F. split; [exact F|]. discriminate. Qed.
Lemma pstep_top v : pstep (set_topC turn v).
Proof.
  intros n F. unfold set_topC. cbn [fst snd]. split; [exact (fit_step _ _ (st_top_ sty _ (stable_cons sty) v n) F)|]. intros _ _.
  rewrite (proj2 (content_top_same v n)). lia.
Qed.
Lemma pstep_left v : pstep (set_leftC turn v).
Proof.
  intros n F. unfold set_leftC. cbn [fst snd]. split; [exact (fit_step _ _ (st_left_ sty _ (stable_cons sty) v n) F)|]. intros _ _.
  rewrite (proj2 (content_left_same v n)). lia.
Qed.
Lemma pstep_add_top v : pstep (add_topC turn v).
Proof. intros n F. unfold add_topC. destruct (n_box n); [apply pstep_top, F|]. split; [exact F|]. discriminate. Qed.
Lemma pstep_width c : pstep (widthC sty turn c).
Proof.
  intros n F. unfold widthC. revert F. pose proof (calculate_width_geom (sty (n_style n)) (n_intr n) c) as K. revert K. generalize (calculate_width (sty (n_style n)) (n_intr n) c). intros m K. revert n.
  change (pstep (cbind (free (on_box m)) (fun ol => match ol with Some l => set_leftC turn l | None => cret tt end))).
  apply pstep_bind; [apply pstep_box, K|]. intros [l|]; [apply pstep_left|apply pstep_ret].
Qed.
Lemma pstep_height c cb : pstep (heightC sty turn c cb).
Proof.
  intros n F. unfold heightC. revert F. pose proof (calculate_height_geom (sty (n_style n)) (n_intr n) (cb_style_height sty cb) (last_layout n) c) as K. revert K.
  generalize (calculate_height (sty (n_style n)) (n_intr n) (cb_style_height sty cb) (last_layout n) c). intros m K. revert n.
  change (pstep (cbind (free (on_box m)) (fun d => add_topC turn d))). apply pstep_bind; [apply pstep_box, K|]. intros d. apply pstep_add_top.
Qed.
(** the height of the node itself: when it is inset everything inside it moves *)
Lemma fstep_height c cb : fstep (heightC sty turn c cb).
Proof.
  intros n F. split; [apply (pstep_height c cb n F)|]. intros a E.
  assert (F1 : fit (fst (on_box (calculate_height (sty (n_style n)) (n_intr n) (cb_style_height sty cb) (last_layout n) c) n)))
    by (apply keeps_fit; [apply (mkeeps_box sty _ (stable_cons sty)), calculate_height_geom|exact F]).
  destruct (fit_box n F) as (i & b & ks & ->). unfold heightC, cbind, free, on_box in *. cbn [n_style n_intr] in *.
  destruct (calculate_height (sty s0) i (cb_style_height sty cb) (last_layout (Node s0 i (Some b) ks)) c b) as [b' [d|e]] eqn:H; cbn [fst snd] in *; [|discriminate].
  unfold add_topC in *. cbn [n_box] in *. unfold set_topC in *. cbn [fst snd] in *.
  rewrite (proj1 (content_top_same _ _)), total_some. cbn [kids_total].
  destruct (is_block_level (sty s0)) eqn:B; cbn [andb]; [|lia]. unfold inset. destruct (Qc_eq_dec _ _) as [_|N]; [lia|].
  pose proof (height_inset _ _ _ _ _ _ _ _ H B) as ->. rewrite content_top_full; [lia|exact (proj2 (proj2 F1))|].
  rewrite !nval_add. intros Q. apply N. qclra.
Qed.
Lemma shift_total d f cb n : fit n -> fit (fst (fst (shiftC sty turn d f cb n))) /\ total (fst (fst (shiftC sty turn d f cb n))) = total n.
Proof.
  intros F. rewrite shift_fst. split; [exact (keeps_fit _ n (mkeeps_shift sty _ (stable_cons sty) d f cb) F)|].
  unfold relative_shift. destruct (is_relative _); [|reflexivity]. unfold mbind at 1, mlift at 1. destruct (rel_offset _ _ _ _ _) as [vl|e]; [|reflexivity].
  unfold mbind at 1. destruct (add_content_left vl n) as [n1 [u|e]] eqn:E1.
  - assert (T1 : total n1 = total n). { unfold add_content_left in E1. destruct (n_box n); [|discriminate]. injection E1 as <- _. apply content_left_same. }
    rewrite <- T1. unfold mbind at 1, mlift at 1. destruct (rel_offset _ _ _ _ _) as [vt|e]; [|reflexivity]. unfold add_content_top. destruct (n_box n1); [|reflexivity]. apply content_top_same.
  - unfold add_content_left in E1. destruct (n_box n); [discriminate|]. injection E1 as <- _. reflexivity.
Qed.
Lemma pstep_ensure : pstep (ensureC turn).
Proof.
  intros n F. unfold ensureC. destruct (fit_box n F) as (i & b & ks & ->). cbn [n_box fst snd]. split; [exact F|]. intros _ _. lia.
Qed.
End Steps.

(** ** The children *)
Definition tame (lay : node -> node * res unit * nat) : Prop := forall k a, ready sty k -> consistent k -> snd (fst (lay k)) = Ok a ->
  (turn * total (fst (fst (lay k))) <= turn * total k + snd (lay k))%nat.
Lemma all_total lay ks a : tame lay -> (forall k, In k ks -> ready sty k /\ consistent k) -> snd (fst (lay_allC lay ks)) = Ok a ->
  (turn * over total (fst (fst (lay_allC lay ks))) <= turn * over total ks + snd (lay_allC lay ks))%nat.
Proof.
  intros T. induction ks as [|k ks IH]; intros H E; [cbn; lia|]. cbn [lay_allC] in *.
  destruct (H k (or_introl eq_refl)) as [R C]. pose proof (fun a => T k a R C) as T1. destruct (lay k) as [[k' [u|e]] x]; cbn [fst snd] in *; [|discriminate].
  specialize (IH (fun k H' => H k (or_intror H'))). destruct (lay_allC lay ks) as [[ks' r] y]. cbn [fst snd] in *. specialize (IH E). specialize (T1 u eq_refl).
  unfold over in *. cbn [map fold_right]. lia.
Qed.
Lemma place_total (k : node) b off bm : total (fst (fst (place_child k b off bm))) = total k.
Proof.
  unfold place_child. destruct (n_box k) as [kb|]; [|reflexivity]. destruct bm as [m|].
  - destruct (bindr _ _); [|reflexivity]. apply content_top_same.
  - apply content_top_same.
Qed.
Lemma flow_total lay ks a : (forall b, tame (lay b)) -> (forall k, In k ks -> ready sty k /\ consistent k) -> forall pend b off bm,
  snd (fst (flowC sty turn lay ks pend b off bm)) = Ok a ->
  (turn * over total (fst (fst (fst (flowC sty turn lay ks pend b off bm)))) <= turn * over total ks + snd (flowC sty turn lay ks pend b off bm))%nat.
Proof.
  intros T. induction ks as [|k ks IH]; intros H pend b off bm E; [cbn; lia|]. cbn [flowC] in *.
  specialize (IH (fun k H' => H k (or_intror H'))).
  destruct (is_block_level (sty (n_style k))).
  - destruct pend; [discriminate|]. destruct (H k (or_introl eq_refl)) as [R C]. pose proof (fun a => T b k a R C) as T1.
    destruct (lay b k) as [[k' [u|e]] x]; cbn [fst snd] in *; [|discriminate].
    pose proof (place_total k' b off bm) as P. destruct (place_child k' b off bm) as [[k2 b2] [[off' bm']|e]]; cbn [fst snd] in *; [|discriminate].
    specialize (IH false b2 off' bm'). destruct (flowC sty turn lay ks false b2 off' bm') as [[[ks2 b3] r] y]. cbn [fst snd] in *.
    specialize (IH E). specialize (T1 u eq_refl). unfold over in *. cbn [map fold_right]. rewrite P. lia.
  - specialize (IH true b off bm). destruct (flowC sty turn lay ks true b off bm) as [[[ks2 b2] r] y]. cbn [fst snd] in *. specialize (IH E). unfold over in *. cbn [map fold_right]. lia.
Qed.
Lemma layout_box_total fuel d f : forall cb, tame (layout_boxC sty call turn fuel d f cb).
Proof.
  induction fuel as [|fuel IH]; intros cb k a R C E; [discriminate|]. revert E. cbn [layout_boxC].
  destruct (st_display (sty (n_style k))) as [dk|] eqn:ED.
  2: { intros _. cbn [fst snd]. destruct k as [s i b ks]. cbn [with_box inset_boxes]. lia. }
  set (s0 := n_style k) in *. assert (D : st_display (sty s0) <> None) by congruence.
  assert (F : fit s0 k) by (split; [reflexivity|split; assumption]).
  pose proof (stable_cons sty) as SC.
  assert (PC : pstep s0 (childrenC sty turn (layout_boxC sty call turn fuel d f))).
  { intros n Fn. split.
    - rewrite (children_fst sty turn _ (layout_box sty fuel d f)); [|intros; apply layout_box_fst].
      apply (fit_step s0 n); [|exact Fn]. apply (children_R sty _ SC); [|destruct Fn as (-> & _); exact D].
      intros cb' n'. apply (layout_box_R sty _ SC). intros x y H. apply H.
    - destruct (fit_box s0 D n Fn) as (i & b & ks & ->). destruct Fn as (_ & Rn & Cn).
      assert (HK : forall k, In k ks -> ready sty k /\ consistent k).
      { intros k' Hk. apply consistent_iff in Cn. inversion Rn as [? X|? ? ? ? X]; subst; [contradiction|]. split; [apply X, Hk|apply Cn, Hk]. }
      intros a'. cbn [childrenC]. destruct (establishes_inline sty _).
      + pose proof (all_total (layout_boxC sty call turn fuel d f (CBNode s0 b)) ks a' (IH _) HK) as H.
        destruct (lay_allC _ ks) as [[ks' r] x]. cbn [fst snd kids_total] in *. exact H.
      + pose proof (flow_total (fun b0 => layout_boxC sty call turn fuel d f (CBNode s0 b0)) ks a' (fun b0 => IH _) HK false b n0 None) as H.
        destruct (flowC _ _ _ ks _ _ _ _) as [[[ks' b'] r] x]. cbn [fst snd kids_total] in *. exact H. }
  match goal with |- snd (fst (?m k)) = _ -> _ => assert (FS : fstep s0 m) end.
  { apply fstep_bind; [intros n Fn; split; [exact Fn|intros; cbn [fst snd]; lia]|]. intros _.
    apply fstep_bind; [apply pstep_ensure, D|]. intros _.
    apply fstep_bind; [apply pstep_box; [exact D|apply copy_edges_geom]|]. intros _.
    apply fstep_bind; [apply pstep_width, D|]. intros _.
    apply fstep_bind; [destruct (is_relative _); [apply pstep_height, D|apply pstep_ret]|]. intros _.
    apply fstep_bind; [destruct (is_abspos _); [apply pstep_raise|]; destruct (is_float _); [apply pstep_raise|exact PC]|]. intros _.
    apply fstep_then; [apply fstep_height, D|]. intros _ n Fn. apply shift_total; [exact Fn]. }
  intros E. destruct (FS k F) as [_ H]. specialize (H a E). etransitivity; [exact H|].
  destruct k as [s i [b|] ks]; cbn [kids_total]; [rewrite total_some|]; lia.
Qed.
Lemma layout_total d h5 (n n' : node) : ready sty n -> consistent (reset n) -> layout sty d h5 n = (n', Ok tt) ->
  (turn * total n' <= snd (layoutC sty call turn d h5 n))%nat.
Proof.
  intros R C. rewrite <- (layout_fst sty call turn d h5 n). unfold layoutC. destruct (n_box n) as [b|]; [|discriminate].
  unfold cbind. pose proof (reset_fst turn (height n) n (le_n _)) as E0. destruct (resetC turn (height n) n) as [[m r0] x0]. cbn [fst] in E0. injection E0 as -> ->.
  pose proof (layout_box_total (height n) d dummy_font CBView (reset n) tt (reset_ready sty n R) C) as H1.
  destruct (layout_boxC sty call turn (height n) d dummy_font CBView (reset n)) as [[m1 [[]|e]] x1]; cbn [fst snd] in *; [|discriminate].
  specialize (H1 eq_refl). rewrite reset_total in H1.
  assert (FT : total (fst (fst (finishC turn d h5 m1))) = total m1).
  { unfold finishC. destruct (n_box m1) as [b1|]; [|reflexivity]. unfold cbind, set_topC. cbn [fst snd].
    set (v := nadd _ _). pose proof (proj1 (content_top_same v m1)) as T. destruct h5; [|exact T]. unfold free, on_box.
    destruct (set_content_top v m1) as [s2 i2 [b2|] k2]; cbn [fst]; [|exact T]. unfold bmod. cbn [fst]. rewrite <- T, !total_some, !boxes_some. destruct b2; reflexivity. }
  destruct (finishC turn d h5 m1) as [[m2 r2] x2]. cbn [fst snd] in *. intros E. injection E as <- _. rewrite FT. rewrite Nat.mul_0_r in H1. lia.
Qed.
End Facts.
