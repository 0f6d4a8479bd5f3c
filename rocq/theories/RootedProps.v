(** * Laying out a node that has a parent: C181 *)
From Coq Require Import ZArith QArith Qcanon Bool List Lia.
From Verif Require Import PyNum NumFacts Units BoxModel BoxFacts Engine EngineSpec EngineExamples RefLayout RefFacts OkSpec OkFacts ModeSpec Rooted RootedSpec.
Import ListNotations.
Open Scope Qc_scope.

Section Root.
Context {S : Type} (sty : S -> style).
Notation node := (node S).

(** *** Boxes and nodes that differ in the content height only *)
Lemma same_box b : same_but_height b b.
Proof. split; reflexivity. Qed.
Lemma same_node (n : node) : same_but_root_height n n.
Proof. split; [reflexivity|]. split; [reflexivity|]. split; [reflexivity|]. destruct (n_box n); [apply same_box|exact I]. Qed.
Lemma same_top v (a b : node) : same_but_root_height a b -> same_but_root_height (set_content_top v a) (set_content_top v b).
Proof.
  destruct a as [s i [x|] ks], b as [s' i' [y|] ks']; intros (A & B & C & D); cbn in A, B, C, D; try contradiction; subst; [|repeat split].
  cbn [set_content_top]. rewrite (sb_top _ _ D). destruct (neqb v (content_top y)); [split; [reflexivity|]; split; [reflexivity|]; split; [reflexivity|exact D]|].
  split; [reflexivity|]. split; [reflexivity|]. cbn [n_kids n_box]. assert (E : absolute_content_top (upd_content_top v x) = absolute_content_top (upd_content_top v y)).
  { unfold absolute_content_top. destruct D. destruct x, y; cbn in *. congruence. }
  rewrite E. split; [reflexivity|]. destruct D, x, y; cbn in *; split; cbn; congruence.
Qed.
Lemma same_add v (a b : node) : same_but_root_height a b ->
  snd (add_content_top v a) = snd (add_content_top v b) /\ same_but_root_height (fst (add_content_top v a)) (fst (add_content_top v b)).
Proof.
  intros R. unfold add_content_top. pose proof (proj2 (proj2 (proj2 R))) as D. destruct (n_box a) as [x|] eqn:Ea, (n_box b) as [y|] eqn:Eb; try contradiction; cbn [fst snd].
  - split; [reflexivity|]. rewrite (sb_top _ _ D). apply same_top, R.
  - split; [reflexivity|exact R].
Qed.

(** *** The height *)
Definition view (d : display_t) : ctx := mkCtx d dummy_font (LNum (disp_height d)).
Lemma px_any_size d f s t u q : pval (u_val u) = Fin q -> is_ok (px (mkCtx d f (LNum s)) u) = is_ok (px (mkCtx d f (LNum t)) u)
  /\ forall e e', px (mkCtx d f (LNum s)) u = Err e -> px (mkCtx d f (LNum t)) u = Err e' -> e = e'.
Proof.
  intros F. unfold px, lu. cbn [c_size c_disp c_font as_num bindr]. rewrite F. destruct (u_kind u); cbn; try (split; [reflexivity|congruence]).
  all: split; [reflexivity|discriminate].
Qed.
Lemma height_same s i parent last d b : finite_length (st_height s) -> (forall u, parent = Some u -> exists p, px (view d) u = Ok p) ->
  let x := calculate_height s i parent last (view d) b in let y := calculate_height s i None last (view d) b in
  snd x = snd y /\ same_but_height (fst x) (fst y) /\ (is_ok (snd x) = false -> fst x = fst y).
Proof.
  intros F P x y. subst x y. unfold calculate_height. destruct (is_float s); [split; [reflexivity|]; split; [apply same_box|reflexivity]|].
  destruct (is_abspos s); [split; [reflexivity|]; split; [apply same_box|reflexivity]|].
  destruct (is_inline s); [split; [reflexivity|]; split; [apply same_box|reflexivity]|].
  destruct (is_block_level s); [|split; [reflexivity|]; split; [apply same_box|reflexivity]].
  destruct (s_replaced i); [split; [reflexivity|]; split; [apply same_box|reflexivity]|].
  destruct parent as [pu|]; [|split; [reflexivity|]; split; [apply same_box|reflexivity]].
  unfold block_non_replaced_height, bbind. destruct (auto_top0 b) as [b1 [[]|e1]]; [|split; [reflexivity|]; split; [apply same_box|reflexivity]].
  destruct (auto_bottom0 b1) as [b2 [[]|e2]]; [|split; [reflexivity|]; split; [apply same_box|reflexivity]].
  unfold block_content_height. destruct (st_height s) as [|u] eqn:H; [split; [reflexivity|]; split; [apply same_box|reflexivity]|].
  destruct (P pu eq_refl) as (p & Ep), (F u eq_refl) as (q & Fq). unfold bbind, blift. rewrite Ep. cbn [c_disp c_font view].
  destruct (px_any_size d dummy_font p (disp_height d) u q Fq) as [O E]. unfold view in *.
  destruct (px (mkCtx d dummy_font (LNum p)) u) as [h|e] eqn:X, (px (mkCtx d dummy_font (LNum (disp_height d))) u) as [h'|e'] eqn:Y; try discriminate O.
  - destruct (st_max_height s) as [m|].
    + destruct (px (mkCtx d dummy_font (LNum (disp_height d))) m) as [mx|e]; cbn.
      * split; [destruct b2; reflexivity|]. split; [destruct b2; split; reflexivity|discriminate].
      * split; [reflexivity|]. split; [apply same_box|reflexivity].
    + cbn. split; [destruct b2; reflexivity|]. split; [destruct b2; split; reflexivity|discriminate].
  - cbn. rewrite (E e e' eq_refl eq_refl). split; [reflexivity|]. split; [apply same_box|reflexivity].
Qed.
Lemma top_height_same parent d (n : node) : finite_length (st_height (sty (n_style n))) -> (forall s, parent = Some s -> convertible (st_height (sty s))) ->
  let x := top_height sty parent (view d) n in let y := calculate_height_and_margins sty (view d) CBView n in
  snd x = snd y /\ same_but_root_height (fst x) (fst y) /\ (is_ok (snd x) = false -> fst x = fst y).
Proof.
  intros F P x y. subst x y. unfold top_height, calculate_height_and_margins, mbind. destruct n as [s i [b|] ks]; cbn [on_box n_style n_intr last_layout n_kids cb_style_height].
  2:{ split; [reflexivity|]. split; [apply same_node|reflexivity]. }
  assert (Q : forall u, parent_height sty parent = Some u -> exists p, px (view d) u = Ok p).
  { intros u. unfold parent_height. destruct parent as [s'|]; [|discriminate]. destruct (st_height (sty s')) eqn:E; [discriminate|]. intros H. injection H as ->. specialize (P s' eq_refl). unfold convertible in P. rewrite E in P. cbn [measurable_or_auto] in P.
    pose proof (px_ok (view d) u) as M. cbn [view c_size isn] in M. rewrite P in M. destruct (px (view d) u) as [p|]; [eauto|discriminate M]. }
  pose proof (height_same (sty s) i (parent_height sty parent) (last_layout (Node s i (Some b) ks)) d b F Q) as (A & B & C). cbv zeta in A, B, C.
  change (last_layout (Node s i (Some b) ks)) with (match rev ks with [] => None | k :: _ => Some (n_box k) end) in A, B, C.
  destruct (calculate_height (sty s) i (parent_height sty parent) _ (view d) b) as [b1 r1], (calculate_height (sty s) i None _ (view d) b) as [b2 r2]. cbn [fst snd] in A, B, C. subst r2.
  destruct r1 as [v|e]; cbn [fst snd].
  - assert (R : same_but_root_height (Node s i (Some b1) ks) (Node s i (Some b2) ks)) by (split; [reflexivity|]; split; [reflexivity|]; split; [reflexivity|exact B]).
    destruct (same_add v _ _ R) as [X Y]. split; [exact X|]. split; [exact Y|]. unfold add_content_top. cbn. discriminate.
  - split; [reflexivity|]. rewrite (C eq_refl). split; [apply same_node|reflexivity].
Qed.

(** *** Without a parent it is the layout of the model *)
Lemma top_box_none fuel d f n : top_box sty None fuel d f n = layout_box sty fuel d f CBView n.
Proof. destruct fuel; reflexivity. Qed.
(** Without a parent, it is the layout() of the other theorems. *)
Theorem C181_no_parent : forall d h5 n, layout_below sty None d h5 n = layout sty d h5 n.
Proof.
  intros d h5 n.   unfold layout_below, layout. destruct (n_box n); [|reflexivity]. unfold mbind. destruct (mmod reset n) as [n1 [[]|e]]; [|reflexivity]. rewrite top_box_none. reflexivity.
Qed.

(** The part of layout up to the height of the node given to layout(). *)
Definition first_part (fuel : nat) (d : display_t) (n : node) : node * res unit :=
  let s := sty (n_style n) in
  mbind (mmod ensure_box) (fun _ => mbind (on_box (copy_edges s (hctx d dummy_font (@CBView S)) (vctx d dummy_font (@CBView S)))) (fun _ =>
  mbind (calculate_width_and_margins sty (hctx d dummy_font (@CBView S))) (fun _ => mbind (mret tt) (fun _ =>
  (if is_abspos s then mlift (Err NotImplementedError) else if is_float s then mlift (Err NotImplementedError) else layout_children sty (layout_box sty fuel d dummy_font)))))) n.
Lemma ensure_style (n : node) : n_style (ensure_box n) = n_style n.
Proof. destruct n as [s i [b|] ks]; reflexivity. Qed.
Lemma on_box_style {A} (m : BM A) (n : node) : n_style (fst (on_box m n)) = n_style n.
Proof. destruct n as [s i [b|] ks]; [|reflexivity]. cbn. destruct (m b). reflexivity. Qed.
Lemma top_style v (n : node) : n_style (set_content_top v n) = n_style n.
Proof. destruct n as [s i [b|] ks]; [|reflexivity]. cbn. destruct (neqb _ _); reflexivity. Qed.
Lemma left_style v (n : node) : n_style (set_content_left v n) = n_style n.
Proof. destruct n as [s i [b|] ks]; [|reflexivity]. cbn. destruct (neqb _ _); reflexivity. Qed.
Lemma width_style c (n : node) : n_style (fst (calculate_width_and_margins sty c n)) = n_style n.
Proof.
  unfold calculate_width_and_margins, mbind. pose proof (on_box_style (calculate_width (sty (n_style n)) (n_intr n) c) n) as E. destruct (on_box _ n) as [n1 [[v|]|e]]; cbn [fst] in *; [|exact E..].
  cbn. rewrite left_style. exact E.
Qed.
Lemma children_style lay (n : node) : n_style (fst (layout_children sty lay n)) = n_style n.
Proof.
  destruct n as [s i [b|] ks]; [|reflexivity]. cbn [layout_children]. destruct (establishes_inline sty _); [destruct (lay_all _ ks); reflexivity|]. destruct (flow _ _ _ _ _ _ _) as [[ks' b'] r]. reflexivity.
Qed.
Lemma first_style fuel d (n : node) : n_style (fst (first_part fuel d n)) = n_style n.
Proof.
  unfold first_part, mbind. cbv zeta. cbn [mmod]. pose proof (ensure_style n) as E1. set (n1 := ensure_box n) in *.
  pose proof (on_box_style (copy_edges (sty (n_style n)) (hctx d dummy_font (@CBView S)) (vctx d dummy_font (@CBView S))) n1) as E2. destruct (on_box _ n1) as [n2 [[]|e]]; cbn [fst] in *; [|congruence].
  pose proof (width_style (hctx d dummy_font (@CBView S)) n2) as E3. destruct (calculate_width_and_margins sty _ n2) as [n3 [[]|e]]; cbn [fst] in *; [|congruence]. cbn [mret].
  destruct (is_abspos _); [cbn; congruence|]. destruct (is_float _); [cbn; congruence|]. pose proof (children_style (layout_box sty fuel d dummy_font) n3). congruence.
Qed.
Lemma ensure_intr (n : node) : n_intr (ensure_box n) = n_intr n.
Proof. destruct n as [s i [b|] ks]; reflexivity. Qed.
Lemma on_box_intr {A} (m : BM A) (n : node) : n_intr (fst (on_box m n)) = n_intr n.
Proof. destruct n as [s i [b|] ks]; [|reflexivity]. cbn. destruct (m b). reflexivity. Qed.
Lemma top_intr v (n : node) : n_intr (set_content_top v n) = n_intr n.
Proof. destruct n as [s i [b|] ks]; [|reflexivity]. cbn. destruct (neqb _ _); reflexivity. Qed.
Lemma left_intr v (n : node) : n_intr (set_content_left v n) = n_intr n.
Proof. destruct n as [s i [b|] ks]; [|reflexivity]. cbn. destruct (neqb _ _); reflexivity. Qed.
Lemma width_intr c (n : node) : n_intr (fst (calculate_width_and_margins sty c n)) = n_intr n.
Proof.
  unfold calculate_width_and_margins, mbind. pose proof (on_box_intr (calculate_width (sty (n_style n)) (n_intr n) c) n) as E. destruct (on_box _ n) as [n1 [[v|]|e]]; cbn [fst] in *; [|exact E..].
  cbn. rewrite left_intr. exact E.
Qed.
Lemma children_intr lay (n : node) : n_intr (fst (layout_children sty lay n)) = n_intr n.
Proof.
  destruct n as [s i [b|] ks]; [|reflexivity]. cbn [layout_children]. destruct (establishes_inline sty _); [destruct (lay_all _ ks); reflexivity|]. destruct (flow _ _ _ _ _ _ _) as [[ks' b'] r]. reflexivity.
Qed.
Lemma first_intr fuel d (n : node) : n_intr (fst (first_part fuel d n)) = n_intr n.
Proof.
  unfold first_part, mbind. cbv zeta. cbn [mmod]. pose proof (ensure_intr n) as E1. set (n1 := ensure_box n) in *.
  pose proof (on_box_intr (copy_edges (sty (n_style n)) (hctx d dummy_font (@CBView S)) (vctx d dummy_font (@CBView S))) n1) as E2. destruct (on_box _ n1) as [n2 [[]|e]]; cbn [fst] in *; [|congruence].
  pose proof (width_intr (hctx d dummy_font (@CBView S)) n2) as E3. destruct (calculate_width_and_margins sty _ n2) as [n3 [[]|e]]; cbn [fst] in *; [|congruence]. cbn [mret].
  destruct (is_abspos _); [cbn; congruence|]. destruct (is_float _); [cbn; congruence|]. pose proof (children_intr (layout_box sty fuel d dummy_font) n3). congruence.
Qed.
Lemma height_style parent c (n : node) : n_style (fst (top_height sty parent c n)) = n_style n.
Proof.
  unfold top_height, mbind. pose proof (on_box_style (calculate_height (sty (n_style n)) (n_intr n) (parent_height sty parent) (last_layout n) c) n) as E. destruct (on_box _ n) as [n1 [v|e]]; cbn [fst] in *; [|exact E].
  unfold add_content_top. destruct (n_box n1); cbn [fst]; rewrite ?top_style; exact E.
Qed.
Lemma split_box parent fuel d (n : node) : is_relative (sty (n_style n)) = false -> st_display (sty (n_style n)) <> None ->
  top_box sty parent (Datatypes.S fuel) d dummy_font n = mbind (first_part fuel d) (fun _ => top_height sty parent (view d)) n.
Proof.
  intros R D. cbn [top_box]. destruct (st_display (sty (n_style n))); [|contradiction]. rewrite R. pose proof (first_style fuel d n) as ST. unfold first_part in *. unfold mbind in *. cbv zeta in *.
  destruct (mmod ensure_box n) as [n1 [[]|e]]; [|reflexivity].
  destruct (on_box _ n1) as [n2 [[]|e]]; [|reflexivity].
  destruct (calculate_width_and_margins sty _ n2) as [n3 [[]|e]]; [|reflexivity].
  cbn [mret] in *. match goal with |- context[(if ?a then ?x else ?y) n3] => destruct ((if a then x else y) n3) as [n4 [[]|e]] end; [|reflexivity]. cbn [fst] in ST.
  change (vctx d dummy_font CBView) with (view d). pose proof (height_style parent (view d) n4) as X.
  destruct (top_height sty parent (view d) n4) as [n5 [[]|e]]; [|reflexivity]. cbn [fst] in X. unfold relative_shift. rewrite X, ST, R. reflexivity.
Qed.

Lemma same_finish d h5 (a b : node) : same_but_root_height a b ->
  snd (finish_root d h5 a) = snd (finish_root d h5 b) /\ same_but_root_height (fst (finish_root d h5 a)) (fst (finish_root d h5 b))
  /\ (h5 = true -> fst (finish_root d h5 a) = fst (finish_root d h5 b) \/ n_box a = None).
Proof.
  intros R. unfold finish_root. pose proof (proj2 (proj2 (proj2 R))) as D. destruct (n_box a) as [x|] eqn:Ea, (n_box b) as [y|] eqn:Eb; try contradiction.
  2:{ split; [reflexivity|]. split; [exact R|]. auto. }
  rewrite (sb_top _ _ D), (sb_ct _ _ D), (sb_cb _ _ D). pose proof (same_top (nadd (content_top y) (NI (collapse_top y))) a b R) as T.
  set (a1 := set_content_top _ a) in *. set (b1 := set_content_top _ b) in *. destruct h5; [|split; [reflexivity|]; split; [exact T|discriminate]].
  destruct a1 as [s i [u|] ks], b1 as [s' i' [v|] ks']; destruct T as (A & B & C & X); cbn in A, B, C, X; try contradiction; subst.
  - cbn. split; [reflexivity|]. assert (E : forall z, upd_content_height z u = upd_content_height z v) by (intros z; clear -X; destruct u, v; destruct X; cbn in *; subst; reflexivity).
    rewrite E. split; [apply same_node|]. intros _. left. reflexivity.
  - cbn. split; [reflexivity|]. split; [apply same_node|]. intros _. left. reflexivity.
Qed.

(** C181. *)
Theorem C181_parent : forall parent d h5 (n a b : node) x y,
  st_position (sty (n_style n)) <> PRelative -> finite_length (st_height (sty (n_style n))) -> (forall s, parent = Some s -> convertible (st_height (sty s))) ->
  layout_below sty parent d h5 n = (a, x) -> layout sty d h5 n = (b, y) ->
  x = y /\ (if is_ok x then same_but_root_height a b else a = b) /\ (h5 = true -> a = b).
Proof.
  intros parent d h5 n a b x y NR F P La Lb. rewrite <- C181_no_parent in Lb. unfold layout_below in La, Lb.
  destruct (n_box n) as [b0|] eqn:Bn; [|injection La as <- <-; injection Lb as <- <-; split; [reflexivity|]; split; reflexivity].
  unfold mbind, mmod in La, Lb. set (n1 := reset n) in *. assert (ST : n_style n1 = n_style n) by (unfold n1; destruct n as [s i [bb|] ks]; reflexivity).
  assert (R : is_relative (sty (n_style n1)) = false) by (rewrite ST; unfold is_relative; destruct (st_position _); congruence).
  destruct (height n) as [|fuel]; [injection La as <- <-; injection Lb as <- <-; split; [reflexivity|]; split; reflexivity|].
  assert (DD : st_display (sty (n_style n1)) = None \/ st_display (sty (n_style n1)) <> None) by (destruct (st_display _); [right; discriminate|left; reflexivity]). destruct DD as [DD|DD].
  { cbn [top_box] in La, Lb. rewrite DD in La, Lb. unfold finish_root in La, Lb. destruct n1 as [s i bb ks]. cbn in La, Lb. injection La as <- <-. injection Lb as <- <-. split; [reflexivity|]. split; reflexivity. }
  rewrite (split_box _ _ _ _ R DD) in La. rewrite (split_box _ _ _ _ R DD) in Lb. unfold mbind in La, Lb. pose proof (first_style fuel d n1) as S2. destruct (first_part fuel d n1) as [n2 [[]|e]]; cbn [fst] in S2.
  2:{ injection La as <- <-. injection Lb as <- <-. split; [reflexivity|]. split; reflexivity. }
  assert (F2 : finite_length (st_height (sty (n_style n2)))) by (rewrite S2, ST; exact F).
  pose proof (top_height_same parent d n2 F2 P) as (A & B & C). pose proof (top_height_same None d n2 F2 ltac:(discriminate)) as (A' & B' & C'). cbv zeta in *.
  assert (NN : top_height sty None (view d) n2 = calculate_height_and_margins sty (view d) CBView n2) by reflexivity. rewrite <- NN in A, B, C. clear A' B' C' NN.
  destruct (top_height sty parent (view d) n2) as [n3 r3], (top_height sty None (view d) n2) as [n4 r4]. cbn [fst snd] in A, B, C. subst r4. destruct r3 as [[]|e].
  2:{ rewrite (C eq_refl) in La. injection La as <- <-. injection Lb as <- <-. split; [reflexivity|]. split; reflexivity. }
  destruct (same_finish d h5 n3 n4 B) as (X & Y & Z). rewrite La, Lb in X, Y, Z. cbn [fst snd] in X, Y, Z. split; [exact X|].
  assert (OK : is_ok x = true \/ (a = b /\ n_box n3 = None)).
  { revert La Lb. unfold finish_root. pose proof (proj2 (proj2 (proj2 B))) as D. destruct (n_box n3) as [u|] eqn:E3, (n_box n4) as [v|] eqn:E4; try contradiction; intros La Lb.
    - left. destruct h5; [|injection La as <- <-; reflexivity]. destruct n3 as [s i bb ks]. cbn in E3. subst bb. cbn in La. destruct (neqb _ _); injection La as <- <-; reflexivity.
    - right. injection La as <- <-. injection Lb as <- <-. split; [|reflexivity]. destruct n3 as [s i b3 ks], n4 as [s' i' b4 ks']. destruct B as (B1 & B2 & B3 & _). cbn in *. congruence. }
  destruct OK as [OK|[-> N]].
  - rewrite OK. split; [exact Y|]. intros H. destruct (Z H) as [E|N]; [exact E|]. exfalso. unfold finish_root in La. rewrite N in La. injection La as <- <-. discriminate OK.
  - split; [destruct (is_ok x); [apply same_node|reflexivity]|reflexivity].
Qed.

Lemma height_value s i parent last d b b' v u : is_block_level s = true -> s_replaced i = false -> st_height s = Len u ->
  calculate_height s i parent last (view d) b = (b', Ok v) -> exists h, content_height b' = LNum h
  /\ nval h = declared_height d (reference d (option_map Len parent)) s u.
Proof.
  intros BL NR H. unfold calculate_height. destruct (is_float s); [discriminate|]. destruct (is_abspos s); [discriminate|].
  assert (NI : is_inline s = false) by (unfold is_block_level, is_inline in *; destruct (st_display s) as [[]|]; congruence). rewrite NI, BL, NR.
  unfold block_non_replaced_height, bbind. destruct (auto_top0 b) as [b1 [[]|e1]]; [|discriminate]. destruct (auto_bottom0 b1) as [b2 [[]|e2]]; [|discriminate].
  unfold block_content_height. rewrite H. unfold bbind, blift.
  assert (CV : ctx_is d (nval (disp_height d)) (view d)) by (split; [reflexivity|]; split; [reflexivity|]; cbn; intros x X; injection X as <-; reflexivity).
  assert (G : forall h, nval h = len d (reference d (option_map Len parent)) u ->
    (let (b', r) := match st_max_height s with None => bret h | Some m => fun b0 => match px (view d) m with Ok mx => bret (if nltb mx h then mx else h) b0 | Err e => (b0, Err e) end end b2 in
       match r with Ok a => bmod (upd_content_height (LNum a)) b' | Err e => (b', Err e) end) = (b', Ok tt) ->
    exists h0, content_height b' = LNum h0 /\ nval h0 = declared_height d (reference d (option_map Len parent)) s u).
  { intros h E. unfold declared_height. destruct (st_max_height s) as [m|].
    - destruct (px (view d) m) as [mx|e] eqn:M; cbn; [|discriminate]. intros X. injection X as <-. destruct b2; cbn. eexists. split; [reflexivity|].
      rewrite <- E, <- (px_len _ _ _ _ _ CV M). unfold qc_min, nltb. destruct (qc_ltb (nval mx) (nval h)); reflexivity.
    - cbn. intros X. injection X as <-. destruct b2; cbn. eexists. split; [reflexivity|exact E]. }
  intros X. destruct parent as [pu|]; cbn [option_map reference] in *.
  - destruct (px (view d) pu) as [p|e] eqn:Pp; [|discriminate]. cbn [c_disp c_font view] in X. destruct (px (mkCtx d dummy_font (LNum p)) u) as [h|e] eqn:Ph; [|discriminate].
    apply (G h).
    + apply (px_len d _ (mkCtx d dummy_font (LNum p))); [|exact Ph]. split; [reflexivity|]. split; [reflexivity|]. cbn. intros x Y. injection Y as <-. exact (px_len _ _ _ _ _ CV Pp).
    + revert X. destruct (st_max_height s) as [m|]; [change (mkCtx d dummy_font (LNum (disp_height d))) with (view d) in *; destruct (px (view d) m) as [mx|e]; [|discriminate]|]; cbn; destruct b2; cbn; intros X; injection X as <- _; reflexivity.
  - destruct (px (view d) u) as [h|e] eqn:Ph; [|discriminate]. apply (G h).
    + exact (px_len _ _ _ _ _ CV Ph).
    + revert X. destruct (st_max_height s) as [m|]; [destruct (px (view d) m) as [mx|e]; [|discriminate]|]; cbn; destruct b2; cbn; intros X; injection X as <- _; reflexivity.
Qed.
Lemma height_node parent d (n n' : node) u : is_block_level (sty (n_style n)) = true -> s_replaced (n_intr n) = false -> st_height (sty (n_style n)) = Len u ->
  top_height sty parent (view d) n = (n', Ok tt) -> exists b h, n_box n' = Some b /\ content_height b = LNum h
  /\ nval h = declared_height d (reference d (above sty parent)) (sty (n_style n)) u.
Proof.
  intros BL NR H. unfold top_height, mbind. destruct n as [s i [b|] ks]; cbn [on_box n_style n_intr] in *; [|discriminate].
  destruct (calculate_height _ _ _ _ _ b) as [b1 [v|e]] eqn:E; [|discriminate]. destruct (height_value _ _ _ _ _ _ _ _ _ BL NR H E) as (h & C & V).
  assert (A : reference d (option_map Len (parent_height sty parent)) = reference d (above sty parent)).
  { unfold parent_height, above. destruct parent as [s'|]; [|reflexivity]. cbn. destruct (st_height (sty s')); reflexivity. }
  rewrite A in V. unfold add_content_top. cbn [n_box set_content_top]. intros X. destruct (neqb _ _); injection X as <-.
  - exists b1, h. auto.
  - eexists. exists h. split; [reflexivity|]. destruct b1; cbn in *. auto.
Qed.
(** What a declared height of the node comes to. *)
Theorem C181_height : forall parent d (n a : node) u,
  st_position (sty (n_style n)) <> PRelative -> is_block_level (sty (n_style n)) = true -> s_replaced (n_intr n) = false -> st_height (sty (n_style n)) = Len u ->
  layout_below sty parent d false n = (a, Ok tt) -> exists b h, n_box a = Some b /\ content_height b = LNum h
  /\ nval h = declared_height d (reference d (above sty parent)) (sty (n_style n)) u.
Proof.
  intros parent d n a u NP BL NR H La. unfold layout_below in La. destruct (n_box n) as [b0|] eqn:Bn; [|discriminate]. unfold mbind, mmod in La. set (n1 := reset n) in *.
  assert (ST : n_style n1 = n_style n) by (unfold n1; destruct n as [s i [bb|] ks]; reflexivity).
  assert (R : is_relative (sty (n_style n1)) = false) by (rewrite ST; unfold is_relative; destruct (st_position _); congruence).
  destruct (height n) as [|fuel]; [discriminate|]. assert (DD : st_display (sty (n_style n1)) <> None) by (rewrite ST; unfold is_block_level in BL; destruct (st_display _); congruence).
  rewrite (split_box _ _ _ _ R DD) in La. unfold mbind in La. pose proof (first_style fuel d n1) as S2. pose proof (first_intr fuel d n1) as I2. destruct (first_part fuel d n1) as [n2 [[]|e]]; cbn [fst] in S2, I2; [|discriminate].
  destruct (top_height sty parent (view d) n2) as [n3 [[]|e]] eqn:T; [|discriminate].
  assert (IN : n_intr n1 = n_intr n) by (unfold n1; destruct n as [s i [bb|] ks]; reflexivity).
  rewrite <- ST, <- S2 in BL, H |- *. rewrite <- IN, <- I2 in NR.
  destruct (height_node parent d n2 n3 u BL NR H T) as (b & h & Bb & C & V). unfold finish_root in La. rewrite Bb in La. injection La as <-.
  destruct n3 as [s i bb ks]. cbn in Bb. subst bb. cbn [set_content_top]. destruct (neqb _ _); cbn [n_box]; [exists b, h; auto|]. eexists. exists h. split; [reflexivity|]. destruct b; cbn in *. auto.
Qed.
End Root.
Print Assumptions C181_parent.
Print Assumptions C181_height.
Print Assumptions C181_no_parent.
(** A block 50% high, on a display 600 px high, below a parent 200 px high and below no parent. *)
Definition half_doc : doc := el (s_size Auto (Len (pctu 50)) block_style) [el (hpx 20 block_style) []].
Definition half_out (parent : option style) (h5 : bool) : doc := fst (layout_below idsty parent screen h5 half_doc).
Example C181_example :
  st_position (idsty (n_style half_doc)) <> PRelative /\ finite_length (st_height (idsty (n_style half_doc)))
  /\ (forall s, Some (hpx 200 block_style) = Some s -> convertible (st_height (idsty s)))
  /\ is_block_level (idsty (n_style half_doc)) = true /\ s_replaced (n_intr half_doc) = false /\ st_height (idsty (n_style half_doc)) = Len (pctu 50)
  /\ snd (layout_below idsty (Some (hpx 200 block_style)) screen false half_doc) = Ok tt
  /\ lq (content_height (bx (half_out (Some (hpx 200 block_style)) false))) = Some (100 # 1)
  /\ lq (content_height (bx (half_out None false))) = Some (300 # 1)
  /\ half_out (Some (hpx 200 block_style)) true = half_out None true.
Proof.
  split; [discriminate|]. split; [intros u E; injection E as <-; eexists; reflexivity|]. split; [intros s E; injection E as <-; reflexivity|].
  split; [reflexivity|]. split; [reflexivity|]. split; [reflexivity|]. split; [vm_compute; reflexivity|]. split; [vm_compute; reflexivity|]. split; [vm_compute; reflexivity|].
  unfold half_out. rewrite C181_no_parent.
  destruct (layout_below idsty (Some (hpx 200 block_style)) screen true half_doc) as [a x] eqn:A, (layout idsty screen true half_doc) as [b y] eqn:B.
  refine (proj2 (proj2 (C181_parent idsty _ _ _ _ _ _ _ _ _ _ _ A B)) eq_refl); [discriminate|intros u E; injection E as <-; eexists; reflexivity|intros s E; injection E as <-; reflexivity].
Qed.
