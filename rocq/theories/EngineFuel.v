(** * The recursion fuel of [layout_box] never runs out *)
From Coq Require Import ZArith QArith Qcanon Lia Bool List.
From Verif Require Import PyNum NumFacts Units BoxModel BoxFacts Engine EnginePure EngineSpec EngineTree EngineInv EngineCong.
Import ListNotations.
Open Scope Z_scope.

Lemma height_inputs {S} (n : node S) : height (inputs n) = height n.
Proof.
  induction n as [s i bx ks IH] using node_ind'. cbn [inputs height]. f_equal. f_equal. rewrite map_map. apply map_ext_in, IH.
Qed.
Lemma height_like {S} (n m : node S) : inputs n = inputs m -> height n = height m.
Proof. intros E. rewrite <- height_inputs, E. apply height_inputs. Qed.
Lemma height_kid {S} s i bx (ks : list (node S)) k : In k ks -> (height k < height (Node s i bx ks))%nat.
Proof.
  intros I. cbn [height]. induction ks as [|x ks IH]; [destruct I|]. cbn [map fold_right]. destruct I as [->|I]; [lia|]. specialize (IH I). lia.
Qed.

(** ** Results other than OutOfFuel *)
Definition rclean {A} (r : res A) : Prop := r <> Err OutOfFuel.
Definition bclean {A} (m : BM A) : Prop := forall b, rclean (snd (m b)).
Lemma rclean_ok {A} (a : A) : rclean (Ok a). Proof. discriminate. Qed.
Lemma rclean_bind {A B} (r : res A) (f : A -> res B) : rclean r -> (forall a, rclean (f a)) -> rclean (bindr r f).
Proof. destruct r as [a|e]; cbn; intros R F; [apply F|]. intros E. apply R. injection E as ->. reflexivity. Qed.
Lemma rclean_num v : rclean (as_num v). Proof. destruct v; discriminate. Qed.
Lemma rclean_round x : rclean (xround x). Proof. destruct x; discriminate. Qed.
Lemma rclean_px c u : rclean (px c u).
Proof.
  unfold px. apply rclean_bind; [|discriminate]. unfold lu. destruct (u_kind u); try apply rclean_round; try discriminate.
  - apply rclean_bind; [|intros; apply rclean_round]. unfold font_attr. repeat match goal with |- context[if ?x then _ else _] => destruct x end; try discriminate.
  - apply rclean_bind; [apply rclean_num|intros; apply rclean_round].
Qed.
Lemma bclean_bind {A B} (m : BM A) (f : A -> BM B) : bclean m -> (forall a, bclean (f a)) -> bclean (bbind m f).
Proof.
  intros M F b. unfold bbind. specialize (M b). destruct (m b) as [b' [a|e]]; [apply F|]. intros E. apply M. cbn in *. congruence.
Qed.
Lemma bclean_lift {A} (r : res A) : rclean r -> bclean (blift r). Proof. intros R b. exact R. Qed.
Lemma bclean_ret {A} (a : A) : bclean (bret a). Proof. intros b. discriminate. Qed.
Lemma bclean_mod f : bclean (bmod f). Proof. intros b. discriminate. Qed.
Lemma bclean_get {A} (f : box -> A) : bclean (bget f). Proof. intros b. discriminate. Qed.
Lemma bclean_bnum f : bclean (bnum f). Proof. intros b. apply rclean_num. Qed.
Lemma bclean_fail {A} e : e <> OutOfFuel -> bclean (@bfail A e). Proof. intros N b E. apply N. cbn in E. congruence. Qed.
Lemma bclean_add acc f : bclean (add_unless_auto acc f).
Proof. intros b. unfold add_unless_auto. destruct (is_auto (f b)); [discriminate|]. apply rclean_bind; [apply rclean_num|discriminate]. Qed.
Lemma rclean_len c u : rclean (calc_len c u). Proof. unfold calc_len. destruct (u_eq_int u 0); [discriminate|apply rclean_px]. Qed.
Lemma rclean_margin c u : rclean (calc_margin c u). Proof. destruct u; [discriminate|]. apply rclean_bind; [apply rclean_len|discriminate]. Qed.
Lemma rclean_border c u : rclean (calc_border c u). Proof. destruct u; [discriminate|apply rclean_len]. Qed.
Lemma rclean_clamped s u c : rclean (clamped_width s u c).
Proof.
  unfold clamped_width. apply rclean_bind; [apply rclean_px|]. intros w. apply rclean_bind.
  - destruct (st_max_width s); [|discriminate]. apply rclean_bind; [apply rclean_px|]. discriminate.
  - intros w1. destruct (st_min_width s); [discriminate|]. apply rclean_bind; [apply rclean_px|discriminate].
Qed.
Lemma rclean_bottom b : rclean (border_box_bottom b). Proof. apply rclean_bind; [apply rclean_num|discriminate]. Qed.
Ltac bclean := repeat first
  [ apply bclean_bind; [|intros ?] | apply bclean_ret | apply bclean_mod | apply bclean_get | apply bclean_bnum | apply bclean_add
  | apply bclean_fail; discriminate
  | apply bclean_lift; first [apply rclean_num|apply rclean_px|apply rclean_margin|apply rclean_border|apply rclean_len|apply rclean_clamped|apply rclean_bottom]
  | match goal with |- bclean (match ?x with _ => _ end) => destruct x end ].
Lemma bclean_edges s hz vt : bclean (copy_edges s hz vt). Proof. unfold copy_edges. bclean. Qed.
Lemma bclean_width s i c : bclean (calculate_width s i c).
Proof.
  unfold calculate_width, inline_replaced_width, inline_non_replaced_width, block_non_replaced_width,
    drop_auto_margins, solve_right, solve_left, split_margins, left_edge, avail_width, auto_left0, auto_right0. bclean.
Qed.
Lemma bclean_height s i ph last c : bclean (calculate_height s i ph last c).
Proof.
  unfold calculate_height, inline_replaced_height, inline_non_replaced_height, block_non_replaced_height,
    block_content_height, top_edge, auto_top0, auto_bottom0. bclean.
Qed.
Lemma rclean_offset c a z cs ce : rclean cs -> rclean ce -> rclean (rel_offset c a z cs ce).
Proof.
  intros Cs Ce. destruct a, z; cbn [rel_offset]; try discriminate; try apply rclean_px; try assumption; (apply rclean_bind; [first [apply rclean_px|assumption]|discriminate]).
Qed.

Section Fuel.
Context {S : Type} (sty : S -> style).
Notation node := (node S).
Notation cblock := (@cblock S).
Definition mclean {A} (m : @M S A) : Prop := forall n, rclean (snd (m n)).
Lemma mclean_bind {A B} (m : @M S A) (f : A -> @M S B) : mclean m -> (forall a, mclean (f a)) -> mclean (mbind m f).
Proof. intros M F n. unfold mbind. specialize (M n). destruct (m n) as [n' [a|e]]; [apply F|]. intros E. apply M. cbn in *. congruence. Qed.
Lemma mclean_box {A} (m : BM A) : bclean m -> mclean (on_box m).
Proof. intros B [s i [b|] ks]; cbn [on_box]; [|discriminate]. specialize (B b). destruct (m b). exact B. Qed.
Lemma mclean_lift {A} (r : res A) : rclean r -> mclean (mlift r). Proof. intros R n. exact R. Qed.
Lemma mclean_add_top v : mclean (add_content_top v). Proof. intros n. unfold add_content_top. destruct (n_box n); discriminate. Qed.
Lemma mclean_add_left v : mclean (add_content_left v). Proof. intros n. unfold add_content_left. destruct (n_box n); discriminate. Qed.
Lemma mclean_width c : mclean (calculate_width_and_margins sty c).
Proof.
  intros n. unfold calculate_width_and_margins. apply mclean_bind; [apply mclean_box, bclean_width|]. intros [l|] m; discriminate.
Qed.
Lemma mclean_height c cb : mclean (calculate_height_and_margins sty c cb).
Proof. intros n. unfold calculate_height_and_margins. apply mclean_bind; [apply mclean_box, bclean_height|]. intros. apply mclean_add_top. Qed.
Lemma mclean_shift d f cb : mclean (relative_shift sty d f cb).
Proof.
  intros n. unfold relative_shift. destruct (is_relative _); [|discriminate].
  assert (C1 : forall g, (forall b, rclean (g b)) -> rclean (cb_attr g cb)) by (intros g G; destruct cb; [discriminate|apply G]).
  apply mclean_bind; [apply mclean_lift, rclean_offset; apply C1; intros; [discriminate|apply rclean_bind; [apply rclean_num|discriminate]]|]. intros.
  apply mclean_bind; [apply mclean_add_left|]. intros.
  apply mclean_bind; [apply mclean_lift, rclean_offset; apply C1; intros; [discriminate|apply rclean_bind; [apply rclean_num|discriminate]]|]. intros. apply mclean_add_top.
Qed.
Lemma lay_all_clean (lay : node -> node * res unit) ks : (forall k, In k ks -> rclean (snd (lay k))) -> rclean (snd (lay_all lay ks)).
Proof.
  induction ks as [|k ks IH]; intros H; [discriminate|]. cbn [lay_all]. pose proof (H k (or_introl eq_refl)) as K. destruct (lay k) as [k' [u|e]].
  - specialize (IH (fun x I => H x (or_intror I))). destruct (lay_all lay ks). exact IH.
  - intros E. apply K. cbn in *. congruence.
Qed.
Lemma place_clean (k : node) b off bm : rclean (snd (place_child k b off bm)).
Proof.
  unfold place_child. destruct (n_box k) as [kb|]; [|discriminate].
  assert (B : rclean (border_box_height kb)) by (apply rclean_bind; [apply rclean_num|discriminate]).
  destruct bm as [m|].
  - destruct (margin_top kb); cbn; try discriminate. apply rclean_bind; [exact B|discriminate].
  - cbn. apply rclean_bind; [exact B|discriminate].
Qed.
Lemma flow_clean (lay : box -> node -> node * res unit) ks : (forall b k, In k ks -> rclean (snd (lay b k))) ->
  forall pend b off bm, rclean (snd (flow sty lay ks pend b off bm)).
Proof.
  induction ks as [|k ks IH]; intros H pend b off bm; [discriminate|]. cbn [flow].
  assert (IH' := IH (fun b x I => H b x (or_intror I))). destruct (is_block_level _).
  - destruct pend; [discriminate|]. pose proof (H b k (or_introl eq_refl)) as K. destruct (lay b k) as [k1 [u|e]].
    + pose proof (place_clean k1 b off bm) as P. destruct (place_child k1 b off bm) as [[k2 b2] [[o m]|e]].
      * specialize (IH' false b2 o m). destruct (flow _ _ _ _ _ _ _) as [[ks2 b3] r]. exact IH'.
      * intros E. apply P. cbn in *. congruence.
    + intros E. apply K. cbn in *. congruence.
  - specialize (IH' true b off bm). destruct (flow _ _ _ _ _ _ _) as [[ks2 b3] r]. exact IH'.
Qed.
Lemma layout_box_clean fuel d f : forall cb n, (height n <= fuel)%nat -> rclean (snd (layout_box sty fuel d f cb n)).
Proof.
  induction fuel as [|fuel IH]; intros cb n H; [destruct n; cbn in H; lia|]. cbn [layout_box]. destruct (st_display _) eqn:D; [|discriminate].
  pose proof (stable_inputs sty) as SI.
  set (P := fun x : node => inputs x = inputs n).
  assert (B : forall A B (m : @M S A) (g : A -> @M S B), mclean m -> mkeeps (fun a b : node => inputs b = inputs a) m ->
     (forall a x, P x -> rclean (snd (g a x))) -> forall x, P x -> rclean (snd (mbind m g x))).
  { intros A B m g C K G x E. unfold mbind. specialize (C x). specialize (K x). destruct (m x) as [x' [a|e]]; cbn [fst snd] in *.
    - apply G. unfold P in *. congruence.
    - intros F. apply C. congruence. }
  unfold mbind at 1, mmod. assert (E0 : P (ensure_box n)) by apply inputs_ensure. revert E0. generalize (ensure_box n). 
  apply B; [apply mclean_box, bclean_edges|apply (mkeeps_box sty _ SI), copy_edges_geom|]. intros _.
  apply B; [apply mclean_width|apply (mkeeps_width sty _ SI)|]. intros _.
  apply B; [destruct (is_relative _); [apply mclean_height|intros ?; discriminate]|destruct (is_relative _); [apply (mkeeps_height sty _ SI)|intros ?; reflexivity]|]. intros _.
  intros x E. unfold mbind at 1.
  set (m1 := if is_abspos _ then _ else _).
  assert (K : rclean (snd (m1 x))).
  { unfold m1. destruct (is_abspos _); [discriminate|]. destruct (is_float _); [discriminate|]. destruct x as [s i [b|] ks]; cbn [layout_children]; [|discriminate].
    assert (G : forall k, In k ks -> (height k <= fuel)%nat).
    { intros k I. apply (height_kid s i (Some b)) in I. apply height_like in E. lia. }
    destruct (establishes_inline sty _).
    - pose proof (lay_all_clean (layout_box sty fuel d f (CBNode s b)) ks (fun k I => IH _ k (G k I))) as Q. destruct (lay_all _ ks). exact Q.
    - pose proof (flow_clean (fun b0 => layout_box sty fuel d f (CBNode s b0)) ks (fun b0 k I => IH _ k (G k I)) false b n0 None) as Q. destruct (flow _ _ _ _ _ _ _) as [[? ?] ?]. exact Q. }
  destruct (m1 x) as [x' [a|e]]; cbn [snd] in K; [|intros F; apply K; cbn in F; congruence].
  apply mclean_bind; [apply mclean_height|]. intros. apply mclean_shift.
Qed.
Lemma layout_clean d h5 n : snd (layout sty d h5 n) <> Err OutOfFuel.
Proof.
  unfold layout. destruct (n_box n); [|discriminate]. unfold mbind, mmod.
  pose proof (layout_box_clean (height n) d dummy_font CBView (reset n)) as H. rewrite (height_like _ _ (inputs_reset n)) in H. specialize (H (le_n _)).
  destruct (layout_box _ _ _ _ _ _) as [n1 [u|e]]; [|intros F; apply H; cbn in *; congruence].
  unfold finish_root. destruct (n_box n1) as [b1|] eqn:E; [|discriminate]. destruct h5; [|discriminate].
  apply mclean_box. intros b2. discriminate.
Qed.
Lemma layout_box_fuel d f : forall fuel fuel' cb n, (height n <= fuel)%nat -> (height n <= fuel')%nat ->
  layout_box sty fuel d f cb n = layout_box sty fuel' d f cb n.
Proof.
  induction fuel as [|fuel IH]; intros [|fuel'] cb n H H'; try (destruct n; cbn in H, H'; lia). cbn [layout_box]. destruct (st_display _) eqn:D; [|reflexivity].
  pose proof (stable_inputs sty) as SI.
  set (P := fun x : node => inputs x = inputs n).
  assert (B : forall A B (m : @M S A) (g g' : A -> @M S B), mkeeps (fun a b : node => inputs b = inputs a) m ->
     (forall a x, P x -> g a x = g' a x) -> forall x, P x -> mbind m g x = mbind m g' x).
  { intros A B m g g' K G x E. unfold mbind. specialize (K x). destruct (m x) as [x' [a|e]]; cbn [fst snd] in *; [|reflexivity].
    apply G. unfold P in *. congruence. }
  unfold mbind at 1, mmod. symmetry. unfold mbind at 1. symmetry. assert (E0 : P (ensure_box n)) by apply inputs_ensure. revert E0. generalize (ensure_box n).
  apply B; [apply (mkeeps_box sty _ SI), copy_edges_geom|]. intros _.
  apply B; [apply (mkeeps_width sty _ SI)|]. intros _.
  apply B; [destruct (is_relative _); [apply (mkeeps_height sty _ SI)|intros ?; reflexivity]|]. intros _.
  intros x E. unfold mbind at 1. symmetry. unfold mbind at 1. symmetry.
  destruct (is_abspos _); [reflexivity|]. destruct (is_float _); [reflexivity|]. destruct x as [s i bx ks].
  rewrite (children_ext sty (layout_box sty fuel d f) (layout_box sty fuel' d f)); [reflexivity|].
  intros b k I. apply (height_kid s i bx) in I. apply height_like in E. apply IH; lia.
Qed.
End Fuel.
