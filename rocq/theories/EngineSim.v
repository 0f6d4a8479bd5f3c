(** * Documents that differ in ways the engine cannot see are laid out alike *)
From Coq Require Import ZArith QArith Qcanon Bool List.
From Verif Require Import PyNum NumFacts Units BoxModel Engine.
Import ListNotations.
Open Scope Z_scope.

(** Lengths that convert alike in every context. *)
Definition alike (u v : unit_) : Prop := (forall c, px c u = px c v) /\ u_eq_int u 0 = u_eq_int v 0.
Inductive la_alike : lenauto -> lenauto -> Prop :=
| la_auto : la_alike Auto Auto
| la_len u v : alike u v -> la_alike (Len u) (Len v).
Inductive bw_alike : bwidth -> bwidth -> Prop :=
| bw_kw k : bw_alike (BKw k) (BKw k)
| bw_len u v : alike u v -> bw_alike (BLen u) (BLen v).
Inductive mx_alike : option unit_ -> option unit_ -> Prop :=
| mx_none : mx_alike None None
| mx_len u v : alike u v -> mx_alike (Some u) (Some v).
Inductive of_alike : offset -> offset -> Prop :=
| of_auto : of_alike OAuto OAuto
| of_inherit : of_alike OInherit OInherit
| of_len u v : alike u v -> of_alike (OLen u) (OLen v).
Definition style_alike (s t : style) : Prop :=
  st_display s = st_display t /\ st_position s = st_position t /\ st_float s = st_float t /\ st_direction s = st_direction t
  /\ la_alike (st_width s) (st_width t) /\ la_alike (st_height s) (st_height t)
  /\ la_alike (st_min_width s) (st_min_width t) /\ la_alike (st_min_height s) (st_min_height t)
  /\ mx_alike (st_max_width s) (st_max_width t) /\ mx_alike (st_max_height s) (st_max_height t)
  /\ la_alike (st_margin_top s) (st_margin_top t) /\ la_alike (st_margin_right s) (st_margin_right t)
  /\ la_alike (st_margin_bottom s) (st_margin_bottom t) /\ la_alike (st_margin_left s) (st_margin_left t)
  /\ alike (st_padding_top s) (st_padding_top t) /\ alike (st_padding_right s) (st_padding_right t)
  /\ alike (st_padding_bottom s) (st_padding_bottom t) /\ alike (st_padding_left s) (st_padding_left t)
  /\ bw_alike (st_border_top s) (st_border_top t) /\ bw_alike (st_border_right s) (st_border_right t)
  /\ bw_alike (st_border_bottom s) (st_border_bottom t) /\ bw_alike (st_border_left s) (st_border_left t)
  /\ of_alike (st_top s) (st_top t) /\ of_alike (st_right s) (st_right t)
  /\ of_alike (st_bottom s) (st_bottom t) /\ of_alike (st_left s) (st_left t).

Lemma alike_refl u : alike u u. Proof. split; reflexivity. Qed.
Lemma la_refl v : la_alike v v. Proof. destruct v; constructor; apply alike_refl. Qed.
Lemma bw_refl v : bw_alike v v. Proof. destruct v; constructor; apply alike_refl. Qed.
Lemma mx_refl v : mx_alike v v. Proof. destruct v; constructor; apply alike_refl. Qed.
Lemma of_refl v : of_alike v v. Proof. destruct v; constructor; apply alike_refl. Qed.
Lemma style_refl s : style_alike s s.
Proof. repeat (split; [first [reflexivity|apply la_refl|apply mx_refl|apply alike_refl|apply bw_refl|apply of_refl]|]). apply of_refl. Qed.

(** ** Computations on boxes *)
Definition beqv {A} (m m' : BM A) : Prop := forall b, m b = m' b.
Lemma beqv_bind {A B} (m m' : BM A) (f f' : A -> BM B) : beqv m m' -> (forall a, beqv (f a) (f' a)) -> beqv (bbind m f) (bbind m' f').
Proof. intros H K b. unfold bbind. rewrite H. destruct (m' b) as [b' [a|e]]; [apply K|reflexivity]. Qed.
Lemma beqv_refl {A} (m : BM A) : beqv m m. Proof. intros b. reflexivity. Qed.
Lemma beqv_lift {A} (r r' : res A) : r = r' -> beqv (blift r) (blift r'). Proof. intros ->. apply beqv_refl. Qed.

Lemma alike_len c u v : alike u v -> calc_len c u = calc_len c v.
Proof. intros [P Z]. unfold calc_len. rewrite Z, P. reflexivity. Qed.
Lemma alike_margin c u v : la_alike u v -> calc_margin c u = calc_margin c v.
Proof. intros [|u' v' A]; [reflexivity|]. cbn. rewrite (alike_len c _ _ A). reflexivity. Qed.
Lemma alike_border c u v : bw_alike u v -> calc_border c u = calc_border c v.
Proof. intros [|u' v' A]; [reflexivity|]. apply alike_len, A. Qed.

Ltac bstep := first [apply beqv_bind; [|intros ?]|apply beqv_refl].
Section Style.
Variables (s t : style) (H : style_alike s t).
Lemma Hd : st_display s = st_display t. Proof. apply H. Qed.
Lemma Hp : st_position s = st_position t. Proof. apply H. Qed.
Lemma Hf : st_float s = st_float t. Proof. apply H. Qed.
Lemma Hr : st_direction s = st_direction t. Proof. apply H. Qed.
Lemma Hw : la_alike (st_width s) (st_width t). Proof. apply H. Qed.
Lemma Hh : la_alike (st_height s) (st_height t). Proof. apply H. Qed.
Lemma Hmw : la_alike (st_min_width s) (st_min_width t). Proof. apply H. Qed.
Lemma Hmh : la_alike (st_min_height s) (st_min_height t). Proof. apply H. Qed.
Lemma Hxw : mx_alike (st_max_width s) (st_max_width t). Proof. apply H. Qed.
Lemma Hxh : mx_alike (st_max_height s) (st_max_height t). Proof. apply H. Qed.

Lemma kinds_alike : is_block_level s = is_block_level t /\ is_inline_block s = is_inline_block t /\ is_inline s = is_inline t
  /\ is_float s = is_float t /\ is_abspos s = is_abspos t /\ is_relative s = is_relative t
  /\ forall i, is_block_container s i = is_block_container t i.
Proof.
  unfold is_block_level, is_inline_block, is_inline, is_float, is_abspos, is_relative, is_block_container.
  rewrite Hd, Hf, Hp. repeat split.
Qed.
Lemma edges_alike hz vt : beqv (copy_edges s hz vt) (copy_edges t hz vt).
Proof.
  unfold copy_edges. pose proof H as H'. destruct H' as (_ & _ & _ & _ & _ & _ & _ & _ & _ & _ & A1 & A2 & A3 & A4 & P1 & P2 & P3 & P4 & B1 & B2 & B3 & B4 & _).
  rewrite (alike_margin vt _ _ A1), (alike_margin hz _ _ A2), (alike_margin vt _ _ A3), (alike_margin hz _ _ A4).
  rewrite (alike_border hz _ _ B1), (alike_border vt _ _ B2), (alike_border hz _ _ B3), (alike_border vt _ _ B4).
  rewrite (alike_len hz _ _ P1), (alike_len vt _ _ P2), (alike_len hz _ _ P3), (alike_len vt _ _ P4). apply beqv_refl.
Qed.
Lemma clamped_alike u v c : alike u v -> clamped_width s u c = clamped_width t v c.
Proof.
  intros [P _]. unfold clamped_width. rewrite P. destruct Hxw as [|x y [X _]]; [|rewrite X]; destruct Hmw as [|x' y' [X' _]]; try rewrite X'; reflexivity.
Qed.
Lemma width_alike i c : beqv (calculate_width s i c) (calculate_width t i c).
Proof.
  destruct kinds_alike as (K1 & K2 & K3 & K4 & K5 & K6 & K7). unfold calculate_width. rewrite K1, K2, K3, K4, K5.
  destruct (is_float t); [apply beqv_refl|]. destruct (is_abspos t); [apply beqv_refl|]. destruct (is_inline t).
  - destruct (s_replaced i); [|apply beqv_refl]. unfold inline_replaced_width. destruct Hw as [|u v [U _]].
    + destruct Hh; apply beqv_refl.
    + rewrite U. apply beqv_refl.
  - destruct (is_block_level t); [|apply beqv_refl]. destruct (s_replaced i); [apply beqv_refl|].
    unfold block_non_replaced_width. rewrite Hr. destruct Hw as [|u v U]; [apply beqv_refl|]. rewrite (clamped_alike u v c U). apply beqv_refl.
Qed.
Lemma height_alike i ph ph' last c : mx_alike ph ph' -> beqv (calculate_height s i ph last c) (calculate_height t i ph' last c).
Proof.
  intros Hph. destruct kinds_alike as (K1 & K2 & K3 & K4 & K5 & K6 & K7). unfold calculate_height. rewrite K1, K2, K3, K4, K5.
  destruct (is_float t); [apply beqv_refl|]. destruct (is_abspos t); [apply beqv_refl|]. destruct (is_inline t).
  - destruct (s_replaced i); [|apply beqv_refl]. unfold inline_replaced_height. destruct Hh as [|u v [U _]].
    + destruct Hw; apply beqv_refl.
    + rewrite U. apply beqv_refl.
  - destruct (is_block_level t); [|apply beqv_refl]. destruct (s_replaced i); [apply beqv_refl|].
    unfold block_non_replaced_height. do 2 (apply beqv_bind; [apply beqv_refl|intros ?]). apply beqv_bind; [|intros; apply beqv_refl].
    unfold block_content_height. destruct Hh as [|u v [U _]].
    + destruct last; [apply beqv_refl|]. destruct Hmh as [|x y [X _]]; [apply beqv_refl|]. rewrite X. apply beqv_refl.
    + apply beqv_bind.
      * destruct Hph as [|x y [X _]]; [rewrite U; apply beqv_refl|]. rewrite X. apply beqv_bind; [apply beqv_refl|]. intros p. rewrite U. apply beqv_refl.
      * intros h. destruct Hxh as [|x y [X _]]; [apply beqv_refl|]. rewrite X. apply beqv_refl.
Qed.
Lemma offset_alike c a a' z z' cs ce : of_alike a a' -> of_alike z z' -> rel_offset c a z cs ce = rel_offset c a' z' cs ce.
Proof. intros [| |u v [U _]] [| |x y [X _]]; cbn [rel_offset]; rewrite ?U, ?X; reflexivity. Qed.
End Style.

(** ** Documents *)
Section Sim.
Context {S T : Type} (sty : S -> style) (tty : T -> style).
(** Same structure, intrinsic sizes and boxes, and styles that are alike. *)
Inductive sim : node S -> node T -> Prop :=
| sim_node s t i bx ks ls : style_alike (sty s) (tty t) -> Forall2 sim ks ls -> sim (Node s i bx ks) (Node t i bx ls).
Lemma sim_ind' (P : node S -> node T -> Prop) :
  (forall s t i bx ks ls, style_alike (sty s) (tty t) -> Forall2 sim ks ls -> Forall2 P ks ls -> P (Node s i bx ks) (Node t i bx ls)) ->
  forall n m, sim n m -> P n m.
Proof.
  intros H. fix IH 3. intros n m [s t i bx ks ls A F]. apply H; [exact A|exact F|].
  induction F as [|k l ks ls K F IHF]; constructor; [apply IH, K|exact IHF].
Qed.
Definition sim_cb (a : @cblock S) (b : @cblock T) : Prop :=
  match a, b with
  | CBView, CBView => True
  | CBNode s x, CBNode t y => style_alike (sty s) (tty t) /\ x = y
  | _, _ => False
  end.
Definition msim {A} (m : @M S A) (m' : @M T A) : Prop :=
  forall n n', sim n n' -> sim (fst (m n)) (fst (m' n')) /\ snd (m n) = snd (m' n').
Lemma msim_bind {A B} (m : @M S A) (m' : @M T A) (f : A -> @M S B) (f' : A -> @M T B) :
  msim m m' -> (forall a, msim (f a) (f' a)) -> msim (mbind m f) (mbind m' f').
Proof.
  intros H K n n' E. destruct (H n n' E) as [E1 E2]. unfold mbind. destruct (m n) as [n1 r], (m' n') as [n1' r']. cbn in E1, E2. subst r'.
  destruct r as [a|e]; [apply K, E1|]. split; [exact E1|reflexivity].
Qed.
Lemma msim_lift {A} (r : res A) : msim (mlift r) (mlift r). Proof. intros n n' E. split; [exact E|reflexivity]. Qed.
Lemma sim_map f g ks ls : Forall2 sim ks ls -> (forall n m, sim n m -> sim (f n) (g m)) -> Forall2 sim (map f ks) (map g ls).
Proof. intros F H. induction F; constructor; auto. Qed.
Lemma forall2_map {A B C D} (R : A -> B -> Prop) (Q : C -> D -> Prop) f g ks ls :
  Forall2 R ks ls -> (forall a b, R a b -> Q (f a) (g b)) -> Forall2 Q (map f ks) (map g ls).
Proof. intros F H. induction F; constructor; auto. Qed.
Lemma sim_origin_top n m : sim n m -> forall v, sim (set_origin_top v n) (set_origin_top v m).
Proof.
  intros E. induction E as [s t i bx ks ls A F IH] using sim_ind'. intros v. destruct bx as [b|]; cbn [set_origin_top]; [|constructor; assumption].
  destruct (neqb _ _); constructor; try assumption. eapply forall2_map; [exact IH|]. intros x y E. apply E.
Qed.
Lemma sim_origin_left n m : sim n m -> forall v, sim (set_origin_left v n) (set_origin_left v m).
Proof.
  intros E. induction E as [s t i bx ks ls A F IH] using sim_ind'. intros v. destruct bx as [b|]; cbn [set_origin_left]; [|constructor; assumption].
  destruct (neqb _ _); constructor; try assumption. eapply forall2_map; [exact IH|]. intros x y E. apply E.
Qed.
Lemma sim_content_top v n m : sim n m -> sim (set_content_top v n) (set_content_top v m).
Proof.
  intros [s t i bx ks ls A F]. destruct bx as [b|]; cbn [set_content_top]; [|constructor; assumption].
  destruct (neqb _ _); constructor; try assumption. apply sim_map; [exact F|]. intros; apply sim_origin_top; assumption.
Qed.
Lemma sim_content_left v n m : sim n m -> sim (set_content_left v n) (set_content_left v m).
Proof.
  intros [s t i bx ks ls A F]. destruct bx as [b|]; cbn [set_content_left]; [|constructor; assumption].
  destruct (neqb _ _); constructor; try assumption. apply sim_map; [exact F|]. intros; apply sim_origin_left; assumption.
Qed.
Lemma sim_reset_self n m : sim n m -> sim (reset_self n) (reset_self m).
Proof. intros [s t i bx ks ls A F]. constructor; [exact A|]. apply sim_map; [exact F|]. intros; apply sim_origin_left, sim_origin_top; assumption. Qed.
Lemma sim_reset n m : sim n m -> sim (reset n) (reset m).
Proof.
  intros E. induction E as [s t i bx ks ls A F IH] using sim_ind'. destruct bx; cbn [reset]; constructor; try assumption.
  eapply forall2_map; [exact IH|]. auto.
Qed.
Lemma sim_ensure n m : sim n m -> sim (ensure_box n) (ensure_box m).
Proof. intros E. unfold ensure_box. pose proof (sim_reset_self n m E). destruct E as [s t i bx ks ls A F]. cbn [n_box]. destruct bx; [constructor; assumption|assumption]. Qed.
Lemma sim_height n m : sim n m -> height n = height m.
Proof.
  intros E. induction E as [s t i bx ks ls A F IH] using sim_ind'. cbn [height]. f_equal. f_equal.
  clear F. induction IH as [|k l ks ls E _ IH]; cbn [map]; [reflexivity|]. rewrite E, IH. reflexivity.
Qed.
Lemma sim_style n m : sim n m -> style_alike (sty (n_style n)) (tty (n_style m)). Proof. intros [s t i bx ks ls A F]. exact A. Qed.
Lemma sim_parts n m : sim n m -> n_intr n = n_intr m /\ n_box n = n_box m /\ Forall2 sim (n_kids n) (n_kids m).
Proof. intros [s t i bx ks ls A F]. auto. Qed.

Lemma msim_box {A} (m m' : BM A) : beqv m m' -> msim (on_box m) (on_box m').
Proof.
  intros H n n' [s t i bx ks ls A' F]. destruct bx as [b|]; cbn [on_box]; [|split; [constructor; assumption|reflexivity]].
  rewrite H. destruct (m' b) as [b' r]. split; [constructor; assumption|reflexivity].
Qed.
Lemma msim_add_top v : msim (add_content_top v) (add_content_top v).
Proof.
  intros n n' E. pose proof (sim_parts _ _ E) as (_ & B & _). unfold add_content_top. rewrite B. destruct (n_box n') as [b|]; [|split; [exact E|reflexivity]].
  split; [apply sim_content_top, E|reflexivity].
Qed.
Lemma msim_add_left v : msim (add_content_left v) (add_content_left v).
Proof.
  intros n n' E. pose proof (sim_parts _ _ E) as (_ & B & _). unfold add_content_left. rewrite B. destruct (n_box n') as [b|]; [|split; [exact E|reflexivity]].
  split; [apply sim_content_left, E|reflexivity].
Qed.
(** A computation that starts by looking at its node. *)
Lemma msim_at {A} (m : @M S A) (m' : @M T A) : (forall n n', sim n n' -> exists k k', m n = k n /\ m' n' = k' n' /\ msim k k') -> msim m m'.
Proof. intros H n n' E. destruct (H n n' E) as (k & k' & -> & -> & K). apply K, E. Qed.
Lemma msim_width c : msim (calculate_width_and_margins sty c) (calculate_width_and_margins tty c).
Proof.
  apply msim_at. intros n n' E. exists (mbind (on_box (calculate_width (sty (n_style n)) (n_intr n) c)) (fun ol => match ol with Some l => mmod (set_content_left l) | None => mret tt end)), (mbind (on_box (calculate_width (tty (n_style n')) (n_intr n') c)) (fun ol => match ol with Some l => mmod (set_content_left l) | None => mret tt end)). split; [reflexivity|]. split; [reflexivity|]. apply msim_bind.
  - destruct (sim_parts _ _ E) as (<- & _). apply msim_box, width_alike, sim_style, E.
  - intros [l|]; [|apply msim_lift]. intros x y F. split; [apply sim_content_left, F|reflexivity].
Qed.
Lemma last_sim n n' : sim n n' -> last_layout n = last_layout n'.
Proof.
  intros [s t i bx ks ls A F]. unfold last_layout. cbn [n_kids].
  assert (R : Forall2 sim (rev ks) (rev ls)).
  { clear A. induction F; cbn [rev]; [constructor|]. apply Forall2_app; [assumption|]. repeat constructor; assumption. }
  destruct R as [|k l ks' ls' E R]; [reflexivity|]. destruct (sim_parts _ _ E) as (_ & -> & _). reflexivity.
Qed.
Lemma cb_height_alike cb cb' : sim_cb cb cb' -> mx_alike (cb_style_height sty cb) (cb_style_height tty cb').
Proof.
  destruct cb as [|s x], cb' as [|t y]; cbn; try contradiction; [constructor|]. intros [A _].
  assert (H : la_alike (st_height (sty s)) (st_height (tty t))) by apply A. destruct H; constructor; assumption.
Qed.
Lemma msim_height c cb cb' : sim_cb cb cb' -> msim (calculate_height_and_margins sty c cb) (calculate_height_and_margins tty c cb').
Proof.
  intros C. apply msim_at. intros n n' E. exists (mbind (on_box (calculate_height (sty (n_style n)) (n_intr n) (cb_style_height sty cb) (last_layout n) c)) (fun d => add_content_top d)), (mbind (on_box (calculate_height (tty (n_style n')) (n_intr n') (cb_style_height tty cb') (last_layout n') c)) (fun d => add_content_top d)). split; [reflexivity|]. split; [reflexivity|]. apply msim_bind.
  - destruct (sim_parts _ _ E) as (<- & _). rewrite <- (last_sim _ _ E). apply msim_box, height_alike; [apply sim_style, E|apply cb_height_alike, C].
  - intros d. apply msim_add_top.
Qed.
Lemma hctx_sim d f cb cb' : sim_cb cb cb' -> hctx d f cb = hctx d f cb' /\ vctx d f cb = vctx d f cb'
  /\ forall g, cb_attr g cb = cb_attr g cb'.
Proof. destruct cb as [|s x], cb' as [|t y]; cbn; try contradiction; [auto|]. intros [_ ->]. auto. Qed.
Lemma msim_relative d f cb cb' : sim_cb cb cb' -> msim (relative_shift sty d f cb) (relative_shift tty d f cb').
Proof.
  intros C. destruct (hctx_sim d f cb cb' C) as (E1 & E2 & E3). apply msim_at. intros n n' E.
  pose proof (sim_style _ _ E) as A. destruct (kinds_alike _ _ A) as (_ & _ & _ & _ & _ & K & _).
  unfold relative_shift. cbv zeta. rewrite K. destruct (is_relative (tty (n_style n'))).
  - exists (mbind (mlift (rel_offset (hctx d f cb) (st_left (sty (n_style n))) (st_right (sty (n_style n)))
      (cb_attr (fun b => Ok (content_left b)) cb) (cb_attr content_right cb))) (fun vl => mbind (add_content_left vl) (fun _ =>
      mbind (mlift (rel_offset (vctx d f cb) (st_top (sty (n_style n))) (st_bottom (sty (n_style n)))
      (cb_attr (fun b => Ok (content_top b)) cb) (cb_attr content_bottom cb))) (fun vt => add_content_top vt)))),
      (mbind (mlift (rel_offset (hctx d f cb') (st_left (tty (n_style n'))) (st_right (tty (n_style n')))
      (cb_attr (fun b => Ok (content_left b)) cb') (cb_attr content_right cb'))) (fun vl => mbind (add_content_left vl) (fun _ =>
      mbind (mlift (rel_offset (vctx d f cb') (st_top (tty (n_style n'))) (st_bottom (tty (n_style n')))
      (cb_attr (fun b => Ok (content_top b)) cb') (cb_attr content_bottom cb'))) (fun vt => add_content_top vt)))). split; [reflexivity|]. split; [reflexivity|].
    destruct A as (_ & _ & _ & _ & _ & _ & _ & _ & _ & _ & _ & _ & _ & _ & _ & _ & _ & _ & _ & _ & _ & _ & O1 & O2 & O3 & O4).
    rewrite E1, E2, !E3, (offset_alike _ _ _ _ _ _ _ O4 O2), (offset_alike _ _ _ _ _ _ _ O1 O3).
    apply msim_bind; [apply msim_lift|intros vl]. apply msim_bind; [apply msim_add_left|intros _].
    apply msim_bind; [apply msim_lift|intros vt]. apply msim_add_top.
  - exists (mret tt), (mret tt). split; [reflexivity|]. split; [reflexivity|]. apply msim_lift.
Qed.
Lemma lay_all_sim (lay : @M S unit) (lay' : @M T unit) : msim lay lay' -> forall ks ls, Forall2 sim ks ls ->
  Forall2 sim (fst (lay_all lay ks)) (fst (lay_all lay' ls)) /\ snd (lay_all lay ks) = snd (lay_all lay' ls).
Proof.
  intros H ks ls F. induction F as [|k l ks ls E F IH]; cbn [lay_all]; [split; [constructor|reflexivity]|].
  destruct (H k l E) as [E1 E2]. destruct (lay k) as [k1 r], (lay' l) as [l1 r']. cbn in E1, E2. subst r'.
  destruct r; [|split; [constructor; assumption|reflexivity]]. destruct IH as [I1 I2].
  destruct (lay_all lay ks), (lay_all lay' ls). cbn in *. subst. split; [constructor; assumption|reflexivity].
Qed.
Lemma place_sim k l b off bm : sim k l ->
  sim (fst (fst (place_child k b off bm))) (fst (fst (place_child l b off bm)))
  /\ snd (fst (place_child k b off bm)) = snd (fst (place_child l b off bm)) /\ snd (place_child k b off bm) = snd (place_child l b off bm).
Proof.
  intros E. destruct (sim_parts _ _ E) as (_ & B & _). unfold place_child. rewrite B. destruct (n_box l) as [kb|]; [|auto].
  destruct bm as [m|].
  - destruct (as_num (margin_top kb)); cbn [bindr]; [|auto]. cbn [fst snd]. split; [apply sim_content_top, E|auto].
  - cbn [fst snd]. split; [apply sim_content_top, E|auto].
Qed.
Lemma flow_sim (lay : box -> @M S unit) (lay' : box -> @M T unit) : (forall b, msim (lay b) (lay' b)) -> forall ks ls, Forall2 sim ks ls ->
  forall pend b off bm,
  Forall2 sim (fst (fst (flow sty lay ks pend b off bm))) (fst (fst (flow tty lay' ls pend b off bm)))
  /\ snd (fst (flow sty lay ks pend b off bm)) = snd (fst (flow tty lay' ls pend b off bm))
  /\ snd (flow sty lay ks pend b off bm) = snd (flow tty lay' ls pend b off bm).
Proof.
  intros H ks ls F. induction F as [|k l ks ls E F IH]; intros pend b off bm; cbn [flow]; [split; [constructor|auto]|].
  destruct (kinds_alike _ _ (sim_style _ _ E)) as (-> & _). destruct (is_block_level _).
  - destruct pend; [split; [constructor; assumption|auto]|]. destruct (H b k l E) as [E1 E2]. destruct (lay b k) as [k1 r], (lay' b l) as [l1 r']. cbn in E1, E2. subst r'.
    destruct r as [u|e]; [|split; [constructor; assumption|auto]].
    destruct (place_sim k1 l1 b off bm E1) as (P1 & P2 & P3). destruct (place_child k1 b off bm) as [[k2 b2] r], (place_child l1 b off bm) as [[l2 b2'] r'].
    cbn in P1, P2, P3. subst b2' r'. destruct r as [[off' bm']|e]; [|split; [constructor; assumption|auto]].
    destruct (IH false b2 off' bm') as (I1 & I2 & I3). destruct (flow sty lay ks false b2 off' bm') as [[? ?] ?], (flow tty lay' ls false b2 off' bm') as [[? ?] ?].
    cbn in *. subst. split; [constructor; assumption|auto].
  - destruct (IH true b off bm) as (I1 & I2 & I3). destruct (flow sty lay ks true b off bm) as [[? ?] ?], (flow tty lay' ls true b off bm) as [[? ?] ?].
    cbn in *. subst. split; [constructor; assumption|auto].
Qed.
Lemma inline_sim n n' : sim n n' -> establishes_inline sty n = establishes_inline tty n'.
Proof.
  intros [s t i bx ks ls A F]. unfold establishes_inline. cbn [n_style n_intr n_kids]. destruct (kinds_alike _ _ A) as (_ & _ & _ & _ & _ & _ & ->).
  destruct (is_block_container _ _); [|reflexivity]. f_equal. clear A. induction F as [|k l ks ls E F IH]; cbn [existsb]; [reflexivity|].
  destruct (kinds_alike _ _ (sim_style _ _ E)) as (-> & _). rewrite IH. reflexivity.
Qed.
Lemma msim_children (lay : @cblock S -> @M S unit) (lay' : @cblock T -> @M T unit) :
  (forall cb cb', sim_cb cb cb' -> msim (lay cb) (lay' cb')) -> msim (layout_children sty lay) (layout_children tty lay').
Proof.
  intros H n n' E. pose proof (inline_sim _ _ E) as I. destruct E as [s t i bx ks ls A F]. destruct bx as [b|]; cbn [layout_children]; [|split; [constructor; assumption|reflexivity]].
  rewrite I. destruct (establishes_inline tty _).
  - destruct (lay_all_sim (lay (CBNode s b)) (lay' (CBNode t b)) (H (CBNode s b) (CBNode t b) (conj A eq_refl)) ks ls F) as [L1 L2].
    destruct (lay_all (lay (CBNode s b)) ks), (lay_all (lay' (CBNode t b)) ls). cbn in *. subst. split; [constructor; assumption|reflexivity].
  - destruct (flow_sim (fun b0 => lay (CBNode s b0)) (fun b0 => lay' (CBNode t b0)) (fun b0 => H (CBNode s b0) (CBNode t b0) (conj A eq_refl)) ks ls F false b n0 None) as (L1 & L2 & L3).
    destruct (flow sty _ ks false b n0 None) as [[? ?] ?], (flow tty _ ls false b n0 None) as [[? ?] ?]. cbn in *. subst. split; [constructor; assumption|reflexivity].
Qed.
Lemma layout_box_sim fuel d f : forall cb cb', sim_cb cb cb' -> msim (layout_box sty fuel d f cb) (layout_box tty fuel d f cb').
Proof.
  induction fuel as [|fuel IH]; intros cb cb' C; [intros n n' E; split; [exact E|reflexivity]|].
  apply msim_at. intros n n' E. pose proof (sim_style _ _ E) as A. cbn [layout_box]. cbv zeta. pose proof (proj1 A) as D. rewrite <- D. destruct (st_display (sty (n_style n))).
  - exists (mbind (mmod ensure_box) (fun _ => mbind (on_box (copy_edges (sty (n_style n)) (hctx d f cb) (vctx d f cb))) (fun _ =>
     mbind (calculate_width_and_margins sty (hctx d f cb)) (fun _ =>
     mbind (if is_relative (sty (n_style n)) then calculate_height_and_margins sty (vctx d f cb) cb else mret tt) (fun _ =>
     mbind (if is_abspos (sty (n_style n)) then mlift (Err NotImplementedError) else if is_float (sty (n_style n)) then mlift (Err NotImplementedError)
            else layout_children sty (layout_box sty fuel d f)) (fun _ =>
     mbind (calculate_height_and_margins sty (vctx d f cb) cb) (fun _ => relative_shift sty d f cb))))))),
      (mbind (mmod ensure_box) (fun _ => mbind (on_box (copy_edges (tty (n_style n')) (hctx d f cb') (vctx d f cb'))) (fun _ =>
     mbind (calculate_width_and_margins tty (hctx d f cb')) (fun _ =>
     mbind (if is_relative (tty (n_style n')) then calculate_height_and_margins tty (vctx d f cb') cb' else mret tt) (fun _ =>
     mbind (if is_abspos (tty (n_style n')) then mlift (Err NotImplementedError) else if is_float (tty (n_style n')) then mlift (Err NotImplementedError)
            else layout_children tty (layout_box tty fuel d f)) (fun _ =>
     mbind (calculate_height_and_margins tty (vctx d f cb') cb') (fun _ => relative_shift tty d f cb'))))))). split; [reflexivity|]. split; [reflexivity|]. destruct (hctx_sim d f cb cb' C) as (-> & -> & _).
    destruct (kinds_alike _ _ A) as (_ & _ & _ & -> & -> & -> & _).
    apply msim_bind; [intros x y F; split; [apply sim_ensure, F|reflexivity]|intros _].
    apply msim_bind; [apply msim_box, edges_alike, A|intros _].
    apply msim_bind; [apply msim_width|intros _].
    apply msim_bind; [destruct (is_relative _); [apply msim_height, C|apply msim_lift]|intros _].
    apply msim_bind; [|intros _; apply msim_bind; [apply msim_height, C|intros _; apply msim_relative, C]].
    destruct (is_abspos _); [apply msim_lift|]. destruct (is_float _); [apply msim_lift|]. apply msim_children. exact IH.
  - exists (fun n => (with_box None n, Ok tt)), (fun n => (with_box None n, Ok tt)). split; [reflexivity|]. split; [reflexivity|].
    intros x y [s t i bx ks ls A' F]. split; [constructor; assumption|reflexivity].
Qed.
Theorem layout_sim d h5 n n' : sim n n' ->
  sim (fst (layout sty d h5 n)) (fst (layout tty d h5 n')) /\ snd (layout sty d h5 n) = snd (layout tty d h5 n').
Proof.
  intros E. unfold layout. destruct (sim_parts _ _ E) as (_ & B & _). rewrite B. destruct (n_box n') as [b0|]; [clear b0 B|split; [exact E|reflexivity]].
  rewrite (sim_height _ _ E). generalize (height n') as k. intros k. revert n n' E.
  refine (msim_bind _ _ _ _ _ _).
  - intros n n' E. split; [apply sim_reset, E|reflexivity].
  - intros _. apply msim_bind; [apply layout_box_sim; exact I|intros _]. intros n n' E. destruct (sim_parts _ _ E) as (_ & B & _).
    unfold finish_root. rewrite B. destruct (n_box n') as [b|]; [|split; [exact E|reflexivity]].
    assert (E' := sim_content_top (nadd (content_top b) (NI (collapse_top b))) _ _ E).
    destruct h5; [|split; [exact E'|reflexivity]]. apply (msim_box _ _ (beqv_refl _)), E'.
Qed.
End Sim.
