(** * Properties of layouts of declared documents *)
From Coq Require Import ZArith QArith Qcanon Bool String List Permutation.
From Verif Require Import PyNum NumFacts Units BoxModel Engine EngineSim Float64 PyStr Colors Values Parser Choices Shorthand Decl
  DeclSpec DeclFacts DeclNorm DeclProps DeclProps2 DeclProps3 Computed ComputedSpec ComputedFacts.
Import ListNotations.
Open Scope string_scope.

(** C30: whatever a program did to a declaration, the engine finds a value of
    the right kind in every property.  Missing from the full claim: a length
    may be one that cannot be converted (C30_refuted). *)
Theorem C30_kinds_partial : forall ho c k, valid_order ho -> reachable ho c k ->
  exists s, computed ho c = Some s /\ forall p v, shows s p = Some v -> get_prop ho c (Long p) = Ok (RValue v).
Proof.
  intros ho c k V R. destruct (computed_view ho c V (reachable_stored ho c k V R)) as (s & E & H). exists s. split; [exact E|].
  intros p v X. cbn [get_prop]. rewrite (H p v X). reflexivity.
Qed.
Print Assumptions C30_kinds_partial.
Definition styled : css := declared [OpSet (Long L_display) (VStr "block"); OpSet (Long L_width) (VStr "12.5%"); OpSet (Dir D_margin) (VTuple [VInt 5; VStr "auto"]);
  OpSet (Short S_border) (VStr "thin solid red"); OpSet (Long L_max_width) (VStr "3em"); OpSet (Long L_width) (VStr "wide"); OpDel (Long (L_margin STop))].
Definition styled_n : nat := declared_n [OpSet (Long L_display) (VStr "block"); OpSet (Long L_width) (VStr "12.5%"); OpSet (Dir D_margin) (VTuple [VInt 5; VStr "auto"]);
  OpSet (Short S_border) (VStr "thin solid red"); OpSet (Long L_max_width) (VStr "3em"); OpSet (Long L_width) (VStr "wide"); OpDel (Long (L_margin STop))].
Lemma declared_reachable l : reachable plain_order (declared l) (declared_n l).
Proof. exists l. unfold declared, declared_n. destruct (run_ops _ _ _ _); reflexivity. Qed.
Example C30_example : reachable plain_order styled styled_n
  /\ shows (declared_style plain_order styled) (L_margin SRight) = Some (VStr "auto")
  /\ shows (declared_style plain_order styled) (L_border_width SLeft) = Some (VStr "thin")
  /\ shows (declared_style plain_order styled) (L_border_style SLeft) = Some (VStr "solid").
Proof. split; [apply declared_reachable|]. vm_compute. auto. Qed.
(** The full claim asks for lengths that the engine can use. *)
Definition C30_full : Prop := forall ho c k p u, valid_order ho -> reachable ho c k -> engine_reads p = true ->
  get_prop ho c (Long p) = Ok (RValue (VUnit u)) -> convertible u.
Lemma plain_valid : valid_order plain_order.
Proof. split; [intros l|]; apply Permutation_refl. Qed.
Theorem C30_refuted : ~ C30_full.
Proof.
  intros H. destruct (H plain_order (declared [OpSet (Long L_width) (VStr "10deg")]) (declared_n [OpSet (Long L_width) (VStr "10deg")]) L_width
    (match get_long plain_order (declared [OpSet (Long L_width) (VStr "10deg")]) L_width with Ok (VUnit u) => u | _ => mkU KPx (PI 0) end)
    plain_valid (declared_reachable _) eq_refl) as [A _].
  - vm_compute. reflexivity.
  - revert A. vm_compute. intros A. eapply A. reflexivity.
Qed.
Print Assumptions C30_refuted.

(** C99: the engine's view is exactly the readings: it exists, it shows what
    reading shows, and no other view does. *)
Theorem C99_exact_view : forall ho c k s, valid_order ho -> reachable ho c k ->
  (computed ho c = Some s <-> forall p v, shows s p = Some v -> get_prop ho c (Long p) = Ok (RValue v)).
Proof.
  intros ho c k s V R. destruct (C30_kinds_partial ho c k V R) as (t & E & H). split.
  - intros E'. rewrite E in E'. injection E' as <-. exact H.
  - intros H'. rewrite E. f_equal. apply shows_inj. intros p. destruct (shows t p) as [v|] eqn:A.
    + destruct (shows s p) as [w|] eqn:B; [|pose proof (shows_dom s t p B); congruence].
      pose proof (H p v A) as X. pose proof (H' p w B) as Y. congruence.
    + symmetry. exact (shows_dom t s p A).
Qed.
Print Assumptions C99_exact_view.
Example C99_example : exists s, computed plain_order styled = Some s /\ st_width s = Len (mkU KPct (PF (Fin (Q2Qc (25 # 2))))) /\ shows s (L_margin STop) = Some zero_px.
Proof. eexists. split; [vm_compute; reflexivity|]. split; [|reflexivity]. cbn. repeat f_equal; apply Qc_is_canon; reflexivity. Qed.

(** C100: only the readings of these properties matter. *)
Definition val_alike (v w : pyval) : Prop := v = w \/ exists a b, v = VUnit a /\ w = VUnit b /\ alike a b.
Lemma shows_alike s t : (forall p v w, engine_reads p = true -> shows s p = Some v -> shows t p = Some w -> val_alike v w) -> style_alike s t.
Proof.
  intros H. destruct words_inj as (W1 & W2 & W3 & W4 & _ & W6).
  assert (LA : forall a b, val_alike (show_lenauto a) (show_lenauto b) -> la_alike a b).
  { intros [] [] [E|(x & y & E & F & A)]; cbn in *; try discriminate; [constructor|injection E as <-; apply la_refl|injection E as <-; injection F as <-; constructor; exact A]. }
  assert (BW : forall a b, val_alike (show_bwidth a) (show_bwidth b) -> bw_alike a b).
  { intros [] [] [E|(x & y & E & F & A)]; cbn in *; try discriminate; injection E as E; [apply W6 in E; subst; constructor|subst; apply bw_refl|injection F as F; subst; constructor; exact A]. }
  assert (OF : forall a b, val_alike (show_offset a) (show_offset b) -> of_alike a b).
  { intros [] [] [E|(x & y & E & F & A)]; cbn in *; try discriminate; try constructor; [injection E as <-; apply alike_refl|injection E as <-; injection F as <-; exact A]. }
  assert (MX : forall a b, val_alike (or_none VUnit a) (or_none VUnit b) -> mx_alike a b).
  { intros [] [] [E|(x & y & E & F & A)]; cbn in *; try discriminate; try constructor; [injection E as <-; apply alike_refl|injection E as <-; injection F as <-; exact A]. }
  assert (PD : forall a b, val_alike (VUnit a) (VUnit b) -> alike a b).
  { intros a b [E|(x & y & E & F & A)]; [injection E as <-; apply alike_refl|injection E as <-; injection F as <-; exact A]. }
  assert (DI : forall a b, val_alike (or_none (fun d => VStr (display_text d)) a) (or_none (fun d => VStr (display_text d)) b) -> a = b).
  { intros a b [E|(x & y & E & F & A)]; [|destruct a; discriminate]. revert E. apply or_none_inj; [|discriminate]. intros x y E. injection E. apply W1. }
  assert (FL : forall a b, val_alike (or_none (fun d => VStr (float_text d)) a) (or_none (fun d => VStr (float_text d)) b) -> a = b).
  { intros a b [E|(x & y & E & F & A)]; [|destruct a; discriminate]. revert E. apply or_none_inj; [|discriminate]. intros x y E. injection E. apply W3. }
  assert (PO : forall a b, val_alike (VStr (position_text a)) (VStr (position_text b)) -> a = b).
  { intros a b [E|(x & y & E & F & A)]; [|discriminate]. apply W2. congruence. }
  assert (DR : forall a b, val_alike (VStr (direction_text a)) (VStr (direction_text b)) -> a = b).
  { intros a b [E|(x & y & E & F & A)]; [|discriminate]. apply W4. congruence. }
  pose proof (fun p v w => H p v w) as G. unfold style_alike.
  split; [apply DI, (G L_display); reflexivity|]. split; [apply PO, (G L_position); reflexivity|]. split; [apply FL, (G L_float); reflexivity|]. split; [apply DR, (G L_direction); reflexivity|].
  split; [apply LA, (G L_width); reflexivity|]. split; [apply LA, (G L_height); reflexivity|]. split; [apply LA, (G L_min_width); reflexivity|]. split; [apply LA, (G L_min_height); reflexivity|].
  split; [apply MX, (G L_max_width); reflexivity|]. split; [apply MX, (G L_max_height); reflexivity|].
  split; [apply LA, (G (L_margin STop)); reflexivity|]. split; [apply LA, (G (L_margin SRight)); reflexivity|]. split; [apply LA, (G (L_margin SBottom)); reflexivity|]. split; [apply LA, (G (L_margin SLeft)); reflexivity|].
  split; [apply PD, (G (L_padding STop)); reflexivity|]. split; [apply PD, (G (L_padding SRight)); reflexivity|]. split; [apply PD, (G (L_padding SBottom)); reflexivity|]. split; [apply PD, (G (L_padding SLeft)); reflexivity|].
  split; [apply BW, (G (L_border_width STop)); reflexivity|]. split; [apply BW, (G (L_border_width SRight)); reflexivity|]. split; [apply BW, (G (L_border_width SBottom)); reflexivity|]. split; [apply BW, (G (L_border_width SLeft)); reflexivity|].
  split; [apply OF, (G (L_offset STop)); reflexivity|]. split; [apply OF, (G (L_offset SRight)); reflexivity|]. split; [apply OF, (G (L_offset SBottom)); reflexivity|]. apply OF, (G (L_offset SLeft)); reflexivity.
Qed.
Lemma sim_boxes {S T} (sty : S -> style) (tty : T -> style) : forall n m, sim sty tty n m -> boxes n = boxes m.
Proof.
  apply (sim_ind' sty tty). intros s t i bx ks ls _ _ IH. cbn [boxes]. f_equal.
  induction IH as [|x y xs ys X _ IHs]; [reflexivity|]. cbn [map]. f_equal; assumption.
Qed.
Section SameDoc.
Context {S T : Type} (R : S -> T -> Prop).
Lemma same_document_ind' (P : node S -> node T -> Prop) :
  (forall s t i bx ks ls, R s t -> Forall2 P ks ls -> P (Node s i bx ks) (Node t i bx ls)) -> forall n m, same_document R n m -> P n m.
Proof.
  intros H. fix IH 3. intros n m [s t i bx ks ls A F]. apply H; [exact A|]. clear A. induction F; constructor; auto.
Qed.
Lemma same_document_sim (sty : S -> style) (tty : T -> style) : (forall a b, R a b -> style_alike (sty a) (tty b)) ->
  forall n m, same_document R n m -> sim sty tty n m.
Proof. intros H n m E. revert n m E. apply same_document_ind'; constructor; auto. Qed.
End SameDoc.
Lemma layouts_same (R : css -> css -> Prop) h1 h2 d html5 n m :
  (forall a b, R a b -> style_alike (declared_style h1 a) (declared_style h2 b)) -> same_document R n m ->
  same_result (layout_css h1 d html5 n) (layout_css h2 d html5 m).
Proof.
  intros H E. apply (same_document_sim R _ _ H) in E. destruct (layout_sim _ _ d html5 n m E) as [A B]. split; [exact (sim_boxes _ _ _ _ A)|exact B].
Qed.
Lemma shows_engine p s : engine_reads p = true -> exists v, shows s p = Some v.
Proof. destruct p; repeat match goal with x : side |- _ => destruct x end; cbn; intros; try discriminate; eauto. Qed.
Definition readings_alike (h1 h2 : hash_order) (a b : css) : Prop :=
  (exists j, reachable h1 a j) /\ (exists k, reachable h2 b k)
  /\ forall p, engine_reads p = true -> get_prop h1 a (Long p) = get_prop h2 b (Long p).
Theorem C100_only_readings : forall h1 h2 d html5 n m, valid_order h1 -> valid_order h2 ->
  same_document (readings_alike h1 h2) n m -> same_result (layout_css h1 d html5 n) (layout_css h2 d html5 m).
Proof.
  intros h1 h2 d html5 n m V1 V2. apply layouts_same. intros a b ((j & A) & (k & B) & H). unfold declared_style.
  destruct (C30_kinds_partial h1 a j V1 A) as (s & -> & X), (C30_kinds_partial h2 b k V2 B) as (t & -> & Y).
  apply shows_alike. intros p v w E P Q. left. apply X in P. apply Y in Q. rewrite (H p E), Q in P. congruence.
Qed.
Print Assumptions C100_only_readings.
(** Example: colours, cursors, border styles and the iteration order differ. *)
Definition painted : css := fst (run_ops reverse_order [OpSet (Long L_color) (VStr "red"); OpSet (Long L_cursor) (VStr "pointer"); OpSet (Long L_width) (VInt 30);
   OpSet (Dir D_border_style) (VStr "solid"); OpSet (Long L_display) (VStr "block")] fresh_css first_free).
Definition unpainted : css := declared [OpSet (Long L_display) (VStr "block"); OpSet (Long L_width) (VInt 30)].
Example C100_example : readings_alike plain_order reverse_order unpainted painted /\ c_store painted L_color <> c_store unpainted L_color.
Proof.
  split; [|vm_compute; discriminate]. split; [eexists; apply declared_reachable|]. split.
  - eexists. eexists. unfold painted. apply surjective_pairing.
  - intros p E. destruct p; repeat match goal with x : side |- _ => destruct x end; try discriminate E; vm_compute; reflexivity.
Qed.

(** C101: documents whose declarations are successful copies. *)
Definition copied_from (ho : hash_order) (a b : css) : Prop :=
  exists k node n n', reachable ho a k /\ copy ho node a n = (b, n', Ok tt).
Lemma engine_plain p : engine_reads p = true -> of_lengths p /\ ~ follower p /\ kind_ok p (css_initial p).
Proof.
  destruct p; cbn; intros E; try discriminate E; split; try all_lengths; (split; [no_follow|]); initial_kind.
Qed.
Lemma kind_not_dropped p v : engine_reads p = true -> kind_ok p v -> ~ dropped v.
Proof.
  intros E K D. destruct v; try destruct D; destruct p; try discriminate E; unfold kind_ok in K; cbn in K; decompose [or and ex False] K; discriminate.
Qed.
Lemma alike_initial w p : engine_reads p = true -> kind_ok p w -> py_eqb w (css_initial p) = true -> val_alike w (css_initial p).
Proof.
  intros E K H.
  assert (N : forall z, w <> VInt z).
  { intros z ->. destruct p; try discriminate E; unfold kind_ok in K; cbn in K; decompose [or and ex False] K; discriminate. }
  assert (U : forall u, py_eqb (VUnit u) zero_px = true -> val_alike (VUnit u) zero_px).
  { intros u X. right. exists u, (mkU KPx (PI 0)). split; [reflexivity|]. split; [reflexivity|]. cbn in X. unfold u_eqb in X.
    apply alike_eqb; destruct (u_kind u); try discriminate X; [reflexivity|exact X]. }
  destruct p; try discriminate E; cbn [css_initial] in *; destruct w; try (destruct (N _ eq_refl)); try (apply U, H); cbn in H; try discriminate H;
  try (left; reflexivity); left; f_equal; apply String.eqb_eq, H.
Qed.
Lemma copied_readings ho a b : valid_order ho -> copied_from ho a b -> exists k,
  reachable ho a k /\ stored_ok ho b /\ forall p, engine_reads p = true -> exists v w, get_long ho a p = Ok v /\ get_long ho b p = Ok w /\ val_alike v w.
Proof.
  intros V (k & node & n & n' & R & C). exists k. split; [exact R|].
  assert (ND : NoDup (ho_names ho)) by (eapply NoDup_map_inv, (names_nodup ho V)). unfold copy in C.
  destruct (copy_each ho a k V R (ho_names ho) ND (mkCss (fun _ => None) node) n (fun _ _ => eq_refl)) as [A B].
  assert (NB : forall q w, c_store a q = Some w -> ~ blocked w).
  { intros q w S X. destruct B as (c' & B); [exists q, w; split; [apply name_in, V|auto]|]. rewrite C in B. discriminate. }
  destruct A as (c' & E' & CC & _); [intros q w _; apply NB|]. rewrite C in E'. injection E' as <- _. split.
  { intros q w S. rewrite (CC q (name_in ho (Long q) V)) in S. apply (reachable_stored ho a k V R). unfold copied in S. destruct (c_store a q) as [x|]; [|discriminate].
    destruct (value_cases x); [|discriminate]. destruct (same_value _ _); [discriminate|]. destruct x; congruence. }
  intros p E. destruct (engine_plain p E) as (L & F & I). specialize (CC p (name_in ho (Long p) V)).
  rewrite !(get_long_plain _ _ _ V F), CC. destruct (c_store a p) as [w|] eqn:S.
  - destruct (stored_validated ho a k p w V R S) as (v & i & j & W). pose proof (validated_kind _ _ _ _ _ _ V L W) as K.
    destruct (copied_plain ho a p w V (NB p w S) S F) as [_ X]. destruct (X (kind_not_dropped p w E K)) as [X'|[X' Y]]; rewrite X'; do 2 eexists; repeat split; auto.
    + left. reflexivity.
    + apply alike_initial; assumption.
  - unfold copied. rewrite S. do 2 eexists. repeat split; auto. left. reflexivity.
Qed.
Theorem C101_copies : forall ho d html5 n m, valid_order ho -> same_document (copied_from ho) n m ->
  same_result (layout_css ho d html5 n) (layout_css ho d html5 m).
Proof.
  intros ho d html5 n m V. apply layouts_same. intros a b C. destruct (copied_readings ho a b V C) as (k & R & O & H). unfold declared_style.
  destruct (computed_view ho a V (reachable_stored ho a k V R)) as (s & -> & X), (computed_view ho b V O) as (t & -> & Y).
  apply shows_alike. intros p v w E P Q. apply X in P. apply Y in Q. destruct (H p E) as (v' & w' & P' & Q' & A). congruence.
Qed.
Print Assumptions C101_copies.
(** Example: the width 0.0px equals the initial margin, so the copy does not
    store it. *)
Definition zero_margin : css := declared [OpSet (Long (L_margin STop)) (VInt 7); OpSet (Long (L_margin STop)) (VStr "0.0px"); OpSet (Long L_display) (VStr "block")].
Example C101_example : exists b, copied_from plain_order zero_margin b /\ c_store zero_margin (L_margin STop) <> None /\ c_store b (L_margin STop) = None.
Proof.
  exists (fst (fst (copy plain_order (Some (Some true)) zero_margin 9%nat))). split.
  - do 2 eexists. exists 9%nat. eexists. split; [apply declared_reachable|]. apply outcome. vm_compute. reflexivity.
  - split; [vm_compute; discriminate|vm_compute; reflexivity].
Qed.

(** C102: the dirty flag is enough to decide whether to lay out again. *)
Definition steady (m : cm unit) : Prop := forall c n d, c_node c = Some (Some d) -> exists c' n' r, m c n = (c', n', r)
  /\ (c' = c \/ c_node c' = Some (Some true)).
Lemma steady_ret : steady (ret tt). Proof. intros c n d N. do 3 eexists. split; [reflexivity|auto]. Qed.
Lemma steady_raise e : steady (raise e). Proof. intros c n d N. do 3 eexists. split; [reflexivity|auto]. Qed.
Lemma steady_bind m (k : unit -> cm unit) : steady m -> (forall u, steady (k u)) -> steady (bind m k).
Proof.
  intros M K c n d N. unfold bind. destruct (M c n d N) as (c1 & n1 & r & -> & A). destruct r as [u|e]; [|eauto].
  destruct A as [->|A].
  - apply (K u c n1 d N).
  - destruct (K u c1 n1 true A) as (c2 & n2 & r2 & -> & B). do 3 eexists. split; [reflexivity|]. right. destruct B as [->|B]; assumption.
Qed.
Lemma steady_dirty : steady dirty.
Proof. intros c n d N. unfold dirty, mark_dirty. rewrite N. do 3 eexists. split; [reflexivity|]. right. reflexivity. Qed.
Lemma steady_swallow m : steady m -> steady (swallow m).
Proof.
  intros M c n d N. unfold swallow. destruct (M c n d N) as (c1 & n1 & r & -> & A). destruct r as [u|e]; [eauto|]. destruct e; eauto 6.
Qed.
Lemma steady_each {A} (f : A -> cm unit) l : (forall x, steady (f x)) -> steady (each f l).
Proof. intros F. induction l as [|x l IH]; [apply steady_ret|]. cbn [each]. apply steady_bind; [apply F|intros _; exact IH]. Qed.
Lemma steady_set ho p v : steady (set_long ho p v).
Proof.
  intros c n d N. rewrite set_long_eq. destruct (validate _ _ n v) as [[w m]|e]; [|eauto 6]. destruct (same_value _ _); [eauto 6|].
  unfold mark_dirty. cbn [c_node set_store]. rewrite N. do 3 eexists. split; [reflexivity|]. right. reflexivity.
Qed.
Lemma steady_del p : steady (del_long p).
Proof.
  intros c n d N. rewrite del_long_eq. destruct (c_store c p); [|eauto 6]. do 3 eexists. split; [reflexivity|]. right. rewrite mark_dirty_node. cbn. rewrite N. reflexivity.
Qed.
Lemma steady_set_dir ho d v : steady (set_dir ho d v).
Proof.
  assert (K : forall t r b l, steady (set_sides ho d t r b l)) by (intros; unfold set_sides; repeat (apply steady_bind; [apply steady_set|intros _]); apply steady_set).
  unfold set_dir. destruct v; try apply K. destruct l as [|t [|r [|b [|l [|x y]]]]]; first [apply K|apply steady_raise].
Qed.
Lemma steady_del_dir d : steady (del_dir d). Proof. apply steady_each. intros s. apply steady_del. Qed.
Lemma steady_set_prop ho p v : steady (set_prop ho p v).
Proof.
  destruct p as [l|d|s]; [apply steady_set|apply steady_set_dir|]. intros c n d N. cbn [set_prop]. unfold set_short. destruct (parse_shorthand _ _ n v) as [[f n1]|e]; [|eauto 6].
  revert c n1 d N. apply (steady_bind _ (fun _ => dirty)); [|intros _; apply steady_dirty]. apply steady_each. intros kp. destruct (f (fst kp)).
  - unfold set_ld. destruct (snd kp); [apply steady_set|apply steady_set_dir|apply steady_raise].
  - unfold del_ld. destruct (snd kp); [apply steady_del|apply steady_del_dir|apply steady_raise].
Qed.
Lemma steady_del_prop p : steady (del_prop p).
Proof.
  destruct p as [l|d|s]; [apply steady_del|apply steady_del_dir|]. apply steady_each. intros kp. apply steady_swallow, steady_bind; [|intros _; apply steady_dirty].
  unfold del_ld. destruct (snd kp); [apply steady_del|apply steady_del_dir|apply steady_raise].
Qed.
Lemma steady_op ho o : not_bind o -> steady (run_op ho o).
Proof.
  destruct o as [p v|p|l|s v|s|x]; cbn [not_bind run_op]; intros B; try contradiction.
  - apply steady_set_prop.
  - apply steady_del_prop.
  - apply steady_each. intros [s v]. unfold update_item. destruct (prop_of_name _); [|apply steady_raise]. cbn [snd]. destruct v; first [apply steady_del_prop|apply steady_set_prop].
  - unfold setitem. destruct (prop_of_name _); [apply steady_set_prop|apply steady_raise].
  - unfold delitem. destruct (prop_of_name _); [apply steady_swallow, steady_del_prop|apply steady_raise].
Qed.
Lemma steady_ops ho l : Forall not_bind l -> forall c n d, c_node c = Some (Some d) ->
  fst (run_ops ho l c n) = c \/ c_node (fst (run_ops ho l c n)) = Some (Some true).
Proof.
  induction 1 as [|o l B _ IH]; intros c n d N; [left; reflexivity|]. cbn [run_ops].
  destruct (steady_op ho o B c n d N) as (c1 & n1 & r & -> & A). destruct A as [->|A].
  - exact (IH c n1 d N).
  - right. destruct (IH c1 n1 true A) as [->|X]; assumption.
Qed.
(** Restyled by a program that ran while the node's layout was clean, and left
    it clean. *)
Definition restyled_clean (ho : hash_order) (a b : css) : Prop :=
  a = b \/ exists l n n', Forall not_bind l /\ c_node a = Some (Some false) /\ run_ops ho l a n = (b, n') /\ c_node b = Some (Some false).
Theorem C102_clean_is_current : forall ho d html5 n m, same_document (restyled_clean ho) n m ->
  layout_css ho d html5 n = layout_css ho d html5 m.
Proof.
  intros ho d html5 n m E. f_equal. revert n m E. apply (same_document_ind' (restyled_clean ho)). intros a b i bx ks ls R F. f_equal.
  - destruct R as [->|(l & k & k' & B & N & R & M)]; [reflexivity|]. destruct (steady_ops ho l B a k false N) as [X|X]; rewrite R in X; cbn in X; [congruence|].
    rewrite X in M. discriminate.
  - induction F; [reflexivity|]. f_equal; assumption.
Qed.
Print Assumptions C102_clean_is_current.
Example C102_example : restyled_clean plain_order sample
  (fst (run_ops plain_order [OpSet (Long (L_margin STop)) (VStr "5px"); OpSet (Long L_width) (VStr "nonsense"); OpDel (Long L_height); OpSetItem "margin-top" (VInt 5)] sample sample_n)).
Proof.
  right. do 2 eexists. eexists. split; [|split; [vm_compute; reflexivity|split; [apply surjective_pairing|vm_compute; reflexivity]]].
  repeat constructor.
Qed.
