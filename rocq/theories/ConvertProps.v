(** * Documents whose lengths all convert, in Python's floats (C191) *)
From Coq Require Import ZArith QArith Qcanon Qabs Lqa Lia Bool String List.
From Verif Require Import PyNum NumFacts Float64 Units UnitsSpec FloatUnits FloatSpec FloatProps BoxModel BoxSpec BoxFacts Engine EngineSpec EngineTree EngineInv
  EngineArith EngineArithFacts EngineFSpec EngineFBound EngineGSpec EngineGrid EngineGProps EngineExamples RefLayout RefProps MoveProps HistSpec OkSpec OkProps SymProps PixelFacts PixelProps
  PyPageProps PixelSpec AbsDocSpec AbsDocProps ConvertSpec.
Import ListNotations.

(** The exact operations with the conversions of binary64. *)
Definition mixed_arith : arith :=
  mkArith (fun x y => Ok (nadd x y)) (fun x y => Ok (nsub x y)) (fun x y => Ok (nmul x y)) (fun x => Ok (nhalf x)) px_f.
Notation W := mixed_arith.
Notation E := exact_arith.
Lemma mixed_conforms : conforms rounded_arith mixed_arith.
Proof.
  constructor; try reflexivity.
  - intros x y r _ _ H. apply guarded_ok in H. destruct H as [-> _]. reflexivity.
  - intros x y r _ _ H. apply guarded_ok in H. destruct H as [-> _]. reflexivity.
  - intros x y z r _ _ H. apply guarded_ok in H. destruct H as [-> _]. reflexivity.
  - intros x r _ H. apply guarded_ok in H. destruct H as [-> _]. reflexivity.
Qed.
Lemma mixed_sub : sub_exact mixed_arith px_f.
Proof.
  constructor; try (intros; cbn in *; congruence).
  - intros c u x H. split; [exact H|]. exact (px_f_grid c u x H).
  - exact (se_zero _ _ rounded_sub).
Qed.

Section Conv.
Context {S : Type} (sty : S -> style) (d : display_t).
Notation node := (node S).
Notation ctx_of sz := (mkCtx d dummy_font sz).
Notation cv := (in_px px_f (somewhere d)).
Notation cs := (converted d).
Notation sty' := (fun s => converted d (sty s)).
Definition good (u : unit_) : Prop := u_kind u <> KPct /\ exists x, px_f (somewhere d) u = Ok x.
Definition gs (s : style) : Prop := forall u, In u (lengths_of s) -> good u.
Lemma c_px sz sz' u : good u -> a_px W (ctx_of sz) u = a_px E (ctx_of sz') (cv u).
Proof.
  intros (K & x & H). pose proof (absolute_anywhere d u sz K) as Ha. cbn [a_px mixed_arith]. rewrite Ha, H. symmetry.
  apply (r_px W px_f mixed_sub (somewhere d) (ctx_of sz') u x H).
Qed.
Lemma c_len sz sz' u : good u -> calc_lenA W (ctx_of sz) u = calc_lenA E (ctx_of sz') (cv u).
Proof.
  intros (K & x & H). pose proof (absolute_anywhere d u sz K) as Ha.
  assert (X : exists y, calc_lenA W (somewhere d) u = Ok y) by (unfold calc_lenA; destruct (u_eq_int u 0); [eauto|exists x; exact H]). destruct X as [y Y].
  rewrite (r_calc_len W px_f mixed_sub (somewhere d) (ctx_of sz') u y Y). rewrite <- Y. unfold calc_lenA. destruct (u_eq_int u 0); [reflexivity|]. exact Ha.
Qed.
Ltac good_len G := apply G; unfold lengths_of; rewrite !in_app_iff; cbn [In of_lenauto of_option of_border of_offset]; tauto.
Lemma c_margin sz v : (forall u, In u (of_lenauto v) -> good u) -> calc_marginA W (ctx_of sz) v = calc_marginA E (ctx_of sz) (in_lenauto px_f (somewhere d) v).
Proof. destruct v as [|u]; intros G; [reflexivity|]. cbn [calc_marginA in_lenauto]. rewrite (c_len sz sz) by (apply G; left; reflexivity). reflexivity. Qed.
Lemma c_border sz v : (forall u, In u (of_border v) -> good u) -> calc_borderA W (ctx_of sz) v = calc_borderA E (ctx_of sz) (in_border px_f (somewhere d) v).
Proof. destruct v as [k|u]; intros G; [reflexivity|]. cbn [calc_borderA in_border]. apply c_len. apply G; left; reflexivity. Qed.
Ltac here G := let u := fresh in let Hu := fresh in intros u Hu; apply G; unfold lengths_of; rewrite !in_app_iff; tauto.
Lemma c_edges s w h b : gs s -> copy_edgesA W s (ctx_of w) (ctx_of h) b = copy_edgesA E (cs s) (ctx_of w) (ctx_of h) b.
Proof.
  intros G. unfold copy_edgesA. rewrite !c_margin, !c_border, !(c_len w w), !(c_len h h); [reflexivity|..]; try (good_len G); here G.
Qed.
Lemma c_clamped s u w : gs s -> good u -> clamped_widthA W s u (ctx_of w) = clamped_widthA E (cs s) (cv u) (ctx_of w).
Proof.
  intros G Gu. unfold clamped_widthA. rewrite (c_px w w u Gu). cbn [converted style_in_px st_max_width st_min_width].
  assert (G1 : forall m, st_max_width s = Some m -> good m) by (intros m H; apply G; unfold lengths_of; rewrite H, !in_app_iff; cbn [In of_option]; tauto).
  assert (G2 : forall m, st_min_width s = Len m -> good m) by (intros m H; apply G; unfold lengths_of; rewrite H, !in_app_iff; cbn [In of_lenauto]; tauto).
  destruct (st_max_width s) as [m|], (st_min_width s) as [|k]; cbn [in_option option_map in_lenauto]; rewrite ?(c_px w w m (G1 m eq_refl)), ?(c_px w w k (G2 k eq_refl)); reflexivity.
Qed.
Lemma c_width s i w b : gs s -> calculate_widthA W s i (ctx_of w) b = calculate_widthA E (cs s) i (ctx_of w) b.
Proof.
  intros G. assert (G1 : forall m, st_width s = Len m -> good m) by (intros m H; apply G; unfold lengths_of; rewrite H, !in_app_iff; cbn [In of_lenauto]; tauto).
  unfold calculate_widthA. change (is_float (cs s)) with (is_float s). change (is_abspos (cs s)) with (is_abspos s).
  change (is_inline (cs s)) with (is_inline s). change (is_block_level (cs s)) with (is_block_level s). change (is_inline_block (cs s)) with (is_inline_block s).
  destruct (is_float s); [reflexivity|]. destruct (is_abspos s); [reflexivity|]. destruct (is_inline s).
  - destruct (s_replaced i); [|reflexivity]. unfold inline_replaced_widthA. cbn [converted style_in_px st_width st_height].
    destruct (st_width s) as [|u]; cbn [in_lenauto]; [destruct (st_height s); reflexivity|]. rewrite (c_px w w u (G1 u eq_refl)). reflexivity.
  - destruct (is_block_level s); [|reflexivity]. destruct (s_replaced i); [reflexivity|]. unfold block_non_replaced_widthA. cbn [converted style_in_px st_width st_direction].
    destruct (st_width s) as [|u]; cbn [in_lenauto]; [reflexivity|]. rewrite (c_clamped s u w G (G1 u eq_refl)). reflexivity.
Qed.
Lemma c_height s i ph last h b : gs s -> (forall u, ph = Some u -> good u) ->
  calculate_heightA W s i ph last (ctx_of h) b = calculate_heightA E (cs s) i (option_map cv ph) last (ctx_of h) b.
Proof.
  intros G Gp. assert (G1 : forall m, st_height s = Len m -> good m) by (intros m H; apply G; unfold lengths_of; rewrite H, !in_app_iff; cbn [In of_lenauto]; tauto).
  assert (G2 : forall m, st_min_height s = Len m -> good m) by (intros m H; apply G; unfold lengths_of; rewrite H, !in_app_iff; cbn [In of_lenauto]; tauto).
  assert (G3 : forall m, st_max_height s = Some m -> good m) by (intros m H; apply G; unfold lengths_of; rewrite H, !in_app_iff; cbn [In of_option]; tauto).
  unfold calculate_heightA. change (is_float (cs s)) with (is_float s). change (is_abspos (cs s)) with (is_abspos s).
  change (is_inline (cs s)) with (is_inline s). change (is_block_level (cs s)) with (is_block_level s). change (is_inline_block (cs s)) with (is_inline_block s).
  destruct (is_float s); [reflexivity|]. destruct (is_abspos s); [reflexivity|]. destruct (is_inline s).
  - destruct (s_replaced i); [|reflexivity]. unfold inline_replaced_heightA. cbn [converted style_in_px st_width st_height].
    destruct (st_height s) as [|u]; cbn [in_lenauto]; [destruct (st_width s); reflexivity|]. rewrite (c_px h h u (G1 u eq_refl)). reflexivity.
  - destruct (is_block_level s); [|reflexivity]. destruct (s_replaced i); [reflexivity|]. unfold block_non_replaced_heightA, block_content_heightA. cbn [converted style_in_px st_height st_min_height st_max_height].
    destruct (st_height s) as [|u]; cbn [in_lenauto].
    + destruct last as [[lb|]|]; [reflexivity|reflexivity|]. destruct (st_min_height s) as [|m]; cbn [in_lenauto]; [reflexivity|]. rewrite (c_px h h m (G2 m eq_refl)). reflexivity.
    + assert (M : forall x, match st_max_height s with None => bret x | Some m => bbind (blift (a_px W (ctx_of h) m)) (fun mx => bret (if nltb mx x then mx else x)) end
        = match in_option px_f (somewhere d) (st_max_height s) with None => bret x | Some m => bbind (blift (a_px E (ctx_of h) m)) (fun mx => bret (if nltb mx x then mx else x)) end).
      { intros x. destruct (st_max_height s) as [m|]; cbn [in_option option_map]; [|reflexivity]. rewrite (c_px h h m (G3 m eq_refl)). reflexivity. }
      destruct ph as [pu|]; cbn [option_map].
      * rewrite (c_px h h pu (Gp pu eq_refl)). unfold bbind at 1 3 5 7. unfold bbind, blift. destruct (auto_top0 b) as [b1 [[]|e1]]; [|reflexivity]. destruct (auto_bottom0 b1) as [b2 [[]|e2]]; [|reflexivity].
        destruct (a_px E (ctx_of h) (cv pu)) as [p|e]; [|reflexivity]. cbn [c_disp c_font]. rewrite (c_px (LNum p) (LNum p) u (G1 u eq_refl)). destruct (a_px E (ctx_of (LNum p)) (cv u)) as [x|e]; [|reflexivity].
        specialize (M x). unfold bbind, blift in M. rewrite M. reflexivity.
      * rewrite (c_px h h u (G1 u eq_refl)). unfold bbind, blift. destruct (auto_top0 b) as [b1 [[]|e1]]; [|reflexivity]. destruct (auto_bottom0 b1) as [b2 [[]|e2]]; [|reflexivity].
        destruct (a_px E (ctx_of h) (cv u)) as [x|e]; [|reflexivity]. specialize (M x). unfold bbind, blift in M. rewrite M. reflexivity.
Qed.
Lemma c_rel sz st en cst ce : (forall u, In u (of_offset st ++ of_offset en) -> good u) ->
  rel_offsetA W (ctx_of sz) st en cst ce = rel_offsetA E (ctx_of sz) (in_offset px_f (somewhere d) st) (in_offset px_f (somewhere d) en) cst ce.
Proof.
  intros G. destruct st, en; cbn [rel_offsetA in_offset]; try reflexivity; rewrite (c_px sz sz) by (apply G; cbn; auto); reflexivity.
Qed.

(** ** Trees *)
Inductive fine : node -> Prop :=
| fine_node s i b ks : gs (sty s) -> (forall k, In k ks -> fine k) -> fine (Node s i b ks).
Lemma fine_inputs (n : node) : forall m, inputs m = inputs n -> fine n -> fine m.
Proof.
  induction n as [s i b ks IH] using node_ind'. intros [s' i' b' ks'] H F. cbn [inputs] in H. injection H as -> -> H. inversion F as [? ? ? ? G K]; subst. constructor; [exact G|].
  clear F. revert ks' H. induction ks as [|k ks IHk]; intros [|k' ks'] H k0 H0; try discriminate; [destruct H0|]. cbn [map] in H. injection H as H1 H2. destruct H0 as [<- |H0].
  - apply (IH k (or_introl eq_refl) _ H1), K. left. reflexivity.
  - apply (IHk (fun x I => IH x (or_intror I)) (fun x I => K x (or_intror I)) ks' H2 k0 H0).
Qed.
Lemma fine_style (n : node) : fine n -> gs (sty (n_style n)).
Proof. intros H. inversion H; assumption. Qed.
Definition gcb (cb : cblock (S := S)) : Prop := match cb with CBNode s _ => gs (sty s) | _ => True end.
Lemma mbind_at {X Y} (m m' : M (S := S) X) (f f' : X -> M Y) n :
  m n = m' n -> inputs (fst (m' n)) = inputs n -> (forall x n', inputs n' = inputs n -> f x n' = f' x n') -> mbind m f n = mbind m' f' n.
Proof. intros H P F. unfold mbind. rewrite H. destruct (m' n) as [n' [x|e]]; [apply F, P|reflexivity]. Qed.
Lemma c_width_m (cb : cblock (S := S)) (n : node) : fine n -> calculate_width_and_marginsA W sty (hctx d dummy_font cb) n = calculate_width_and_marginsA E sty' (hctx d dummy_font cb) n.
Proof. intros F. unfold calculate_width_and_marginsA. apply mbind_ext; [apply on_box_ext; intros b; apply c_width, fine_style, F|]. intros [l|] n'; reflexivity. Qed.
Lemma c_parent (cb : cblock (S := S)) : gcb cb -> forall u, cb_style_height sty cb = Some u -> good u.
Proof.
  destruct cb as [|s b]; cbn; [discriminate|]. intros G u. destruct (st_height (sty s)) as [|v] eqn:H; [discriminate|]. intros X. injection X as ->.
  apply G. unfold lengths_of. rewrite H, !in_app_iff. cbn [In of_lenauto]. tauto.
Qed.
Lemma c_height_m (cb : cblock (S := S)) (n : node) : gcb cb -> fine n -> calculate_height_and_marginsA W sty (vctx d dummy_font cb) cb n = calculate_height_and_marginsA E sty' (vctx d dummy_font cb) cb n.
Proof.
  intros C F. unfold calculate_height_and_marginsA. apply mbind_ext; [|intros v n'; reflexivity]. apply on_box_ext. intros b.
  replace (cb_style_height sty' cb) with (option_map cv (cb_style_height sty cb)); [apply c_height; [apply fine_style, F|apply c_parent, C]|].
  destruct cb as [|s c]; [reflexivity|]. cbn. destruct (st_height (sty s)); reflexivity.
Qed.
Lemma c_flow lay lay' ks : (forall b k, In k ks -> lay b k = lay' b k) -> forall pend b off bm,
  flowA W sty lay ks pend b off bm = flowA E sty' lay' ks pend b off bm.
Proof.
  induction ks as [|k ks IH]; intros L pend b off bm; [reflexivity|]. cbn [flowA]. change (is_block_level (cs (sty (n_style k)))) with (is_block_level (sty (n_style k))). destruct is_block_level.
  - destruct pend; [reflexivity|]. rewrite L by (left; reflexivity). destruct (lay' b k) as [k1 [u|e]]; [|reflexivity].
    change (place_childA W k1 b off bm) with (place_childA E k1 b off bm). destruct (place_childA E k1 b off bm) as [[k2 b2] [[o m]|e]]; [|reflexivity]. rewrite IH by (intros; apply L; right; assumption). reflexivity.
  - rewrite IH by (intros; apply L; right; assumption). reflexivity.
Qed.
Lemma c_all lay lay' (ks : list node) : (forall k, In k ks -> lay k = lay' k) -> lay_all lay ks = lay_all lay' ks.
Proof. intros L. induction ks as [|k ks IH]; [reflexivity|]. cbn [lay_all]. rewrite L by (left; reflexivity). rewrite IH by (intros; apply L; right; assumption). reflexivity. Qed.
Lemma c_children lay lay' (n : node) : fine n -> (forall cb k, gcb cb -> fine k -> lay cb k = lay' cb k) -> layout_childrenA W sty lay n = layout_childrenA E sty' lay' n.
Proof.
  intros F L. inversion F as [s i bx ks G K]; subst. destruct bx as [b|]; [|reflexivity]. cbn [layout_childrenA].
  change (establishes_inline sty' (Node s i (Some b) ks)) with (establishes_inline sty (Node s i (Some b) ks)). destruct establishes_inline.
  - rewrite (c_all _ (lay' (CBNode s b))); [reflexivity|]. intros k I. apply L; [exact G|apply K, I].
  - rewrite (c_flow _ (fun b0 => lay' (CBNode s b0))); [reflexivity|]. intros b' k I. apply L; [exact G|apply K, I].
Qed.
Lemma c_shift (cb : cblock (S := S)) (n : node) : fine n -> relative_shiftA W sty d dummy_font cb n = relative_shiftA E sty' d dummy_font cb n.
Proof.
  intros F. pose proof (fine_style n F) as G. unfold relative_shiftA. change (is_relative (cs (sty (n_style n)))) with (is_relative (sty (n_style n))). destruct is_relative; [|reflexivity].
  unfold hctx, vctx. rewrite !c_rel; [reflexivity|..]; intros u U; apply G; unfold lengths_of; rewrite !in_app_iff in *; tauto.
Qed.
Lemma c_layout_box fuel : forall cb (n : node), gcb cb -> fine n -> layout_boxA W sty fuel d dummy_font cb n = layout_boxA E sty' fuel d dummy_font cb n.
Proof.
  induction fuel as [|fuel IH]; intros cb n C F; [reflexivity|]. cbn [layout_boxA]. change (st_display (cs (sty (n_style n)))) with (st_display (sty (n_style n))).
  destruct (st_display (sty (n_style n))) eqn:D; [|reflexivity]. pose proof (stable_inputs sty') as ST. pose proof (fine_style n F) as G.
  change (is_relative (cs (sty (n_style n)))) with (is_relative (sty (n_style n))). change (is_abspos (cs (sty (n_style n)))) with (is_abspos (sty (n_style n))). change (is_float (cs (sty (n_style n)))) with (is_float (sty (n_style n))).
  apply mbind_at; [reflexivity| |].
  { transitivity (inputs (ensure_box n)); [|apply inputs_ensure]. unfold mset, ensure_boxA, ensure_box. destruct (n_box n); [reflexivity|]. rewrite ex_reset_self. reflexivity. }
  intros _ n1 I1. apply mbind_at; [apply on_box_ext; intros b; apply c_edges, G| |].
  { rewrite (on_box_ext (copy_edgesA E (cs (sty (n_style n))) (hctx d dummy_font cb) (vctx d dummy_font cb)) (copy_edges (cs (sty (n_style n))) (hctx d dummy_font cb) (vctx d dummy_font cb)) n1) by reflexivity.
    destruct n1 as [s1 i1 [b1|] k1]; cbn; [|reflexivity]. destruct (copy_edges _ _ _ b1); reflexivity. }
  intros _ n2 I2. apply mbind_at; [apply c_width_m, (fine_inputs n); [congruence|exact F]|rewrite ex_width_m; apply (mkeeps_width sty' _ ST)|].
  intros _ n3 I3. apply mbind_at; [destruct is_relative; [apply c_height_m; [exact C|apply (fine_inputs n); [congruence|exact F]]|reflexivity]|destruct is_relative; [rewrite ex_height_m; apply (mkeeps_height sty' _ ST)|reflexivity]|].
  intros _ n4 I4. apply mbind_at.
  { destruct is_abspos; [reflexivity|]. destruct is_float; [reflexivity|]. apply c_children; [apply (fine_inputs n); [congruence|exact F]|exact IH]. }
  { destruct is_abspos; [reflexivity|]. destruct is_float; [reflexivity|]. rewrite (ex_children sty' _ (layout_box sty' fuel d dummy_font)) by (intros; apply ex_layout_box).
    apply (children_R sty' _ ST (layout_box sty' fuel d dummy_font) n4).
    - intros cb' m. apply (layout_box_R sty' _ ST fuel d dummy_font cb' m). intros a b X. apply (inputs_style b a X).
    - assert (X : inputs n4 = inputs n) by congruence. apply inputs_style in X. destruct X as [-> _]. cbn. congruence. }
  intros _ n5 I5. apply mbind_at; [apply c_height_m; [exact C|apply (fine_inputs n); [congruence|exact F]]|rewrite ex_height_m; apply (mkeeps_height sty' _ ST)|].
  intros _ n6 I6. apply c_shift, (fine_inputs n); [congruence|exact F].
Qed.
Lemma c_layout h5 (n : node) : fine n -> layoutA W sty d h5 n = layout sty' d h5 n.
Proof.
  intros F. rewrite <- ex_layout. unfold layoutA. destruct (n_box n); [|reflexivity]. apply mbind_at; [reflexivity|apply inputs_reset|]. intros _ n1 I1.
  unfold mbind. rewrite c_layout_box; [|exact I|apply (fine_inputs n); assumption]. reflexivity.
Qed.
End Conv.

(** ** Which documents can be laid out *)
Lemma xmul_fin x y q : xmul x y = Fin q -> exists p, x = Fin p.
Proof.
  destruct x as [p|s|]; [eauto| |]; unfold xmul; destruct y as [z|t|]; try discriminate. destruct (qc_eqb z 0); discriminate.
Qed.
Lemma rnd_fin x q : rnd x = Fin q -> exists p, x = Fin p.
Proof. destruct x; cbn [rnd]; [eauto|discriminate|discriminate]. Qed.
Lemma fmul_fin a b r : fmul a b = Ok r -> finite r = true -> finite a = true.
Proof.
  destruct a as [z|x]; [reflexivity|]. intros H F. assert (X : exists y, r = PF (rnd (xmul x y))).
  { unfold fmul in H. cbn [to_float bindr] in H. destruct (to_float b) as [y|e] eqn:B; destruct b; cbn [bindr] in H; try rewrite B in H; try discriminate; cbn [bindr] in H; injection H as <-; eauto. }
  destruct X as [y ->]. cbn [finite] in F. destruct (rnd (xmul x y)) as [q| |] eqn:R; try discriminate F. destruct (rnd_fin _ _ R) as [p P]. destruct (xmul_fin _ _ _ P) as [p' ->]. reflexivity.
Qed.
Lemma fdiv_fin a k r : fdiv_int a k = Ok r -> finite r = true -> finite a = true.
Proof.
  destruct a as [z|[x| |]]; try reflexivity; cbn; intros H F; injection H as <-; discriminate F.
Qed.
Lemma fround_fin a z : fround a = Ok z -> finite a = true.
Proof. destruct a as [y|[x| |]]; try reflexivity; discriminate. Qed.
Lemma converts_measurable d u x known : u_kind u <> KPct -> px_f (somewhere d) u = Ok x -> measurable known u = true.
Proof.
  intros K H. unfold px_f in H. destruct (lu_f (somewhere d) u) as [z|e] eqn:L; [|discriminate]. clear H. unfold measurable. unfold lu_f in L.
  destruct (u_kind u) as [|s|s sc|s sc| |s t]; try contradiction; try discriminate L;
    (destruct (fmul (PI LU_PER_PIXEL) (u_val u)) as [a|e] eqn:M; [|discriminate L]); cbn [bindr] in L;
    (assert (Fa : finite a = true -> finite (u_val u) = true) by (intros Fa; destruct (u_val u) as [y|[y| |]]; try reflexivity; exfalso; cbn in M; injection M as <-; discriminate Fa)).
  - rewrite (Fa (fround_fin _ _ L)). reflexivity.
  - destruct (font_attr_f (c_font (somewhere d)) s) as [f|e] eqn:E1; [|discriminate L]. cbn [bindr] in L. destruct (fdiv_int f 72) as [g|e]; [|discriminate L]. cbn [bindr] in L.
    destruct (fmul a g) as [b|e] eqn:E3; [|discriminate L]. cbn [bindr] in L. destruct (fmul b _) as [r|e] eqn:E4; [|discriminate L]. cbn [bindr] in L.
    rewrite (Fa (fmul_fin _ _ _ E3 (fmul_fin _ _ _ E4 (fround_fin _ _ L)))). unfold font_attr_f in E1.
    destruct (String.eqb s "em"); [reflexivity|]. destruct (String.eqb s "ex"); [reflexivity|]. destruct (String.eqb s "ch"); [reflexivity|discriminate E1].
  - destruct (fdiv_int _ 72) as [g|e]; [|discriminate L]. cbn [bindr] in L.
    destruct (fmul a g) as [b|e] eqn:E3; [|discriminate L]. cbn [bindr] in L. destruct (fmul b _) as [r|e] eqn:E4; [|discriminate L]. cbn [bindr] in L.
    rewrite (Fa (fmul_fin _ _ _ E3 (fmul_fin _ _ _ E4 (fround_fin _ _ L)))). reflexivity.
  - destruct (fmul a _) as [b|e] eqn:E3; [|discriminate L]. cbn [bindr] in L. destruct (fdiv_int b 100) as [r|e] eqn:E4; [|discriminate L]. cbn [bindr] in L.
    rewrite (Fa (fmul_fin _ _ _ E3 (fdiv_fin _ _ _ E4 (fround_fin _ _ L)))). reflexivity.
Qed.
Section Fits.
Context {S : Type} (sty : S -> style) (d : display_t).
Notation node := (node S).
Notation cv := (in_px px_f (somewhere d)).
Notation cs := (converted d).
Notation sty' := (fun s => converted d (sty s)).
Notation good := (good d).
Notation gs := (gs d).
Notation fine := (fine sty d).
Lemma m_len known u : good u -> measurable known (cv u) = measurable known u.
Proof. intros (K & x & H). rewrite (converts_measurable d u x known K H). unfold in_px. rewrite H. destruct x; reflexivity. Qed.
Lemma m_auto known v : (forall u, In u (of_lenauto v) -> good u) -> measurable_or_auto known (in_lenauto px_f (somewhere d) v) = measurable_or_auto known v.
Proof. destruct v; intros G; [reflexivity|]. apply m_len, G. left. reflexivity. Qed.
Lemma m_border known v : (forall u, In u (of_border v) -> good u) -> measurable_border known (in_border px_f (somewhere d) v) = measurable_border known v.
Proof. destruct v; intros G; [reflexivity|]. apply m_len, G. left. reflexivity. Qed.
Lemma m_any known v : (forall u, In u (of_option v) -> good u) -> measurable_if_any known (in_option px_f (somewhere d) v) = measurable_if_any known v.
Proof. destruct v; intros G; [|reflexivity]. apply m_len, G. left. reflexivity. Qed.
Definition conv_around (a : around) : around := mkAround (w_known a) (h_known a) (is_display a) (option_map cv (spec_h a)).
Definition ga (a : around) : Prop := forall u, spec_h a = Some u -> good u.
Ltac here G := let u := fresh in let Hu := fresh in intros u Hu; apply G; unfold lengths_of; rewrite !in_app_iff; tauto.
Ltac len G := apply G; unfold lengths_of; rewrite !in_app_iff; cbn [In]; tauto.
Lemma m_edges a s : gs s -> edges_ok (conv_around a) (cs s) = edges_ok a s.
Proof.
  intros G. unfold edges_ok. cbn [forallb converted style_in_px conv_around w_known h_known st_margin_left st_margin_right st_margin_top st_margin_bottom st_border_top st_border_bottom st_border_left st_border_right st_padding_top st_padding_bottom st_padding_left st_padding_right].
  rewrite !m_auto, !m_border, !m_len; [reflexivity|..]; try (len G); here G.
Qed.
Lemma m_offsets a known x y : (forall u, In u (of_offset x ++ of_offset y) -> good u) ->
  offsets_ok (conv_around a) known (in_offset px_f (somewhere d) x) (in_offset px_f (somewhere d) y) = offsets_ok a known x y.
Proof. intros G. destruct x, y; cbn [offsets_ok in_offset]; try reflexivity; apply m_len, G; cbn; auto. Qed.
Lemma m_width a kd s i : gs s -> width_ok (conv_around a) kd (cs s) i = width_ok a kd s i.
Proof.
  intros G. assert (G1 : forall m, st_width s = Len m -> good m) by (intros m H; apply G; unfold lengths_of; rewrite H, !in_app_iff; cbn [In of_lenauto]; tauto).
  unfold width_ok. cbn [converted style_in_px conv_around w_known h_known st_width st_height st_max_width st_min_width]. destruct kd; [| |reflexivity].
  - rewrite m_any, m_auto by here G. destruct (st_width s); cbn [in_lenauto]; [reflexivity|]. rewrite m_len by (apply G1; reflexivity). reflexivity.
  - destruct (st_width s), (st_height s); cbn [in_lenauto]; try reflexivity; rewrite m_len by (apply G1; reflexivity); reflexivity.
Qed.
Lemma m_height a kd s last : gs s -> ga a -> height_ok (conv_around a) kd (cs s) last = height_ok a kd s last.
Proof.
  intros G Ga. assert (G1 : forall m, st_height s = Len m -> good m) by (intros m H; apply G; unfold lengths_of; rewrite H, !in_app_iff; cbn [In of_lenauto]; tauto).
  unfold height_ok. cbn [converted style_in_px conv_around w_known h_known spec_h st_height st_min_height st_max_height st_margin_top]. rewrite m_any, m_auto by here G.
  destruct kd; destruct (st_height s) as [|u]; cbn [in_lenauto]; try (destruct (st_margin_top s); reflexivity); try reflexivity.
  - unfold ga in Ga. destruct (spec_h a) as [pu|]; cbn [option_map]; rewrite !m_len; try reflexivity; first [apply G1; reflexivity|apply Ga; reflexivity].
  - rewrite m_len by (apply G1; reflexivity). reflexivity.
Qed.
Lemma m_can_lay (n : node) : forall a, fine n -> ga a -> can_lay sty' (conv_around a) n = can_lay sty a n.
Proof.
  induction n as [s i b ks IH] using node_ind'. intros a F Ga. inversion F as [? ? ? ? G K]; subst. cbn [can_lay].
  change (st_display (cs (sty s))) with (st_display (sty s)). destruct (st_display (sty s)) as [dk|]; [|reflexivity].
  change (kind_of (cs (sty s)) i) with (kind_of (sty s) i). destruct (kind_of (sty s) i) as [kd|]; [|reflexivity].
  change (relative (cs (sty s))) with (relative (sty s)). change (block_child sty') with (block_child sty). change (blocks_first sty') with (blocks_first sty). change (last_sized sty') with (last_sized sty).
  set (inner := mkAround (width_known kd i) _ false (match st_height (sty s) with Auto => None | Len u => Some u end)).
  replace (mkAround (width_known kd i) (if relative (sty s) then height_known kd i else true) false (match st_height (cs (sty s)) with Auto => None | Len u => Some u end)) with (conv_around inner)
    by (unfold conv_around, inner; cbn; destruct (st_height (sty s)); reflexivity).
  assert (Gi : ga inner).
  { intros u. unfold inner. cbn. destruct (st_height (sty s)) as [|v] eqn:Hh; [discriminate|]. intros X. injection X as <-. apply G. unfold lengths_of. rewrite Hh, !in_app_iff. cbn [In of_lenauto]. tauto. }
  assert (X : forall k, In k ks -> can_lay sty' (conv_around inner) k = can_lay sty inner k) by (intros k Hk; apply IH; [exact Hk|apply K, Hk|exact Gi]).
  assert (A1 : forallb (can_lay sty' (conv_around inner)) ks = forallb (can_lay sty inner) ks).
  { clear -X. induction ks as [|k ks IHk]; [reflexivity|]. cbn [forallb]. rewrite X by (left; reflexivity). rewrite IHk by (intros; apply X; right; assumption). reflexivity. }
  assert (A2 : forallb (fun k => if block_child sty k then can_lay sty' (conv_around inner) k else true) ks = forallb (fun k => if block_child sty k then can_lay sty inner k else true) ks).
  { clear -X. induction ks as [|k ks IHk]; [reflexivity|]. cbn [forallb]. rewrite X by (left; reflexivity). rewrite IHk by (intros; apply X; right; assumption). reflexivity. }
  rewrite A1, A2. rewrite m_edges, m_width, !m_height by assumption. cbn [converted style_in_px st_left st_right st_top st_bottom]. cbn [conv_around w_known h_known] in *.
  rewrite !(m_offsets a); [reflexivity|..]; intros u U; apply G; unfold lengths_of; rewrite !in_app_iff in *; tauto.
Qed.
Lemma m_can_lay_out (n : node) : fine n -> can_lay_out sty' n = can_lay_out sty n.
Proof.
  intros F. unfold can_lay_out. f_equal. apply (m_can_lay n (mkAround true true true None) F). intros u X. discriminate X.
Qed.

Lemma converts_fine B (n : node) : absolute_document sty d B n -> converts sty d n -> fine n.
Proof.
  induction n as [s i b ks IH] using node_ind'. intros A C. constructor.
  - intros u U. split; [apply (proj1 (proj1 (A [] _ eq_refl)) u U)|apply (C [] _ u eq_refl U)].
  - intros k Hk. apply IH; [exact Hk|apply (absolute_kid sty d B s i b ks k A Hk)|]. intros p m u H. destruct (In_nth_error _ _ Hk) as [j Hj].
    apply (C (j :: p)). cbn [get_path n_kids]. rewrite Hj. exact H.
Qed.

(** C191: in Python's floats such a document is laid out exactly like the
    document with its lengths in px -- the same boxes, and the same exception. *)
Theorem C191_outcome h5 B (n : node) :
  (300 <= B)%Q -> measured_display d -> plain_display B d ->
  measured n -> no_stale_boxes n -> measured_sizes n -> absolute_document sty d B n -> converts sty d n -> room B n ->
  layoutA float_arith sty d h5 n = layout (fun s => converted d (sty s)) d h5 n.
Proof.
  intros HB Md Pd Me St Z A C R. pose proof (absolute_modelled sty d B h5 n HB Pd A St R) as NU. pose proof (proj2 (gtree_measured n) (conj Me Z)) as G.
  destruct (s_layout _ _ rounded_checks rounded_conforms sty d h5 n Md G) as [E|E1]; [contradiction|].
  destruct (s_layout _ _ rounded_checks mixed_conforms sty d h5 n Md G) as [E|E2]; [contradiction|].
  rewrite <- E1, E2. apply c_layout. exact (converts_fine B n A C).
Qed.
(** C191: and it can be laid out exactly if, in exact arithmetic, the document as written can. *)
Theorem C191_succeeds h5 B (n : node) :
  (300 <= B)%Q -> measured_display d -> plain_display B d ->
  brand_new n -> measured_sizes n -> absolute_document sty d B n -> converts sty d n -> room B n ->
  ((exists out, layoutA float_arith sty d h5 n = (out, Ok tt)) <-> (exists out, layout sty d h5 n = (out, Ok tt))).
Proof.
  intros HB Md Pd N Z A C R. rewrite (C191_outcome h5 B n HB Md Pd (new_measured n N) (new_stale n N) Z A C R).
  rewrite (C123_exactly_when sty' d h5 n (history_new _ n N)), (C123_exactly_when sty d h5 n (history_new _ n N)). rewrite (m_can_lay_out n (converts_fine B n A C)). reflexivity.
Qed.
End Fits.

(** ** Examples: the document of C186, and one whose last child is a word of
    unknown height, which has no layout *)
Definition convert_check (d : display_t) (u : unit_) : bool := match px_f (somewhere d) u with Ok _ => true | Err _ => false end.
Lemma converts_checked d (s : style) : forallb (convert_check d) (lengths_of s) = true -> forall u, In u (lengths_of s) -> exists x, px_f (somewhere d) u = Ok x.
Proof. intros H u Hu. rewrite forallb_forall in H. specialize (H u Hu). unfold convert_check in H. destruct (px_f (somewhere d) u) as [x|]; [eauto|discriminate]. Qed.
Example C191_example : brand_new a_doc /\ converts idsty screen a_doc /\ layoutA float_arith idsty screen true a_doc = layout (fun s => converted screen s) screen true a_doc
  /\ exists out, layout idsty screen true a_doc = (out, Ok tt).
Proof.
  destruct C186_example as (Md & P & N & Z & A & R & _). assert (C : converts idsty screen a_doc).
  { intros [|j p] m u H; [injection H as <-; apply converts_checked; vm_compute; reflexivity|].
    destruct j as [|[|j]]; try discriminate H. destruct p as [|[|j] p]; try discriminate H. injection H as <-; apply converts_checked; vm_compute; reflexivity. }
  assert (HB : (300 <= 1000)%Q) by discriminate. pose proof (C191_outcome idsty screen true 1000 a_doc HB Md P (new_measured _ N) (new_stale _ N) Z A C R) as E.
  split; [exact N|]. split; [exact C|]. split; [exact E|].
  apply (C191_succeeds idsty screen true 1000 a_doc HB Md P N Z A C R). exists a_out. vm_compute. reflexivity.
Qed.
Definition f_kid : doc := el (s_display (Some DInline) block_style) [].
Definition f_doc : doc := el (s_padding zero_px zero_px zero_px (mkU (KAbs "mm" (qfrac 283465 100000)) (PI 3)) block_style) [f_kid].
Lemma f_sizes : gtree f_doc.
Proof.
  assert (Z0 : gsize size0) by (repeat split; discriminate).
  assert (B0 : forall b, Some box0 = Some b -> gbox b) by (intros b E; injection E as <-; apply gbox0).
  constructor; [exact Z0|exact B0|]. intros k [<- | []]. constructor; [exact Z0|exact B0|]. intros k [].
Qed.
Example C191_fails_example : brand_new f_doc /\ measured_sizes f_doc /\ absolute_document idsty screen 1000 f_doc /\ converts idsty screen f_doc /\ room 1000 f_doc
  /\ snd (layoutA float_arith idsty screen true f_doc) = Err TypeError
  /\ layoutA float_arith idsty screen true f_doc = layout (fun s => converted screen s) screen true f_doc
  /\ ~ exists out, layout idsty screen true f_doc = (out, Ok tt).
Proof.
  destruct C186_example as (Md & P & _). assert (N : brand_new f_doc) by (constructor; intros k [<- | []]; constructor; intros k []).
  assert (Z : measured_sizes f_doc) by apply (proj1 (gtree_measured f_doc) f_sizes).
  assert (A : absolute_document idsty screen 1000 f_doc).
  { assert (S0 : plain_size 1000 size0) by (split; [|split]; [intros x E; discriminate E..|reflexivity]).
    assert (F : forall s : style, forallb (absolute_check screen 1000) (lengths_of s) = true -> forall u, In u (lengths_of s) -> absolute_length screen 1000 u).
    { intros s H u Hu. apply absolute_checked. rewrite forallb_forall in H. apply H, Hu. }
    intros [|j p] m H; [injection H as <-; split; [|exact S0]; split; [apply F; vm_compute; reflexivity|repeat split; discriminate]|].
    destruct j as [|[|j]]; try discriminate H. destruct p as [|[|j] p]; try discriminate H.
    injection H as <-; split; [|exact S0]; split; [apply F; vm_compute; reflexivity|repeat split; discriminate]. }
  assert (C : converts idsty screen f_doc).
  { intros [|j p] m u H; [injection H as <-; apply converts_checked; vm_compute; reflexivity|].
    destruct j as [|[|j]]; try discriminate H. destruct p as [|[|j] p]; try discriminate H. injection H as <-; apply converts_checked; vm_compute; reflexivity. }
  assert (R : room 1000 f_doc) by (apply Qle_bool_iff; vm_compute; reflexivity).
  assert (HB : (300 <= 1000)%Q) by discriminate. assert (X : snd (layoutA float_arith idsty screen true f_doc) = Err TypeError) by (vm_compute; reflexivity).
  split; [exact N|]. split; [exact Z|]. split; [exact A|]. split; [exact C|]. split; [exact R|]. split; [exact X|].
  split; [exact (C191_outcome idsty screen true 1000 f_doc HB Md P (new_measured _ N) (new_stale _ N) Z A C R)|].
  intros Y. apply (C191_succeeds idsty screen true 1000 f_doc HB Md P N Z A C R) in Y. destruct Y as [out Y]. rewrite Y in X. discriminate X.
Qed.
Print Assumptions C191_outcome.
Print Assumptions C191_succeeds.
