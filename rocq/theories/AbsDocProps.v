(** * Documents without percentages, in Python's floats (C186) *)
From Coq Require Import ZArith QArith Qcanon Qabs Lqa Lia Bool String List.
From Verif Require Import PyNum NumFacts Float64 Units UnitsSpec FloatUnits FloatSpec FloatProps BoxModel BoxSpec BoxFacts Engine EngineSpec EngineInv
  EngineArith EngineArithFacts EngineFSpec EngineFBound EngineGSpec EngineGrid EngineGProps EngineExamples RefLayout RefProps MoveProps HistSpec PixelFacts PixelProps
  PyPageProps PixelSpec AbsDocSpec.
Import ListNotations.

(** ** Conversion of a length that is no percentage *)
Lemma px_f_modelled c u : px_f c u <> Err Unmodelled.
Proof.
  unfold px_f. destruct (lu_f c u) as [k|e] eqn:E; cbn [bindr].
  - cbn [fdiv_int]. destruct (int_div k 64) as [v|s|]; cbn [bindr]; discriminate.
  - intros X. injection X as ->. revert E. unfold lu_f.
    assert (T : forall p, to_float p <> Err Unmodelled).
    { intros [z|x]; cbn; [|discriminate]. unfold float_of_int. destruct (b64 _); discriminate. }
    assert (M : forall a b, fmul a b <> Err Unmodelled).
    { intros a b. unfold fmul. destruct a, b; try discriminate.
      all: match goal with |- context [to_float (PI ?z)] => specialize (T (PI z)); destruct (to_float (PI z)) as [?|e]; cbn [bindr] | _ => idtac end;
        cbn [to_float bindr]; try discriminate; intros X; injection X as ->; apply T; reflexivity. }
    assert (R : forall a, fround a <> Err Unmodelled) by (intros [z|[q|s|]]; discriminate).
    assert (D : forall a k, fdiv_int a k <> Err Unmodelled) by (intros [z|x] k; cbn; [destruct (int_div z k)|]; discriminate).
    assert (DF : forall a k, fdiv_float a k <> Err Unmodelled).
    { intros a k. unfold fdiv_float. specialize (T a). destruct (to_float a); cbn [bindr]; [discriminate|]. intros X; injection X as ->. apply T. reflexivity. }
    assert (BD : forall X Y (r : res X) (f : X -> res Y), r <> Err Unmodelled -> (forall a, f a <> Err Unmodelled) -> bindr r f <> Err Unmodelled).
    { intros X Y [a|e] f H1 H2; cbn [bindr]; [apply H2|]. intros Z. injection Z as ->. apply H1. reflexivity. }
    destruct (u_kind u); try discriminate; (apply BD; [apply M|]); intros a; repeat first [apply R | apply BD; [first [apply M|apply D|apply DF|idtac]|intros]].
    + unfold font_attr_f. destruct String.eqb; [discriminate|]. destruct String.eqb; [apply M|]. destruct String.eqb; [apply M|discriminate].
    + destruct (c_size c); cbn; discriminate.
Qed.
Lemma absolute_anywhere d u sz : u_kind u <> KPct -> px_f (mkCtx d dummy_font sz) u = px_f (somewhere d) u.
Proof. intros H. unfold px_f, lu_f. destruct (u_kind u); try reflexivity. contradiction. Qed.
Lemma absolute_bound d B sz u : absolute_length d B u -> okr (at_most B) (px_f (mkCtx d dummy_font sz) u).
Proof.
  intros [K H]. rewrite (absolute_anywhere d u sz K). pose proof (px_f_modelled (somewhere d) u) as M.
  destruct (px_f (somewhere d) u) as [x|e]; cbn [okr]; [apply H; reflexivity|]. intros ->. apply M. reflexivity.
Qed.

Section Abs.
Context {S : Type} (sty : S -> style).
Notation node := (node S).
Notation self := (fun s : style => s).

(** Nothing computed on the way is too large. *)
Lemma absolute_modelled d B h5 (n : node) : (300 <= B)%Q -> plain_display B d -> absolute_document sty d B n -> no_stale_boxes n -> room B n ->
  snd (layoutA rounded_arith sty d h5 n) <> Err Unmodelled.
Proof. exact (gen_checked px_f absolute_length absolute_bound sty d B h5 n). Qed.

(** The document with other styles. *)
Fixpoint restyled (f : S -> style) (n : node) : BoxModel.node style :=
  let 'Node s i b ks := n in Node (f s) i b (map (restyled f) ks).
Lemma in_px_same d u c : (exists sz, c = mkCtx d dummy_font sz) -> u_kind u <> KPct -> in_px px_f c u = in_px px_f (somewhere d) u.
Proof. intros [sz ->] K. unfold in_px. rewrite (absolute_anywhere d u sz K). reflexivity. Qed.
Ltac here K := let u := fresh in let Hu := fresh in intros u Hu; apply K; unfold lengths_of; rewrite !in_app_iff; tauto.
Ltac here1 K := apply K; unfold lengths_of; rewrite !in_app_iff; cbn [In]; tauto.
Lemma style_same d B s hz vt hh : absolute_style d B s -> (exists sz, hz = mkCtx d dummy_font sz) -> (exists sz, vt = mkCtx d dummy_font sz) ->
  (exists sz, hh = mkCtx d dummy_font sz) -> style_in_px px_f hz vt hh s = converted d s.
Proof.
  intros [A _] H1 H2 H3. unfold converted, style_in_px.
  assert (K : forall u, In u (lengths_of s) -> u_kind u <> KPct) by (intros u Hu; apply (A u Hu)). clear A.
  assert (LA : forall c v, (exists sz, c = mkCtx d dummy_font sz) -> (forall u, In u (of_lenauto v) -> u_kind u <> KPct) -> in_lenauto px_f c v = in_lenauto px_f (somewhere d) v).
  { intros c [|u] Hc Hu; [reflexivity|]. cbn. f_equal. apply in_px_same; [exact Hc|]. apply Hu. left. reflexivity. }
  assert (LO : forall c v, (exists sz, c = mkCtx d dummy_font sz) -> (forall u, In u (of_option v) -> u_kind u <> KPct) -> in_option px_f c v = in_option px_f (somewhere d) v).
  { intros c [u|] Hc Hu; [|reflexivity]. cbn. f_equal. apply in_px_same; [exact Hc|]. apply Hu. left. reflexivity. }
  assert (LB : forall c v, (exists sz, c = mkCtx d dummy_font sz) -> (forall u, In u (of_border v) -> u_kind u <> KPct) -> in_border px_f c v = in_border px_f (somewhere d) v).
  { intros c [k|u] Hc Hu; [reflexivity|]. cbn. f_equal. apply in_px_same; [exact Hc|]. apply Hu. left. reflexivity. }
  assert (LF : forall c v, (exists sz, c = mkCtx d dummy_font sz) -> (forall u, In u (of_offset v) -> u_kind u <> KPct) -> in_offset px_f c v = in_offset px_f (somewhere d) v).
  { intros c [| |u] Hc Hu; [reflexivity|reflexivity|]. cbn. f_equal. apply in_px_same; [exact Hc|]. apply Hu. left. reflexivity. }
  rewrite (LA hz (st_width s) H1) by (here K).
  rewrite (LA hh (st_height s) H3) by (here K).
  rewrite (LA hz (st_min_width s) H1) by (here K).
  rewrite (LA vt (st_min_height s) H2) by (here K).
  rewrite (LO hz (st_max_width s) H1) by (here K).
  rewrite (LO vt (st_max_height s) H2) by (here K).
  rewrite (LA vt (st_margin_top s) H2) by (here K).
  rewrite (LA hz (st_margin_right s) H1) by (here K).
  rewrite (LA vt (st_margin_bottom s) H2) by (here K).
  rewrite (LA hz (st_margin_left s) H1) by (here K).
  rewrite (in_px_same d (st_padding_top s) hz H1) by (here1 K).
  rewrite (in_px_same d (st_padding_right s) vt H2) by (here1 K).
  rewrite (in_px_same d (st_padding_bottom s) hz H1) by (here1 K).
  rewrite (in_px_same d (st_padding_left s) vt H2) by (here1 K).
  rewrite (LB hz (st_border_top s) H1) by (here K).
  rewrite (LB vt (st_border_right s) H2) by (here K).
  rewrite (LB hz (st_border_bottom s) H1) by (here K).
  rewrite (LB vt (st_border_left s) H2) by (here K).
  rewrite (LF vt (st_top s) H2) by (here K).
  rewrite (LF hz (st_right s) H1) by (here K).
  rewrite (LF vt (st_bottom s) H2) by (here K).
  rewrite (LF hz (st_left s) H1) by (here K).
  reflexivity.
Qed.
Lemma absolute_kid d B s i b ks k : absolute_document sty d B (Node s i b ks) -> In k ks -> absolute_document sty d B k.
Proof. intros A Hk p m H. destruct (In_nth_error _ _ Hk) as [j Hj]. apply (A (j :: p)). cbn [get_path n_kids]. rewrite Hj. exact H. Qed.
Lemma in_pixels_absolute d B (n : node) : forall op out m, absolute_document sty d B n -> in_pixels px_f d sty op n out m -> forget m = forget n ->
  m = restyled (fun s => converted d (sty s)) n.
Proof.
  induction n as [s i b ks IH] using node_ind'. intros op out m A P F. inversion P as [op0 s0 i0 b0 ks0 out0 b1 ms X]; subst.
  cbn [forget restyled] in *. injection F as -> F. f_equal.
  - apply (style_same d B); [apply (A [] _ eq_refl)|unfold width_ctx; eauto|unfold height_ctx; eauto|eauto].
  - assert (Ak : forall k, In k ks -> absolute_document sty d B k) by (intros k; apply (absolute_kid d B s i b ks k A)).
    clear A P. revert IH Ak F. generalize (n_kids out) X. intros os X'. clear X.
    set (R := in_pixels px_f d sty (Some out)) in *.
    induction X' as [|k o m' ks os ms Hk X' IHX]; intros IH Ak F; [reflexivity|]. cbn [map] in *. injection F as F1 F2. f_equal.
    + apply (IH k (or_introl eq_refl) _ _ _ (Ak k (or_introl eq_refl)) Hk F1).
    + apply IHX; [intros k0 H0; apply IH; right; exact H0|intros k0 H0; apply Ak; right; exact H0|exact F2].
Qed.
Lemma format_restyled (f : S -> style) d (n : node) : forall a, format self d a (restyled f n) = format f d a n.
Proof.
  induction n as [s i b ks IH] using node_ind'. intros a. cbn [restyled]. rewrite !format_split. destruct (st_display (f s)) as [dk|]; [|reflexivity].
  assert (St : stacks_ self dk (map (restyled f) ks) = stacks_ f dk ks).
  { unfold stacks_. destruct dk; try reflexivity; (clear IH; induction ks as [|[s1 i1 b1 k1] ks IHk]; [reflexivity|cbn [map existsb restyled n_style]; rewrite IHk; reflexivity]). }
  rewrite St. f_equal. generalize (inner_of d a dk (f s) i) (stacks_ f dk ks). intros ar st.
  assert (M : map (laid_kid self d ar st) (map (restyled f) ks) = map (laid_kid f d ar st) ks).
  { rewrite map_map. apply map_ext_in. intros k Hk. unfold laid_kid. rewrite (IH k Hk). destruct k; reflexivity. }
  unfold kids_of. rewrite M. reflexivity.
Qed.
Lemma boxed_restyled (f : S -> style) (n : node) : boxed n -> boxed (restyled f n).
Proof.
  induction 1 as [s i b ks K IH]. cbn [restyled]. constructor. intros k Hk. apply in_map_iff in Hk. destruct Hk as (k0 & <- & H0). apply IH, H0.
Qed.
(** The boxes are all that matters for being laid out as some page. *)
Lemma laid_forget {X Y} (n : BoxModel.node X) : forall (m : BoxModel.node Y) x y t, forget m = forget n -> laid_out_as x y n t -> laid_out_as x y m t.
Proof.
  induction n as [s i b ks IH] using node_ind'. intros [s' i' b' ks'] x y t F H. cbn [forget] in F. injection F as -> -> F.
  inversion H as [x0 y0 s0 i0 b0 ks0 u us Hu Ho1 Ho2 Hs|x0 y0 s0 i0 ks0|x0 y0 n0 Hn]; subst.
  - constructor; try assumption; [reflexivity|reflexivity|]. revert ks' F. clear H Hu. induction Hs as [|k t ks us H1 Hs IHs]; intros [|k' ks'] F; try discriminate; constructor.
    + injection F as F1 F2. apply (IH k (or_introl eq_refl)); assumption.
    + injection F as F1 F2. apply IHs; [|exact F2]. intros k0 H0. apply IH. right. exact H0.
  - constructor.
  - constructor. exact Hn.
Qed.

(** C186: the boxes Python computes are exactly the reference layout of the document in which
    every length is replaced by the pixels of its conversion in floats. *)
Theorem C186_page d h5 B (n out : node) :
  (300 <= B)%Q -> measured_display d -> plain_display B d ->
  brand_new n -> measured_sizes n -> absolute_document sty d B n -> room B n ->
  (h5 = false \/ is_relative (sty (n_style n)) = false) ->
  layoutA float_arith sty d h5 n = (out, Ok tt) ->
  laid_out_as 0 0 out (page (fun s => converted d (sty s)) d h5 n).
Proof.
  intros HB Md Pd N Z A R H5 L.
  pose proof (absolute_modelled d B h5 n HB Pd A (new_stale n N) R) as NU.
  destruct (C140_rounded_document sty d h5 n out Md Z (new_measured n N) (boxed_ready' sty n (new_boxed n N)) H5 NU L) as [(m & Hm & Fm) H].
  destruct (H m Hm Fm) as (out' & L' & F'). rewrite (in_pixels_absolute d B n None out m A Hm Fm) in L'.
  pose proof (boxed_restyled (fun s => converted d (sty s)) n (new_boxed n N)) as Bx.
  pose proof (C112_every_layout_is_the_reference self d h5 _ out' (boxed_ready' self _ Bx) (or_introl Bx) L') as P.
  unfold page in P. rewrite format_restyled in P. apply (laid_forget out' out 0 0 _ (eq_sym F') P).
Qed.
End Abs.

(** C186: such a conversion is within half a layout unit, and a rounding error, of the length written. *)
Theorem C186_near d u q : exact_px (somewhere d) u q -> ordinary_inputs (somewhere d) u -> (Qabs (this q) <= qpow2 42)%Q ->
  exists p, in_px px_f (somewhere d) u = pixels p /\ on_grid (nval p)
    /\ (Qabs (this (nval p) - this q) <= (1 # 128) + qpow2 (-49) * Qabs (this q))%Q.
Proof.
  intros X O L. destruct (C109_float_conversion (somewhere d) u q X O L) as (p & E & G & N & _).
  exists p. unfold in_px. rewrite E. auto.
Qed.

(** ** Example: a block of 2in, 40vh and a padding of 3mm in a block with a margin of 1.5em
    (-2px, since engine.py:83 lays out with the font size -1) *)
Definition absolute_check (d : display_t) (B : Q) (u : unit_) : bool :=
  match u_kind u with KPct => false | _ => match px_f (somewhere d) u with Ok x => Qle_bool (Qabs (this (nval x))) B | Err _ => true end end.
Lemma absolute_checked d B u : absolute_check d B u = true -> absolute_length d B u.
Proof.
  unfold absolute_check, absolute_length. intros H. split; [destruct (u_kind u); discriminate|]. intros x E. rewrite E in H.
  unfold at_most. apply Qle_bool_iff. destruct (u_kind u); (exact H || discriminate).
Qed.
Definition a_kid : doc := el (s_padding zero_px zero_px zero_px (mkU (KAbs "mm" (qfrac 283465 100000)) (PI 3))
  (s_size (Len (mkU (KAbs "in" (qfrac 72 1)) (PI 2))) (Len (mkU (KVp "vh" ScaleVh) (PI 40))) block_style)) [].
Definition a_doc : doc := el (s_margin (Len zero_px) (Len zero_px) (Len zero_px) (Len (mkU (KFont "em") (PF (Fin (qfrac 3 2))))) block_style) [a_kid].
Definition a_out : doc := fst (layoutA float_arith idsty screen true a_doc).
Lemma a_sizes : gtree a_doc.
Proof.
  assert (Z0 : gsize size0) by (repeat split; discriminate).
  assert (B0 : forall b, Some box0 = Some b -> gbox b) by (intros b E; injection E as <-; apply gbox0).
  constructor; [exact Z0|exact B0|]. intros k [<- | []]. constructor; [exact Z0|exact B0|]. intros k [].
Qed.
Example C186_example : measured_display screen /\ plain_display 1000 screen /\ brand_new a_doc /\ measured_sizes a_doc
  /\ absolute_document idsty screen 1000 a_doc /\ room 1000 a_doc /\ layoutA float_arith idsty screen true a_doc = (a_out, Ok tt)
  /\ laid_out_as 0 0 a_out (page (fun s => converted screen s) screen true a_doc)
  /\ lq (content_width (bx (kid 0 a_out))) = Some 192%Q /\ this (nval (padding_left (bx (kid 0 a_out)))) = (363 # 32)%Q
  /\ this (nval (origin_left (bx (kid 0 a_out)))) = (-2)%Q.
Proof.
  assert (P : plain_display 1000 screen).
  { split; [|split; [|intros []]]; apply Qle_bool_iff; vm_compute; reflexivity. }
  assert (N : brand_new a_doc) by (constructor; intros k [<- | []]; constructor; intros k []).
  assert (Z : measured_sizes a_doc) by apply (proj1 (gtree_measured a_doc) a_sizes).
  assert (A : absolute_document idsty screen 1000 a_doc).
  { assert (S0 : plain_size 1000 size0) by (split; [|split]; [intros x E; discriminate E..|reflexivity]).
    assert (F : forall s : style, forallb (absolute_check screen 1000) (lengths_of s) = true -> forall u, In u (lengths_of s) -> absolute_length screen 1000 u).
    { intros s H u Hu. apply absolute_checked. rewrite forallb_forall in H. apply H, Hu. }
    intros [|j p] m H; [injection H as <-; split; [|exact S0]; split; [apply F; vm_compute; reflexivity|repeat split; discriminate]|].
    destruct j as [|[|j]]; try discriminate H. destruct p as [|[|j] p]; try discriminate H.
    injection H as <-; split; [|exact S0]; split; [apply F; vm_compute; reflexivity|repeat split; discriminate]. }
  assert (R : room 1000 a_doc) by (apply Qle_bool_iff; vm_compute; reflexivity).
  assert (L : layoutA float_arith idsty screen true a_doc = (a_out, Ok tt)) by (vm_compute; reflexivity).
  split; [exact g_screen|]. split; [exact P|]. split; [exact N|]. split; [exact Z|]. split; [exact A|]. split; [exact R|]. split; [exact L|].
  split; [|repeat split; vm_compute; reflexivity].
  assert (HB : (300 <= 1000)%Q) by discriminate.
  exact (C186_page idsty screen true 1000 a_doc a_out HB g_screen P N Z A R (or_intror eq_refl) L).
Qed.

Print Assumptions C186_page.
Print Assumptions C186_near.
