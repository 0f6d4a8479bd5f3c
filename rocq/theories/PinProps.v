(** * C192: used sizes written down *)
From Coq Require Import ZArith QArith Qcanon Qround Lia Lqa Bool List.
From Verif Require Import PyNum NumFacts Units UnitsSpec BoxModel BoxSpec BoxFacts Engine EngineSpec EngineTree EngineExamples
  RefLayout RefFacts RefProps OkSpec OkFacts HistSpec HistProps MoveSpec MoveProps LocalProps PushSpec PushProps PixelSpec OkProps SymProps PinSpec.
Import ListNotations.
Open Scope Qc_scope.

Section T.
Context {S : Type} (sty : S -> style) (d : display_t).
Notation node := (node S).
Lemma len_pixels P x : on_grid (nval x) -> len d P (pixels x) = nval x.
Proof. intros G. transitivity (to_grid (nval x)); [destruct x; reflexivity|apply to_grid_on, G]. Qed.
(** ** Widths *)
Lemma p_widths W e s h x : st_width s = Auto -> st_min_width s = Auto -> st_max_width s = None -> on_grid (nval x) ->
  fst (fst (widths d W e s)) = nval x -> widths d W e (with_size (Len (pixels x)) h s) = widths d W e s.
Proof.
  intros Ew En Ex G. unfold widths. cbn [with_size st_width st_margin_left st_margin_right st_direction]. rewrite Ew. cbn [fst]. unfold limited_width. cbn [with_size st_max_width st_min_width]. rewrite En, Ex, (len_pixels W x G). intros <-.
  set (l := len0 d W (st_margin_left s)). set (r := len0 d W (st_margin_right s)).
  replace (e + (W - e - l - r) + l + r) with W by ring. assert (Lt : qc_ltb W W = false) by (destruct (qc_ltb_spec W W) as [H|]; [exfalso; apply (Qclt_not_eq _ _ H); reflexivity|reflexivity]). rewrite Lt.
  replace (W - e - (W - e - l - r)) with (l + r) by ring. replace (l + r - l) with r by ring. replace (l + r - r) with l by ring.
  destruct (st_margin_left s) eqn:El, (st_margin_right s) eqn:Er; try reflexivity. destruct (st_direction s); reflexivity.
Qed.
Lemma p_wmargins b a dk s i w h : isinl dk = false -> width_written b s w -> is_size (content_width b) (fst (fst (wmargins d a dk s i))) ->
  wmargins d a dk (with_size w h s) i = wmargins d a dk s i.
Proof.
  intros I Hw Sh. unfold wmargins in *. rewrite I in *. change (hedges d (or0 (a_h a)) (with_size w h s)) with (hedges d (or0 (a_h a)) s).
  destruct Hw as [->|(Ew & En & Ex & x & Hx & G & ->)].
  - assert (widths d (or0 (a_w a)) (hedges d (or0 (a_h a)) s) (with_size (st_width s) h s) = widths d (or0 (a_w a)) (hedges d (or0 (a_h a)) s) s) as -> by reflexivity. reflexivity.
  - rewrite (p_widths _ _ s h x Ew En Ex G); [reflexivity|]. destruct (widths d (or0 (a_w a)) (hedges d (or0 (a_h a)) s) s) as [[y1 y2] y3]. cbn [fst] in *.
    destruct Sh as (x' & E & <-). rewrite Hx in E. injection E as <-. reflexivity.
Qed.
(** ** The area around a child whose declarations do not refer to its height *)
Lemma p_area w h1 h2 l t1 t2 sp1 sp2 n : no_height_reference (sty (n_style n)) = true ->
  format sty d (mkArea w h1 l t1 sp1) n = format sty d (mkArea w h2 l t2 sp2) n.
Proof.
  intros N. rewrite (format_area sty d w h1 h2 l t1 t2 sp1 n N). destruct n as [s0 i bx ks]. cbn [n_style] in N. rewrite !format_split. destruct (st_display (sty s0)) as [dk|]; [|reflexivity]. set (s := sty s0) in *.
  unfold no_height_reference in N. cbn [forallb] in N. repeat rewrite andb_true_iff in N. destruct N as ((((( N1 & _) & _) & _) & _) & _).
  assert (E : forall last, hgt d (mkArea w h2 l t2 sp1) dk s i last = hgt d (mkArea w h2 l t2 sp2) dk s i last).
  { intros last. unfold hgt. destruct (isinl dk); [reflexivity|]. f_equal. cbn [a_h a_spec_h]. unfold used_block_height, spec_height.
    destruct (st_height s) as [|u]; [reflexivity|]. cbn [no_pct_auto] in N1. rewrite (len_no_pct d (match sp1 with Some pu => len d (or0 h2) pu | None => or0 h2 end) (match sp2 with Some pu => len d (or0 h2) pu | None => or0 h2 end) u N1). reflexivity. }
  assert (E' : inner_of d (mkArea w h2 l t2 sp1) dk s i = inner_of d (mkArea w h2 l t2 sp2) dk s i) by (unfold inner_of; rewrite E; reflexivity).
  rewrite E'. unfold node_of. cbv zeta. rewrite E. reflexivity.
Qed.

(** ** What is used of the boxes shown *)
Inductive seen : bool -> node -> utree -> Prop :=
| seen_box (hf : bool) s i b ks u us : is_size (content_width b) (u_w u) -> (hf = true -> is_size (content_height b) (u_h u)) ->
    is_margin (margin_bottom b) (u_mb u) -> collapse_bottom b = u_cb u -> Forall2 (seen true) ks us -> seen hf (Node s i (Some b) ks) (UNode u us)
| seen_hidden hf n : seen hf n UHidden
| seen_skipped hf n : seen hf n USkipped.
Lemma seen_shows (n : node) : forall t, RefLayout.shows n t -> seen true n t.
Proof.
  induction n as [s i b ks IH] using node_ind'. intros t H. inversion H as [s0 i0 b0 ks0 u us Hu Hk| |]; subst; [|constructor|constructor].
  destruct Hu. constructor; try assumption; [intros _; assumption|]. clear H. induction Hk as [|k v ks us H1 Hk IHk]; constructor.
  - apply IH; [left; reflexivity|exact H1].
  - apply IHk. intros k0 H0. apply IH. right. exact H0.
Qed.
Lemma seen_stack us : forall top prev (ks : list node), Forall2 (seen true) ks (stack top prev us) -> Forall2 (seen true) ks us.
Proof.
  induction us as [|v us IH]; intros top prev ks H; [exact H|]. destruct v as [u vs| |]; cbn [stack] in H; inversion H as [|k ? ks' ? H1 H2]; subst; constructor; try (eapply IH; exact H2); try constructor.
  inversion H1; subst. destruct u as [a1 a2 a3 a4 a5 a6 a7 a8 a9 a10 a11 a12 a13 a14 a15 a16 a17 a18]. cbn [move_down u_w u_h u_mb u_cb] in *. constructor; assumption.
Qed.

(** ** Documents *)
Definition down (hf : bool) (n out m : node) : Prop :=
  written_down sty n out m /\ (hf = true \/ st_height (sty (n_style m)) = st_height (sty (n_style n))).
Lemma down_kid n out m j k : written_down sty n out m -> nth_error (n_kids n) j = Some k ->
  exists ko k', nth_error (n_kids out) j = Some ko /\ nth_error (n_kids m) j = Some k' /\ written_down sty k ko k'.
Proof.
  intros H Hk. destruct (H [j] k) as (o & c & Ho & Hc & _); [cbn [get_path]; rewrite Hk; reflexivity|]. cbn [get_path] in Ho, Hc.
  destruct (nth_error (n_kids out) j) as [ko|] eqn:Eo; [|discriminate]. destruct (nth_error (n_kids m) j) as [k'|] eqn:Em; [|discriminate].
  exists ko, k'. do 2 (split; [reflexivity|]). intros p a Ha. destruct (H (j :: p) a) as (o' & c' & X1 & X2 & X3); [cbn [get_path]; rewrite Hk; exact Ha|].
  cbn [get_path] in X1, X2. rewrite Eo in X1. rewrite Em in X2. exists o', c'. auto.
Qed.
Lemma down_style n out m : written_down sty n out m -> st_display (sty (n_style m)) = st_display (sty (n_style n)).
Proof.
  intros H. destruct (H [] n eq_refl) as (o & c & Ho & Hc & _ & _ & _ & X). injection Ho as <-. injection Hc as <-. destruct X as [->|(b & w & h & _ & _ & _ & _ & ->)]; reflexivity.
Qed.
Lemma down_no_ref n out m : written_down sty n out m -> no_height_reference (sty (n_style n)) = true -> no_height_reference (sty (n_style m)) = true.
Proof.
  intros H N. destruct (H [] n eq_refl) as (o & c & Ho & Hc & _ & _ & _ & X). injection Ho as <-. injection Hc as <-. destruct X as [->|(b & w & h & _ & _ & _ & Hh & ->)]; [exact N|].
  destruct Hh as [->|(_ & _ & _ & _ & x & _ & _ & ->)]; [exact N|]. unfold no_height_reference in *. cbn [forallb with_size st_height st_min_height st_margin_top st_margin_bottom st_max_height st_border_left st_border_right st_padding_left st_padding_right st_top st_bottom] in *.
  cbn [no_pct_auto pixels no_pct u_kind]. repeat rewrite andb_true_iff in N. destruct N as ((((( N1 & N2 & N3 & N4 & _) & N5) & N6 & N7 & _) & N8 & N9 & _) & N10 & N11 & _).
  rewrite N2, N3, N4, N5, N6, N7, N8, N9, N10, N11. reflexivity.
Qed.
Lemma down_blocks n out m : written_down sty n out m ->
  map (fun k => block_level (sty (n_style k))) (n_kids m) = map (fun k => block_level (sty (n_style k))) (n_kids n).
Proof.
  intros H. destruct (H [] n eq_refl) as (o & c & Ho & Hc & _ & Le & _ & _). injection Hc as <-. apply nth_ext with (d := false) (d' := false); [rewrite !map_length; exact Le|].
  intros j Hj. rewrite map_length, Le in Hj. destruct (nth_error (n_kids n) j) as [k|] eqn:Ek; [|apply nth_error_None in Ek; lia].
  destruct (down_kid n out m j k H Ek) as (ko & k' & _ & Em & Dk). set (f := fun k => block_level (sty (n_style k))).
  rewrite (nth_error_nth _ j false (map_nth_error f j (n_kids n) Ek)), (nth_error_nth _ j false (map_nth_error f j (n_kids m) Em)).
  unfold f, block_level. rewrite (down_style _ _ _ Dk). reflexivity.
Qed.
Lemma existsb_map {A} (f : A -> bool) l : existsb f l = existsb (fun x => x) (map f l).
Proof. induction l as [|x l IH]; [reflexivity|]. cbn. rewrite IH. reflexivity. Qed.
Lemma kids_pointwise (f g : node -> utree) (ks ks' : list node) : length ks' = length ks ->
  (forall j k k', nth_error ks j = Some k -> nth_error ks' j = Some k' -> f k' = g k) -> map f ks' = map g ks.
Proof.
  revert ks'. induction ks as [|k ks IH]; intros [|k' ks'] L H; try discriminate; [reflexivity|]. cbn [map]. f_equal; [apply (H 0%nat); reflexivity|].
  apply IH; [injection L as L; exact L|]. intros j x y Hx Hy. apply (H (Datatypes.S j)); assumption.
Qed.
Lemma format_written (n : node) : forall hf out m a, down hf n out m -> seen hf out (format sty d a n) -> format sty d a m = format sty d a n.
Proof.
  induction n as [s i bx ks IH] using node_ind'. intros hf out m a [D Hf] Sn. pose proof (down_style _ _ _ D) as Ed. pose proof (down_blocks _ _ _ D) as Eb.
  assert (Dk := fun j k => down_kid _ _ _ j k D). destruct (D [] _ eq_refl) as (o & c & Ho & Hc & Ei & Le & Lo & X). injection Ho as <-. injection Hc as <-.
  destruct m as [s' i' bx' ks']. cbn [n_style n_kids n_intr] in *. subst i'. rewrite !format_split in *. rewrite Ed. destruct (st_display (sty s)) as [dk|] eqn:Dis; [|reflexivity].
  assert (Es : stacks_ sty dk ks' = stacks_ sty dk ks).
  { unfold stacks_. destruct dk; try reflexivity; rewrite (existsb_map _ ks'), (existsb_map _ ks), Eb; reflexivity. }
  rewrite Es. set (st := stacks_ sty dk ks) in *. set (t := sty s') in *. set (s0 := sty s) in *.
  remember (node_of d a dk s0 i st (kids_of sty d (inner_of d a dk s0 i) st ks)) as tr eqn:E2 in Sn.
  destruct Sn as [hf so io b kso u us Sw Sh Sm Sc Sk|hf o|hf o]; [|unfold node_of in E2; discriminate E2..].
  cbn [n_kids n_box] in *.
  assert (Sk' : Forall2 (seen true) kso (map (MoveProps.laid_kid sty d (inner_of d a dk s0 i) st) ks)).
  { unfold node_of in E2. cbv zeta in E2. injection E2 as _ E2. rewrite E2 in Sk. unfold kids_of in Sk. destruct st; [apply seen_stack in Sk|]; exact Sk. }
  (* the children in the area of the document as it was *)
  assert (Kd : kids_of sty d (inner_of d a dk s0 i) st ks' = kids_of sty d (inner_of d a dk s0 i) st ks).
  { assert (Km : map (MoveProps.laid_kid sty d (inner_of d a dk s0 i) st) ks' = map (MoveProps.laid_kid sty d (inner_of d a dk s0 i) st) ks).
    { apply kids_pointwise; [exact Le|]. intros j k k' Hk Hk'. destruct (Dk j k Hk) as (ko & k1 & Eo & Em & Dj). rewrite Hk' in Em. injection Em as <-.
      assert (Sj : seen true ko (MoveProps.laid_kid sty d (inner_of d a dk s0 i) st k)).
      { generalize (MoveProps.laid_kid sty d (inner_of d a dk s0 i) st) Sk'. intros g F0. clear -F0 Hk Eo. revert j kso F0 Hk Eo. induction ks as [|x ks IHk]; intros [|j] kso F Hk Eo; try discriminate; inversion F; subst; cbn in *; [congruence|]. eapply IHk; eassumption. }
      unfold MoveProps.laid_kid in *. pose proof (down_style _ _ _ Dj) as Ej. unfold block_level in *. rewrite Ej. destruct (st && _); [reflexivity|].
      apply (IH k (nth_error_In _ _ Hk) true ko k' _ (conj Dj (or_introl eq_refl)) Sj). }
    unfold kids_of. rewrite Km. reflexivity. }
  destruct X as [Et|(b0 & w & h & Hb & Bl & Hw & Hh & Et)]; [rewrite Et, Kd; reflexivity|]. injection Hb as <-.
  assert (I : isinl dk = false) by (unfold block_level in Bl; rewrite Dis in Bl; destruct dk; try discriminate; reflexivity).
  assert (Uw : u_w u = fst (fst (wmargins d a dk s0 i))) by (unfold node_of in E2; cbv zeta in E2; injection E2 as -> _; reflexivity).
  assert (Wm : wmargins d a dk t i = wmargins d a dk s0 i) by (rewrite Et; apply (p_wmargins b); [exact I|exact Hw|rewrite <- Uw; exact Sw]).
  assert (Lf : lefts d a dk t i = lefts d a dk s0 i) by (unfold lefts; rewrite Wm, Et; reflexivity).
  assert (Eg : edges d a dk t = edges d a dk s0) by (rewrite Et; reflexivity).
  assert (Bt : bottoms d a dk t i = bottoms d a dk s0 i) by (rewrite Et; reflexivity).
  assert (Rl : isrel t = isrel s0) by (rewrite Et; reflexivity).
  destruct Hh as [->|(Eh & Ex & (mb & Hmb & Hcb) & Nr & x & Hx & G & ->)].
  - (* only the width *)
    assert (Hg : forall last, hgt d a dk t i last = hgt d a dk s0 i last) by (intros last; unfold hgt; rewrite I, Et; reflexivity).
    assert (In : inner_of d a dk t i = inner_of d a dk s0 i) by (unfold inner_of; rewrite Wm, Lf, Eg, Rl, Hg, Et; reflexivity).
    rewrite In, Kd. unfold node_of. cbv zeta. rewrite Wm, Lf, Eg, Bt, Rl, Hg, Et. reflexivity.
  - (* the height as well *)
    assert (Hf' : hf = true).
    { destruct Hf as [Hf|Hf]; [exact Hf|]. rewrite Et in Hf. cbn [with_size st_height] in Hf. rewrite Eh in Hf. discriminate. }
    specialize (Sh Hf').
    assert (Kk : kids_of sty d (inner_of d a dk t i) st ks' = kids_of sty d (inner_of d a dk s0 i) st ks').
    { assert (Km : map (MoveProps.laid_kid sty d (inner_of d a dk t i) st) ks' = map (MoveProps.laid_kid sty d (inner_of d a dk s0 i) st) ks').
      { apply map_ext_in. intros k' Hk'. destruct (In_nth_error _ _ Hk') as [j Hj].
        assert (Hk : exists k, nth_error ks j = Some k) by (destruct (nth_error ks j) as [k|] eqn:Ek; [eauto|apply nth_error_None in Ek; assert (j < length ks')%nat by (apply nth_error_Some; congruence); lia]).
        destruct Hk as [k Hk]. destruct (Dk j k Hk) as (ko & k1 & _ & Em & Dj). rewrite Hj in Em. injection Em as <-.
        rewrite forallb_forall in Nr. pose proof (down_no_ref _ _ _ Dj (Nr k (nth_error_In _ _ Hk))) as Nk. unfold MoveProps.laid_kid. destruct (st && _); [reflexivity|].
        unfold inner_of. rewrite Wm, Lf. apply p_area, Nk. }
      unfold kids_of. rewrite Km. reflexivity. }
    rewrite Kk, Kd. set (kids := kids_of sty d (inner_of d a dk s0 i) st ks) in *.
    assert (Uh : u_h u = hgt d a dk s0 i (last_kid kids)) by (unfold node_of in E2; cbv zeta in E2; injection E2 as -> _; reflexivity).
    assert (Um : u_mb u = bottoms d a dk s0 i) by (unfold node_of in E2; cbv zeta in E2; injection E2 as -> _; reflexivity).
    assert (Uc : u_cb u = match last_kid kids with Some k => Z.max (whole_px (or0 (bottoms d a dk s0 i))) (u_cb k) | None => whole_px (or0 (bottoms d a dk s0 i)) end).
    { unfold node_of in E2; cbv zeta in E2; injection E2 as -> _. cbn [u_cb]. rewrite Eh, I. reflexivity. }
    assert (Cb : match last_kid kids with Some k => Z.max (whole_px (or0 (bottoms d a dk s0 i))) (u_cb k) | None => whole_px (or0 (bottoms d a dk s0 i)) end = whole_px (or0 (bottoms d a dk s0 i))).
    { rewrite <- Uc, <- Sc, Hcb. f_equal. rewrite <- Um. destruct (u_mb u) as [q|]; cbn [is_margin] in Sm; [destruct Sm as (y & Ey & <-)|]; rewrite Hmb in *; [injection Ey as <-; reflexivity|discriminate]. }
    assert (Hg : hgt d a dk t i (last_kid kids) = hgt d a dk s0 i (last_kid kids)).
    { rewrite <- Uh. unfold hgt. rewrite I. rewrite Et. unfold used_block_height, spec_height. cbn [with_size st_height st_max_height]. rewrite Ex, (len_pixels _ x G).
      destruct (u_h u) as [q|]; cbn [is_size] in Sh; [destruct Sh as (y & Ey & <-)|]; rewrite Hx in *; [injection Ey as <-; reflexivity|discriminate]. }
    unfold node_of. cbv zeta. rewrite Wm, Lf, Eg, Bt, Rl, Hg. rewrite Et. cbn [with_size st_height st_margin_top st_border_top st_border_right st_border_bottom st_border_left st_padding_top st_padding_right st_padding_bottom st_padding_left st_left st_right st_top st_bottom].
    rewrite Eh, I, Cb. reflexivity.
Qed.

(** C192: writing down used widths and heights moves nothing. *)
Theorem C192_written_down h5 (n m out out' : node) : history sty n -> history sty m -> layout sty d h5 n = (out, Ok tt) ->
  written_down sty n out m -> h5 = false \/ st_height (sty (n_style m)) = st_height (sty (n_style n)) ->
  layout sty d h5 m = (out', Ok tt) -> exists t, RefLayout.shows out t /\ RefLayout.shows out' t.
Proof.
  intros Hn Hm Ln D H5 Lm. pose proof (C122_any_history sty d h5 n out Hn Ln) as Sn. exists (page sty d h5 n). split; [exact Sn|].
  pose proof (C122_any_history sty d h5 m out' Hm Lm) as Sm. rewrite page_draft in *. unfold draft in *. set (a := mkArea (Some (nval (disp_width d))) (Some (nval (disp_height d))) 0 0 None) in *.
  rewrite <- (format_written n (negb h5) out m a); [exact Sm| |].
  - split; [exact D|]. destruct H5 as [->|H5]; [left; reflexivity|right; exact H5].
  - pose proof (seen_shows _ _ Sn) as X. destruct (format sty d a n) as [u us| |]; cbn [finished] in X; [|constructor|constructor].
    destruct u as [a1 a2 a3 a4 a5 a6 a7 a8 a9 a10 a11 a12 a13 a14 a15 a16 a17 a18]. cbn [completed] in X. inversion X; subst. cbn [u_w u_h u_mb u_cb] in *. constructor; try assumption. destruct h5; [discriminate|]. assumption.
Qed.

(** ** Success *)
Lemma meas_mono k u : measurable k u = true -> measurable true u = true.
Proof. unfold measurable. rewrite !andb_true_iff. destruct (u_kind u); tauto. Qed.
Lemma meas_any k u : measurable false u = true -> measurable k u = true.
Proof. unfold measurable. rewrite !andb_true_iff. destruct (u_kind u); intros [H1 H2]; (split; [exact H1|try exact H2; discriminate]). Qed.
Lemma meas_pixels k x : measurable k (pixels x) = true.
Proof. destruct x; reflexivity. Qed.
Definition wider (a a' : around) : Prop :=
  w_known a' = w_known a /\ h_known a' = h_known a /\ is_display a' = is_display a
  /\ (spec_h a' = spec_h a \/ spec_h a = None) /\ forall pu, spec_h a' = Some pu -> measurable (h_known a') pu = true.
Lemma o_height a a' kd s last : wider a a' -> height_ok a kd s last = true -> height_ok a' kd s last = true.
Proof.
  intros (_ & Eh & _ & Es & Sp) H. unfold height_ok in *. rewrite Eh in *. destruct kd; destruct (st_height s) as [|u]; try exact H.
  destruct Es as [->|E0]; [exact H|]. rewrite E0 in H. destruct (spec_h a') as [pu|]; [|exact H]. rewrite (Sp pu eq_refl). cbn [andb]. apply andb_true_iff in H. destruct H as [H1 H2]. rewrite (meas_mono _ _ H1), H2. reflexivity.
Qed.
Lemma o_written_height (ks : list node) b a a' kd s w v last : kd = Block -> wider a a' -> height_written sty b s ks v -> height_ok a kd s last = true -> height_ok a' kd (with_size w v s) last = true.
Proof.
  intros -> Wd Hh H. destruct Hh as [->|(Eh & Ex & _ & _ & x & _ & _ & ->)]; [apply (o_height a a' Block s last Wd) in H; exact H|].
  destruct Wd as (_ & _ & _ & _ & Sp). unfold height_ok. cbn [with_size st_height st_max_height]. rewrite Ex, !meas_pixels. destruct (spec_h a') as [pu|]; [rewrite (Sp pu eq_refl)|]; reflexivity.
Qed.
Lemma o_written_width b a a' s i w h : wider a a' -> width_written b s w -> width_ok a Block s i = true -> width_ok a' Block (with_size w h s) i = true.
Proof.
  intros (Ew & _) Hw H. unfold width_ok in *. cbn [with_size st_width st_max_width st_min_width]. rewrite Ew. destruct Hw as [->|(E1 & E2 & E3 & x & _ & _ & ->)]; [exact H|].
  rewrite E2, E3, meas_pixels. apply andb_true_iff in H. destruct H as [-> _]. reflexivity.
Qed.
Lemma down_alike n out m : written_down sty n out m -> block_child sty m = block_child sty n /\ kind_of (sty (n_style m)) (n_intr m) = kind_of (sty (n_style n)) (n_intr n) /\ n_intr m = n_intr n.
Proof.
  intros D. destruct (D [] _ eq_refl) as (o & c & Ho & Hc & Ei & _ & _ & X). injection Ho as <-. injection Hc as <-. rewrite Ei. unfold block_child.
  destruct X as [->|(b & w & h & _ & _ & _ & _ & ->)]; repeat split; reflexivity.
Qed.
Notation rel_ks ks ks' := (Forall2 (fun k k' => block_child sty k' = block_child sty k /\ kind_of (sty (n_style k')) (n_intr k') = kind_of (sty (n_style k)) (n_intr k) /\ n_intr k' = n_intr k /\ boxed k /\ boxed k') ks ks').
Lemma o_pointwise (R : node -> node -> Prop) ks : forall ks', length ks' = length ks -> (forall j k k', nth_error ks j = Some k -> nth_error ks' j = Some k' -> R k k') -> Forall2 R ks ks'.
Proof.
  induction ks as [|k ks IH]; intros [|k' ks'] L H; try discriminate; constructor; [apply (H 0%nat); reflexivity|].
  apply IH; [injection L as L; exact L|]. intros j x y Hx Hy. apply (H (Datatypes.S j)); assumption.
Qed.
Lemma o_rev (R : node -> node -> Prop) ks ks' : Forall2 R ks ks' -> Forall2 R (rev ks) (rev ks').
Proof. induction 1; cbn [rev]; [constructor|]. apply Forall2_app; [assumption|constructor; [assumption|constructor]]. Qed.
Lemma o_last ks ks' : rel_ks ks ks' -> last_boxed ks' = last_boxed ks /\ forall st, last_sized sty st ks' = last_sized sty st ks.
Proof.
  intros F. apply o_rev in F. unfold last_boxed, last_sized. destruct F as [|k k' l l' (E1 & E2 & E3 & B1 & B2) _]; [split; reflexivity|].
  inversion B1; inversion B2; subst. cbn [n_box]. split; [reflexivity|]. intros st. cbn [n_style n_intr] in *. subst. rewrite E1, E2. reflexivity.
Qed.
Lemma o_first ks ks' : rel_ks ks ks' -> existsb (block_child sty) ks' = existsb (block_child sty) ks /\ blocks_first sty ks' = blocks_first sty ks.
Proof. induction 1 as [|k k' l l' (E1 & _) F [IH1 IH2]]; [split; reflexivity|]. cbn [existsb blocks_first]. rewrite E1, IH1, IH2. split; reflexivity. Qed.
Lemma idle_kid s i b ks k : idle_heights_plain sty (Node s i b ks) -> In k ks -> idle_heights_plain sty k.
Proof. intros A Hk p m u H. destruct (In_nth_error _ _ Hk) as [j Hj]. apply (A (j :: p)). cbn [get_path n_kids]. rewrite Hj. exact H. Qed.
Lemma can_lay_written (n : node) : forall out m a a', written_down sty n out m -> idle_heights_plain sty n -> boxed n -> boxed m -> wider a a' ->
  can_lay sty a n = true -> can_lay sty a' m = true.
Proof.
  induction n as [s i bx ks IH] using node_ind'. intros out m a a' D Id Bn Bm Wd H. assert (Dk := fun j k => down_kid _ _ _ j k D). pose proof (down_alike _ _ _ D) as (Ec & Ek & Ei).
  pose proof (down_style _ _ _ D) as Ed. pose proof (fun u => Id [] (Node s i bx ks) u eq_refl) as Id0.
  destruct (D [] _ eq_refl) as (o & c & Ho & Hc & _ & Le & _ & X). injection Ho as <-. injection Hc as <-.
  destruct m as [s' i' bx' ks']. cbn [n_style n_kids n_intr] in *. subst i'. cbn [can_lay] in *. rewrite Ed. destruct (st_display (sty s)) as [dk|] eqn:Dis; [|reflexivity].
  rewrite Ek. destruct (kind_of (sty s) i) as [kd|] eqn:Kd; [|discriminate].
  set (t := sty s') in *. set (s0 := sty s) in *.
  assert (Rl : relative t = relative s0) by (destruct X as [->|(b & w & h & _ & _ & _ & _ & ->)]; reflexivity).
  assert (F : rel_ks ks ks').
  { apply o_pointwise; [exact Le|]. intros j k k' Hk Hk'. destruct (Dk j k Hk) as (ko & k1 & _ & Em & Dj). rewrite Hk' in Em. injection Em as <-. destruct (down_alike _ _ _ Dj) as (A1 & A2 & A3).
    inversion Bn as [? ? ? ? Kn]; subst. inversion Bm as [? ? ? ? Km]; subst. repeat split; try assumption; [apply Kn, (nth_error_In _ _ Hk)|apply Km, (nth_error_In _ _ Hk')]. }
  destruct (o_last ks ks' F) as [El Es]. destruct (o_first ks ks' F) as [Ee Ef]. rewrite Ee, Ef, Rl, El, Es.
  repeat rewrite andb_true_iff in H. destruct H as ((((H1 & H2) & H3) & H4) & H5).
  set (inner := mkAround _ _ false (match st_height s0 with Auto => None | Len u => Some u end)) in *.
  set (inner' := mkAround _ _ false (match st_height t with Auto => None | Len u => Some u end)).
  assert (Hkd : forall u, st_height s0 = Len u -> measurable (if relative s0 then height_known kd i else true) u = true).
  { intros u Hu. destruct kd; cbn [height_known]; unfold height_ok in H5; try rewrite Hu in H5.
    - assert (M : measurable true u = true) by (apply andb_true_iff in H5; destruct H5 as [H5 _]; destruct (spec_h a); [apply andb_true_iff in H5; apply H5|apply (meas_mono _ _ H5)]). destruct (relative s0); exact M.
    - assert (M := meas_mono _ _ H5). destruct (relative s0); exact M.
    - apply meas_any. unfold kind_of in Kd. rewrite Dis in Kd. destruct (st_float s0), (st_position s0), dk, (s_replaced i); try discriminate Kd; (apply (Id0 u); [reflexivity|reflexivity|exact Hu]). }
  assert (Hwd : wider inner inner').
  { unfold wider, inner, inner'. cbn [w_known h_known is_display spec_h]. do 3 (split; [reflexivity|]). destruct X as [->|(b & w & h & _ & _ & _ & Hh & ->)]; cbn [with_size st_height].
    - split; [left; reflexivity|]. intros pu E. destruct (st_height s0) as [|u]; [discriminate|]. injection E as <-. apply (Hkd u eq_refl).
    - destruct Hh as [->|(Eh & _ & _ & _ & x & _ & _ & ->)].
      + split; [left; reflexivity|]. intros pu E. destruct (st_height s0) as [|u]; [discriminate|]. injection E as <-. apply (Hkd u eq_refl).
      + rewrite Eh. split; [right; reflexivity|]. intros pu E. injection E as <-. apply meas_pixels. }
  assert (Kk : forall k', In k' ks' -> exists k, In k ks /\ block_child sty k' = block_child sty k /\ (can_lay sty inner k = true -> can_lay sty inner' k' = true)).
  { intros k' Hk'. destruct (In_nth_error _ _ Hk') as [j Hj].
    assert (Hk : exists k, nth_error ks j = Some k) by (destruct (nth_error ks j) as [k|] eqn:E; [eauto|apply nth_error_None in E; assert (j < length ks')%nat by (apply nth_error_Some; congruence); lia]).
    destruct Hk as [k Hk]. destruct (Dk j k Hk) as (ko & k1 & _ & Em & Dj). rewrite Hj in Em. injection Em as <-. destruct (down_alike _ _ _ Dj) as (A1 & _).
    inversion Bn as [? ? ? ? Kn]; subst. inversion Bm as [? ? ? ? Km]; subst. exists k. split; [apply (nth_error_In _ _ Hk)|]. split; [exact A1|].
    apply (IH k (nth_error_In _ _ Hk) ko k' inner inner' Dj); [apply (idle_kid _ _ _ _ _ Id (nth_error_In _ _ Hk))|apply Kn, (nth_error_In _ _ Hk)|apply Km, Hk'|exact Hwd]. }
  assert (K1 : forallb (can_lay sty inner) ks = true -> forallb (can_lay sty inner') ks' = true).
  { rewrite !forallb_forall. intros A k' Hk'. destruct (Kk k' Hk') as (k & Ik & _ & C). apply C, A, Ik. }
  assert (K2 : forallb (fun k => if block_child sty k then can_lay sty inner k else true) ks = true -> forallb (fun k => if block_child sty k then can_lay sty inner' k else true) ks' = true).
  { rewrite !forallb_forall. intros A k' Hk'. destruct (Kk k' Hk') as (k & Ik & Eb & C). specialize (A k Ik). rewrite Eb. cbn beta in A. destruct (block_child sty k); [apply C, A|reflexivity]. }
  assert (K3 : (if match dk with DBlock | DListItem => existsb (block_child sty) ks | _ => false end
      then blocks_first sty ks && forallb (fun k => if block_child sty k then can_lay sty inner' k else true) ks' else forallb (can_lay sty inner') ks') = true).
  { destruct (match dk with DBlock | DListItem => existsb (block_child sty) ks | _ => false end); [|apply K1, H4]. apply andb_true_iff in H4. destruct H4 as [H4 H6]. rewrite H4. apply K2, H6. }
  rewrite K3. clear K1 K2 K3 Kk H4. assert (W0 := Wd). destruct Wd as (Ew & Eh & Edi & _ & _).
  assert (Eo : edges_ok a' t = true) by (destruct X as [->|(b & w & h & _ & _ & _ & _ & ->)]; unfold edges_ok in *; cbn [with_size st_margin_left st_margin_right st_margin_top st_margin_bottom st_border_top st_border_bottom st_border_left st_border_right st_padding_top st_padding_bottom st_padding_left st_padding_right]; rewrite Ew, Eh; exact H1).
  assert (Of : forall k x y, offsets_ok a' k x y = offsets_ok a k x y) by (intros k x y; unfold offsets_ok; rewrite Edi; reflexivity).
  assert (Off : (st_left t, st_right t, st_top t, st_bottom t) = (st_left s0, st_right s0, st_top s0, st_bottom s0)) by (destruct X as [->|(b & w & h & _ & _ & _ & _ & ->)]; reflexivity).
  injection Off as O1 O2 O3 O4. rewrite Eo, !Of, O1, O2, O3, O4, Ew, Eh. cbn [andb].
  assert (Wo : width_ok a' kd t i = true /\ forall last, height_ok a kd s0 last = true -> height_ok a' kd t last = true).
  { destruct X as [->|(b & w & h & _ & Bl & Hw & Hh & ->)].
    - split; [unfold width_ok in *; rewrite Ew; exact H2|]. intros last. apply o_height, W0.
    - assert (kd = Block) as -> by (unfold block_level in Bl; fold s0 in Bl; unfold kind_of in Kd; rewrite Dis in *; destruct dk; try discriminate; destruct (st_float s0), (st_position s0), (s_replaced i); congruence).
      split; [apply (o_written_width b a a'); assumption|]. intros last. apply (o_written_height ks b a a' Block s0 w h last eq_refl W0 Hh). }
  destruct Wo as [-> Ho]. cbn [andb]. rewrite (Ho _ H5), !andb_true_r. destruct (relative s0); [|reflexivity].
  repeat rewrite andb_true_iff in H3. destruct H3 as ((H3 & H6) & H7). rewrite (Ho _ H3), H6, H7. reflexivity.
Qed.
Theorem C192_succeeds h5 h5' (n m out : node) : boxed n -> boxed m -> history sty n -> history sty m -> layout sty d h5 n = (out, Ok tt) ->
  written_down sty n out m -> idle_heights_plain sty n -> exists out', layout sty d h5' m = (out', Ok tt).
Proof.
  intros Bn Bm Hn Hm Ln D Id. apply (C123_exactly_when sty d h5' m Hm). assert (C : can_lay_out sty n = true) by (apply (C123_exactly_when sty d h5 n Hn); eauto).
  unfold can_lay_out in *. repeat rewrite andb_true_iff in *. destruct C as [[C1 C2] C3]. rewrite (down_style _ _ _ D). split; [split; [inversion Bm; reflexivity|exact C2]|].
  apply (can_lay_written n out m (mkAround true true true None)); try assumption. repeat split; try reflexivity; [left; reflexivity|]. intros pu E. discriminate E.
Qed.
End T.

(** ** Examples *)
Open Scope Z_scope.
(** The second block is 983px wide and 50px high; the document is 1000px wide. *)
Definition pdoc (w0 w h : lenauto) : doc :=
  el (s_size w0 Auto block_style)
    [el (hpx 10 block_style) [];
     el (s_size w h (s_margin (Len (pxu 4)) Auto (Len (pxu 5)) (Len (pxu 10)) (s_padding (pxu 1) (pxu 3) (pxu 2) (pxu 4) block_style)))
       [el (hpx 30 block_style) []; el (s_size (Len (pctu 50)) (Len (pxu 20)) block_style) []];
     el (hpx 10 block_style) []].
Definition pdoc1 := pdoc Auto Auto Auto.
Definition pdoc2 := pdoc (Len (pixels (NI 1000))) (Len (pixels (NI 983))) (Len (pixels (NI 50))).
Lemma grid_NI z : on_grid (nval (NI z)).
Proof. exists (64 * z). cbn [nval]. unfold Z2Qc, qfrac. apply Qc_is_canon. cbn [this Q2Qc]. rewrite !Qred_correct. unfold Qeq. cbn [inject_Z Qnum Qden]. lia. Qed.
Lemma written_node {S} (sty : S -> style) s i b ks os oi ob oks cs cb cks :
  sty cs = sty s \/ (exists b w h, ob = Some b /\ block_level (sty s) = true /\ width_written b (sty s) w /\ height_written sty b (sty s) ks h /\ sty cs = with_size w h (sty s)) ->
  all3 (written_down sty) ks oks cks -> written_down sty (Node s i b ks) (Node os oi ob oks) (Node cs i cb cks).
Proof.
  intros H K. assert (L : length oks = length ks /\ length cks = length ks) by (clear -K; induction K as [|? ? ? ? ? ? ? ? [IH1 IH2]]; [split; reflexivity|cbn [length]; rewrite IH1, IH2; split; reflexivity]).
  intros [|j p] a Hp.
  - injection Hp as <-. exists (Node os oi ob oks), (Node cs i cb cks). cbn [get_path n_intr n_kids n_style n_box]. destruct L. repeat split; auto.
  - cbn [get_path n_kids] in *. destruct (nth_error ks j) as [k|] eqn:Ej; [|discriminate].
    enough (X : exists o c, nth_error oks j = Some o /\ nth_error cks j = Some c /\ written_down sty k o c) by (destruct X as (o & c & -> & -> & X); apply (X p a Hp)).
    clear -K Ej. revert j Ej. induction K as [|x y z xs ys zs Hx _ IH]; intros [|j] Ej; try discriminate; cbn [nth_error] in *; [injection Ej as <-; eauto|apply IH, Ej].
Qed.
Lemma pdoc_written : written_down idsty pdoc1 (out false pdoc1) pdoc2.
Proof.
  generalize (eq_refl (out false pdoc1)). generalize (out false pdoc1) at 2 3. intros o E. vm_compute in E. subst o. unfold pdoc1, pdoc2, pdoc, el.
  repeat first [apply all3_cons|apply all3_nil|apply written_node]; try (left; reflexivity).
  - right. eexists _, (Len (pixels (NI 1000))), Auto. split; [reflexivity|]. split; [reflexivity|]. split; [|split; [left; reflexivity|reflexivity]].
    right. do 3 (split; [reflexivity|]). exists (NI 1000). split; [reflexivity|]. split; [apply grid_NI|reflexivity].
  - right. eexists _, (Len (pixels (NI 983))), (Len (pixels (NI 50))). split; [reflexivity|]. split; [reflexivity|]. split; [|split; [|reflexivity]].
    + right. do 3 (split; [reflexivity|]). exists (NI 983). split; [reflexivity|]. split; [apply grid_NI|reflexivity].
    + right. do 2 (split; [reflexivity|]). split; [exists (NI 5); split; [reflexivity|vm_compute; reflexivity]|]. split; [reflexivity|]. exists (NI 50). split; [reflexivity|]. split; [apply grid_NI|reflexivity].
Qed.
Example C192_example : boxed pdoc1 /\ boxed pdoc2 /\ history idsty pdoc1 /\ history idsty pdoc2 /\ layout idsty screen false pdoc1 = (out false pdoc1, Ok tt)
  /\ written_down idsty pdoc1 (out false pdoc1) pdoc2 /\ idle_heights_plain idsty pdoc1 /\ layout idsty screen false pdoc2 = (out false pdoc2, Ok tt)
  /\ tops (out false pdoc1) = [0; 15; 72]%Q /\ tops (out false pdoc2) = [0; 15; 72]%Q.
Proof.
  split; [solve_boxed|]. split; [solve_boxed|]. do 2 (split; [apply history_new; solve_new|]). split; [apply ok_layout; vm_compute; reflexivity|]. split; [apply pdoc_written|].
  split; [|split; [apply ok_layout; vm_compute; reflexivity|split; vm_compute; reflexivity]].
  intros p a u Hp Hd. exfalso. unfold pdoc1, pdoc, el in Hp.
  do 4 (destruct p as [|? p]; [injection Hp as <-; discriminate Hd|]; cbn [get_path n_kids] in Hp;
        match type of Hp with match nth_error _ ?j with _ => _ end = _ => destruct j as [|[|[|j]]]; cbn [nth_error] in Hp; try discriminate Hp; try (destruct j; discriminate Hp) end).
Qed.
Print Assumptions C192_written_down.
Print Assumptions C192_succeeds.
