(** * C194: used margins, borders and paddings written down *)
From Coq Require Import ZArith QArith Qcanon Qround Lia Lqa Bool List.
From Verif Require Import PyNum NumFacts Units UnitsSpec BoxModel BoxSpec BoxFacts Engine EngineSpec EngineTree EngineExamples
  RefLayout RefFacts RefProps OkSpec OkFacts HistSpec HistProps MoveSpec MoveProps LocalProps PushSpec PushProps PixelSpec OkProps SymProps PinSpec PinProps FreezeSpec.
Import ListNotations.
Open Scope Qc_scope.

Section T.
Context {S : Type} (sty : S -> style) (d : display_t).
Notation node := (node S).
(** ** Values *)
Lemma f_margin v P declared m q : margin_written v declared m -> is_num v q -> len0 d P declared = q -> len0 d P m = q.
Proof. intros [->|(x & E & G & ->)] (y & Ey & <-) H; [exact H|]. rewrite E in Ey. injection Ey as <-. cbn [len0]. apply len_pixels, G. Qed.
Lemma f_used v P declared m q : margin_written v declared m -> is_num v q -> m = declared \/ (len0 d P m = q /\ m <> Auto).
Proof. intros [->|(x & E & G & ->)] (y & Ey & <-); [left; reflexivity|right]. rewrite E in Ey. injection Ey as <-. split; [cbn [len0]; apply len_pixels, G|discriminate]. Qed.
Lemma f_padding x P declared m : padding_written x declared m -> nval x = len d P declared -> len d P m = len d P declared.
Proof. intros [->|(G & ->)] H; [reflexivity|]. rewrite (len_pixels d P x G). exact H. Qed.
Lemma f_border x P declared m : border_written x declared m -> nval x = border_len d P declared -> border_len d P m = border_len d P declared.
Proof. intros [->|(G & ->)] H; [reflexivity|]. cbn [border_len]. rewrite (len_pixels d P x G). exact H. Qed.
(** ** Widths *)
Lemma f_widths W e s mt mr mb ml pt pr pb pl bt br bb bl x l r : widths d W e s = (x, l, r) ->
  ml = st_margin_left s \/ (len0 d W ml = l /\ ml <> Auto) -> mr = st_margin_right s \/ (len0 d W mr = r /\ mr <> Auto) ->
  (centred s -> ml = Auto /\ mr = Auto) ->
  widths d W e (with_edges mt mr mb ml pt pr pb pl bt br bb bl s) = (x, l, r).
Proof.
  intros E Hl Hr Hc. unfold widths in *. cbn [with_edges st_width st_margin_left st_margin_right st_direction]. change (limited_width d W (with_edges mt mr mb ml pt pr pb pl bt br bb bl s)) with (limited_width d W s).
  destruct (st_width s) as [|u] eqn:Ew.
  - assert (El : len0 d W ml = l) by (injection E as _ E _; destruct Hl as [->|[Hl _]]; assumption). assert (Er : len0 d W mr = r) by (injection E as _ _ E; destruct Hr as [->|[Hr _]]; assumption).
    rewrite El, Er. injection E as <- E1 E2. rewrite E1, E2. reflexivity.
  - set (y := limited_width d W s u) in *. set (L := len0 d W (st_margin_left s)) in *. set (R := len0 d W (st_margin_right s)) in *.
    destruct (st_margin_left s) as [|ul] eqn:Dl; destruct (st_margin_right s) as [|ur] eqn:Dr.
    { destruct Hc as [-> ->]; [split; [rewrite Ew; discriminate|split; assumption]|]. exact E. }
    all: assert (Irr : qc_ltb W W = false) by (destruct (qc_ltb_spec W W) as [H|]; [exfalso; apply (Qclt_not_eq _ _ H); reflexivity|reflexivity]).
    all: destruct (st_direction s); destruct (qc_ltb W (e + y + L + R)) eqn:Lt; injection E as E1 E2 E3;
      (destruct Hl as [->|[Hl Nl]]; [|destruct ml as [|vl]; [congruence|]]); (destruct Hr as [->|[Hr Nr]]; [|destruct mr as [|vr]; [congruence|]]).
    all: fold L R; rewrite ?Hl, ?Hr; cbn [len0] in *; rewrite <- ?E1, <- ?E2, <- ?E3.
    all: try (rewrite Lt; reflexivity).
    all: try (match goal with |- (if ?c then _ else _) = _ => destruct c end; f_equal; try f_equal; unfold L, R; cbn [len0]; ring).
Qed.
(** ** What is used of the boxes shown *)
Inductive seen : node -> utree -> Prop :=
| seen_box s i b ks u us : is_num (margin_top b) (u_mt u) -> is_num (margin_right b) (u_mr u) -> is_margin (margin_bottom b) (u_mb u) -> is_num (margin_left b) (u_ml u) ->
    nval (border_top_width b) = u_bt u -> nval (border_right_width b) = u_br u -> nval (border_bottom_width b) = u_bb u -> nval (border_left_width b) = u_bl u ->
    nval (padding_top b) = u_pt u -> nval (padding_right b) = u_pr u -> nval (padding_bottom b) = u_pb u -> nval (padding_left b) = u_pl u ->
    Forall2 seen ks us -> seen (Node s i (Some b) ks) (UNode u us)
| seen_hidden n : seen n UHidden
| seen_skipped n : seen n USkipped.
Lemma seen_shows (n : node) : forall t, RefLayout.shows n t -> seen n t.
Proof.
  induction n as [s i b ks IH] using node_ind'. intros t H. inversion H as [s0 i0 b0 ks0 u us Hu Hk| |]; subst; [|constructor|constructor].
  destruct Hu. constructor; try assumption. clear H. induction Hk as [|k v ks us H1 Hk IHk]; constructor.
  - apply IH; [left; reflexivity|exact H1].
  - apply IHk. intros k0 H0. apply IH. right. exact H0.
Qed.
Lemma seen_stack us : forall top prev (ks : list node), Forall2 seen ks (stack top prev us) -> Forall2 seen ks us.
Proof.
  induction us as [|v us IH]; intros top prev ks H; [exact H|]. destruct v as [u vs| |]; cbn [stack] in H; inversion H as [|k ? ks' ? H1 H2]; subst; constructor; try (eapply IH; exact H2); try constructor.
  inversion H1; subst. destruct u as [a1 a2 a3 a4 a5 a6 a7 a8 a9 a10 a11 a12 a13 a14 a15 a16 a17 a18]. cbn [move_down u_mt u_mr u_mb u_ml u_bt u_br u_bb u_bl u_pt u_pr u_pb u_pl] in *. constructor; assumption.
Qed.
(** ** Documents *)
Lemma edge_kid n out m j k : edges_down sty n out m -> nth_error (n_kids n) j = Some k ->
  exists ko k', nth_error (n_kids out) j = Some ko /\ nth_error (n_kids m) j = Some k' /\ edges_down sty k ko k'.
Proof.
  intros H Hk. destruct (H [j] k) as (o & c & Ho & Hc & _); [cbn [get_path]; rewrite Hk; reflexivity|]. cbn [get_path] in Ho, Hc.
  destruct (nth_error (n_kids out) j) as [ko|] eqn:Eo; [|discriminate]. destruct (nth_error (n_kids m) j) as [k'|] eqn:Em; [|discriminate].
  exists ko, k'. do 2 (split; [reflexivity|]). intros p a Ha. destruct (H (j :: p) a) as (o' & c' & X1 & X2 & X3); [cbn [get_path]; rewrite Hk; exact Ha|].
  cbn [get_path] in X1, X2. rewrite Eo in X1. rewrite Em in X2. exists o', c'. auto.
Qed.
Lemma edge_style n out m : edges_down sty n out m -> st_display (sty (n_style m)) = st_display (sty (n_style n)).
Proof.
  intros H. destruct (H [] n eq_refl) as (o & c & Ho & Hc & _ & _ & _ & X). injection Ho as <-. injection Hc as <-.
  destruct X as [->|(b & _ & _ & mt & mr & mb & ml & pt & pr & pb & pl & bt & br & bb & bl & -> & _)]; reflexivity.
Qed.
Lemma edge_blocks n out m : edges_down sty n out m ->
  map (fun k => block_level (sty (n_style k))) (n_kids m) = map (fun k => block_level (sty (n_style k))) (n_kids n).
Proof.
  intros H. destruct (H [] n eq_refl) as (o & c & Ho & Hc & _ & Le & _ & _). injection Hc as <-. apply nth_ext with (d := false) (d' := false); [rewrite !map_length; exact Le|].
  intros j Hj. rewrite map_length, Le in Hj. destruct (nth_error (n_kids n) j) as [k|] eqn:Ek; [|apply nth_error_None in Ek; lia].
  destruct (edge_kid n out m j k H Ek) as (ko & k' & _ & Em & Dk). set (f := fun k => block_level (sty (n_style k))).
  rewrite (nth_error_nth _ j false (map_nth_error f j (n_kids n) Ek)), (nth_error_nth _ j false (map_nth_error f j (n_kids m) Em)).
  unfold f, block_level. rewrite (edge_style _ _ _ Dk). reflexivity.
Qed.
Lemma format_edges (n : node) : forall out m a, edges_down sty n out m -> seen out (format sty d a n) -> format sty d a m = format sty d a n.
Proof.
  induction n as [s i bx ks IH] using node_ind'. intros out m a D Sn. pose proof (edge_style _ _ _ D) as Ed. pose proof (edge_blocks _ _ _ D) as Eb.
  assert (Dk := fun j k => edge_kid _ _ _ j k D). destruct (D [] _ eq_refl) as (o & c & Ho & Hc & Ei & Le & Lo & X). injection Ho as <-. injection Hc as <-.
  destruct m as [s' i' bx' ks']. cbn [n_style n_kids n_intr] in *. subst i'. rewrite !format_split in *. rewrite Ed. destruct (st_display (sty s)) as [dk|] eqn:Dis; [|reflexivity].
  assert (Es : stacks_ sty dk ks' = stacks_ sty dk ks).
  { unfold stacks_. destruct dk; try reflexivity; rewrite (existsb_map _ ks'), (existsb_map _ ks), Eb; reflexivity. }
  rewrite Es. set (st := stacks_ sty dk ks) in *. set (t := sty s') in *. set (s0 := sty s) in *.
  remember (node_of d a dk s0 i st (kids_of sty d (inner_of d a dk s0 i) st ks)) as tr eqn:E2 in Sn.
  destruct Sn as [so io b kso u us Smt Smr Smb Sml Sbt Sbr Sbb Sbl Spt Spr Spb Spl Sk|o|o]; [|unfold node_of in E2; discriminate E2..].
  cbn [n_kids n_box] in *.
  assert (Sk' : Forall2 seen kso (map (MoveProps.laid_kid sty d (inner_of d a dk s0 i) st) ks)).
  { unfold node_of in E2. cbv zeta in E2. injection E2 as _ E2. rewrite E2 in Sk. unfold kids_of in Sk. destruct st; [apply seen_stack in Sk|]; exact Sk. }
  assert (Kd : kids_of sty d (inner_of d a dk s0 i) st ks' = kids_of sty d (inner_of d a dk s0 i) st ks).
  { assert (Km : map (MoveProps.laid_kid sty d (inner_of d a dk s0 i) st) ks' = map (MoveProps.laid_kid sty d (inner_of d a dk s0 i) st) ks).
    { apply kids_pointwise; [exact Le|]. intros j k k' Hk Hk'. destruct (Dk j k Hk) as (ko & k1 & Eo & Em & Dj). rewrite Hk' in Em. injection Em as <-.
      assert (Sj : seen ko (MoveProps.laid_kid sty d (inner_of d a dk s0 i) st k)).
      { generalize (MoveProps.laid_kid sty d (inner_of d a dk s0 i) st) Sk'. intros g F0. clear -F0 Hk Eo. revert j kso F0 Hk Eo. induction ks as [|x ks IHk]; intros [|j] kso F Hk Eo; try discriminate; inversion F; subst; cbn in *; [congruence|]. eapply IHk; eassumption. }
      unfold MoveProps.laid_kid in *. pose proof (edge_style _ _ _ Dj) as Ej. unfold block_level in *. rewrite Ej. destruct (st && _); [reflexivity|].
      apply (IH k (nth_error_In _ _ Hk) ko k' _ Dj Sj). }
    unfold kids_of. rewrite Km. reflexivity. }
  destruct X as [Et|(b0 & Hb & Bl & mt & mr & mb & ml & pt & pr & pb & pl & bt & br & bb & bl & Et & (Wmt & Wmr & Wmb & Wml) & (Wpt & Wpr & Wpb & Wpl) & (Wbt & Wbr & Wbb & Wbl) & Cn)]; [rewrite Et, Kd; reflexivity|]. injection Hb as <-.
  assert (I : isinl dk = false) by (unfold block_level in Bl; rewrite Dis in Bl; destruct dk; try discriminate; reflexivity).
  unfold node_of in E2; cbv zeta in E2; injection E2 as Eu _. rewrite Eu in *. cbn [u_mt u_mr u_mb u_ml u_bt u_br u_bb u_bl u_pt u_pr u_pb u_pl] in *. clear Eu u.
  apply (f_border _ (or0 (a_w a))) in Wbt; [|exact Sbt]. apply (f_border _ (or0 (a_h a))) in Wbr; [|exact Sbr]. apply (f_border _ (or0 (a_w a))) in Wbb; [|exact Sbb]. apply (f_border _ (or0 (a_h a))) in Wbl; [|exact Sbl].
  apply (f_padding _ (or0 (a_w a))) in Wpt; [|exact Spt]. apply (f_padding _ (or0 (a_h a))) in Wpr; [|exact Spr]. apply (f_padding _ (or0 (a_w a))) in Wpb; [|exact Spb]. apply (f_padding _ (or0 (a_h a))) in Wpl; [|exact Spl].
  assert (Mt : len0 d (or0 (a_h a)) mt = len0 d (or0 (a_h a)) (st_margin_top s0)) by (apply (f_margin _ _ _ _ _ Wmt Smt); reflexivity).
  assert (Bt : bottoms d a dk t i = bottoms d a dk s0 i).
  { rewrite Et. unfold bottoms in *. rewrite I in *. cbn [andb is_margin with_edges st_margin_bottom] in *. f_equal. apply (f_margin _ _ _ _ _ Wmb Smb). reflexivity. }
  assert (Hd : hedges d (or0 (a_h a)) t = hedges d (or0 (a_h a)) s0) by (rewrite Et; unfold hedges; cbn [with_edges st_border_left st_border_right st_padding_left st_padding_right]; rewrite Wbl, Wbr, Wpl, Wpr; reflexivity).
  assert (Wm : wmargins d a dk t i = wmargins d a dk s0 i).
  { apply (f_used _ (or0 (a_w a)) _ _ _ Wml) in Sml. apply (f_used _ (or0 (a_w a)) _ _ _ Wmr) in Smr. unfold wmargins in *. rewrite I, Hd in *. destruct (widths d (or0 (a_w a)) (hedges d (or0 (a_h a)) s0) s0) as [[y1 y2] y3] eqn:Ew. cbn [fst snd] in *.
    rewrite Et. rewrite (f_widths _ _ _ mt mr mb ml pt pr pb pl bt br bb bl _ _ _ Ew Sml Smr Cn). reflexivity. }
  assert (Lf : lefts d a dk t i = lefts d a dk s0 i) by (unfold lefts; rewrite Wm, Et; cbn [with_edges st_border_left st_padding_left]; rewrite Wbl, Wpl; reflexivity).
  assert (Eg : edges d a dk t = edges d a dk s0) by (rewrite Et; unfold edges; rewrite I; cbn [with_edges st_border_top st_padding_top]; rewrite Wbt, Wpt; reflexivity).
  assert (Rl : isrel t = isrel s0) by (rewrite Et; reflexivity).
  assert (Hg : forall last, hgt d a dk t i last = hgt d a dk s0 i last) by (intros last; unfold hgt; rewrite I, Et; reflexivity).
  assert (In : inner_of d a dk t i = inner_of d a dk s0 i) by (unfold inner_of; rewrite Wm, Lf, Eg, Rl, Hg, Et; reflexivity).
  rewrite In, Kd. unfold node_of. cbv zeta. rewrite Wm, Lf, Eg, Bt, Rl, Hg, Et.
  cbn [with_edges st_height st_margin_top st_border_top st_border_right st_border_bottom st_border_left st_padding_top st_padding_right st_padding_bottom st_padding_left st_left st_right st_top st_bottom].
  rewrite Mt, Wbt, Wbr, Wbb, Wbl, Wpt, Wpr, Wpb, Wpl. reflexivity.
Qed.
(** C194: writing down used edges moves nothing. *)
Theorem C194_edges_down h5 (n m out out' : node) : history sty n -> history sty m -> layout sty d h5 n = (out, Ok tt) ->
  edges_down sty n out m -> layout sty d h5 m = (out', Ok tt) -> exists t, RefLayout.shows out t /\ RefLayout.shows out' t.
Proof.
  intros Hn Hm Ln D Lm. pose proof (C122_any_history sty d h5 n out Hn Ln) as Sn. exists (page sty d h5 n). split; [exact Sn|].
  pose proof (C122_any_history sty d h5 m out' Hm Lm) as Sm. rewrite page_draft in *. unfold draft in *. set (a := mkArea (Some (nval (disp_width d))) (Some (nval (disp_height d))) 0 0 None) in *.
  rewrite <- (format_edges n out m a); [exact Sm|exact D|].
  pose proof (seen_shows _ _ Sn) as X. destruct (format sty d a n) as [u us| |]; cbn [finished] in X; [|constructor|constructor].
  destruct u as [a1 a2 a3 a4 a5 a6 a7 a8 a9 a10 a11 a12 a13 a14 a15 a16 a17 a18]. cbn [completed] in X. inversion X; subst. cbn [u_mt u_mr u_mb u_ml u_bt u_br u_bb u_bl u_pt u_pr u_pb u_pl] in *. constructor; assumption.
Qed.
(** ** Layouts do not fail for it *)
Lemma e_margin v declared m k : margin_written v declared m -> measurable_or_auto k declared = true -> measurable_or_auto k m = true.
Proof. intros [->|(x & _ & _ & ->)] H; [exact H|]. apply meas_pixels. Qed.
Lemma e_padding v declared m k : padding_written v declared m -> measurable k declared = true -> measurable k m = true.
Proof. intros [->|(_ & ->)] H; [exact H|]. apply meas_pixels. Qed.
Lemma e_border v declared m k : border_written v declared m -> measurable_border k declared = true -> measurable_border k m = true.
Proof. intros [->|(_ & ->)] H; [exact H|]. apply meas_pixels. Qed.
Lemma edge_alike n out m : edges_down sty n out m -> block_child sty m = block_child sty n /\ kind_of (sty (n_style m)) (n_intr m) = kind_of (sty (n_style n)) (n_intr n) /\ n_intr m = n_intr n.
Proof.
  intros H. destruct (H [] n eq_refl) as (o & c & Ho & Hc & Ei & _ & _ & X). injection Ho as <-. injection Hc as <-. unfold block_child, kind_of.
  destruct X as [->|(b & _ & _ & mt & mr & mb & ml & pt & pr & pb & pl & bt & br & bb & bl & -> & _)]; rewrite Ei; cbn [with_edges st_display st_float st_position]; auto.
Qed.
Lemma can_lay_edges (n : node) : forall out m a, edges_down sty n out m -> boxed n -> boxed m -> can_lay sty a n = true -> can_lay sty a m = true.
Proof.
  induction n as [s i bx ks IH] using node_ind'. intros out m a D Bn Bm H. assert (Dk := fun j k => edge_kid _ _ _ j k D). pose proof (edge_alike _ _ _ D) as (Ec & Ek & Ei).
  pose proof (edge_style _ _ _ D) as Ed. destruct (D [] _ eq_refl) as (o & c & Ho & Hc & _ & Le & _ & X). injection Ho as <-. injection Hc as <-.
  destruct m as [s' i' bx' ks']. cbn [n_style n_kids n_intr] in *. subst i'. cbn [can_lay] in *. rewrite Ed. destruct (st_display (sty s)) as [dk|] eqn:Dis; [|reflexivity].
  rewrite Ek. destruct (kind_of (sty s) i) as [kd|] eqn:Kd; [|discriminate]. set (t := sty s') in *. set (s0 := sty s) in *.
  assert (Y : relative t = relative s0 /\ st_height t = st_height s0 /\ (edges_ok a s0 = true -> edges_ok a t = true) /\ width_ok a kd t i = width_ok a kd s0 i
    /\ (forall last, height_ok a kd t last = height_ok a kd s0 last) /\ (st_left t, st_right t, st_top t, st_bottom t) = (st_left s0, st_right s0, st_top s0, st_bottom s0)).
  { destruct X as [->|(b & _ & Bl & mt & mr & mb & ml & pt & pr & pb & pl & bt & br & bb & bl & -> & (Wmt & Wmr & Wmb & Wml) & (Wpt & Wpr & Wpb & Wpl) & (Wbt & Wbr & Wbb & Wbl) & _)]; [repeat split; auto|].
    assert (kd = Block) as -> by (unfold block_level in Bl; fold s0 in Bl; unfold kind_of in Kd; rewrite Dis in *; destruct dk; try discriminate; destruct (st_float s0), (st_position s0), (s_replaced i); congruence).
    do 2 (split; [reflexivity|]). split; [|repeat split; reflexivity].
    unfold edges_ok. cbn [with_edges st_margin_left st_margin_right st_margin_top st_margin_bottom st_border_top st_border_bottom st_border_left st_border_right st_padding_top st_padding_bottom st_padding_left st_padding_right forallb].
    rewrite !andb_true_iff. intros A. repeat match goal with H : _ /\ _ |- _ => destruct H end.
    repeat split; first [eapply e_margin; eassumption|eapply e_padding; eassumption|eapply e_border; eassumption]. }
  destruct Y as (Rl & Eh & Eo & Ew & Eht & Off). injection Off as O1 O2 O3 O4.
  assert (F : Forall2 (fun k k' => block_child sty k' = block_child sty k /\ kind_of (sty (n_style k')) (n_intr k') = kind_of (sty (n_style k)) (n_intr k) /\ n_intr k' = n_intr k /\ boxed k /\ boxed k') ks ks').
  { apply o_pointwise; [exact Le|]. intros j k k' Hk Hk'. destruct (Dk j k Hk) as (ko & k1 & _ & Em & Dj). rewrite Hk' in Em. injection Em as <-. destruct (edge_alike _ _ _ Dj) as (A1 & A2 & A3).
    inversion Bn as [? ? ? ? Kn]; subst. inversion Bm as [? ? ? ? Km]; subst. repeat split; try assumption; [apply Kn, (nth_error_In _ _ Hk)|apply Km, (nth_error_In _ _ Hk')]. }
  destruct (o_last sty ks ks' F) as [El Es]. destruct (o_first sty ks ks' F) as [Ee Ef]. rewrite Ee, Ef, Rl, El, Es, Eh, Ew, !Eht, O1, O2, O3, O4.
  repeat rewrite andb_true_iff in *. destruct H as ((((H1 & H2) & H3) & H4) & H5). split; [split; [split; [split; [apply Eo, H1|exact H2]|exact H3]|]|exact H5].
  set (inner := mkAround _ _ false _) in *.
  assert (Kk : forall k', In k' ks' -> exists k, In k ks /\ block_child sty k' = block_child sty k /\ (can_lay sty inner k = true -> can_lay sty inner k' = true)).
  { intros k' Hk'. destruct (In_nth_error _ _ Hk') as [j Hj].
    assert (Hk : exists k, nth_error ks j = Some k) by (destruct (nth_error ks j) as [k|] eqn:E; [eauto|apply nth_error_None in E; assert (j < length ks')%nat by (apply nth_error_Some; congruence); lia]).
    destruct Hk as [k Hk]. destruct (Dk j k Hk) as (ko & k1 & _ & Em & Dj). rewrite Hj in Em. injection Em as <-. destruct (edge_alike _ _ _ Dj) as (A1 & _).
    inversion Bn as [? ? ? ? Kn]; subst. inversion Bm as [? ? ? ? Km]; subst. exists k. split; [apply (nth_error_In _ _ Hk)|]. split; [exact A1|].
    apply (IH k (nth_error_In _ _ Hk) ko k' inner Dj); [apply Kn, (nth_error_In _ _ Hk)|apply Km, Hk']. }
  destruct (match dk with DBlock | DListItem => existsb (block_child sty) ks | _ => false end).
  - apply andb_true_iff in H4. destruct H4 as [H4 H6]. rewrite H4. cbn [andb]. rewrite forallb_forall in *. intros k' Hk'. destruct (Kk k' Hk') as (k & Ik & Eb & C). specialize (H6 k Ik). rewrite Eb. cbn beta in H6. destruct (block_child sty k); [apply C, H6|reflexivity].
  - rewrite forallb_forall in *. intros k' Hk'. destruct (Kk k' Hk') as (k & Ik & _ & C). apply C, H4, Ik.
Qed.
Theorem C194_succeeds h5 h5' (n m out : node) : boxed n -> boxed m -> history sty n -> history sty m -> layout sty d h5 n = (out, Ok tt) ->
  edges_down sty n out m -> exists out', layout sty d h5' m = (out', Ok tt).
Proof.
  intros Bn Bm Hn Hm Ln D. apply (C123_exactly_when sty d h5' m Hm). assert (C : can_lay_out sty n = true) by (apply (C123_exactly_when sty d h5 n Hn); eauto).
  unfold can_lay_out in *. repeat rewrite andb_true_iff in *. destruct C as [[C1 C2] C3]. rewrite (edge_style _ _ _ D). split; [split; [inversion Bm; reflexivity|exact C2]|].
  apply (can_lay_edges n out m (mkAround true true true None)); assumption.
Qed.
End T.

(** ** Examples *)
Open Scope Z_scope.
Definition edoc (s c : style) : doc := el block_style [el (hpx 10 block_style) []; el s [el (hpx 20 block_style) []]; el c []; el (hpx 10 block_style) []].
Definition edoc_block (ml mr : lenauto) (p : unit_) (b : bwidth) : style :=
  s_size (Len (pxu 500)) Auto (s_margin (Len (pxu 4)) mr (Len (pxu 5)) ml (s_padding p (pxu 3) p (pxu 4) (s_border b (BLen (pxu 1)) (BLen (pxu 1)) (BLen (pxu 1)) block_style))).
Definition edoc_centred (ml mr : lenauto) : style := s_size (Len (pxu 501)) (Len (pxu 5)) (s_margin (Len (pxu 4)) mr (Len (pxu 5)) ml block_style).
(** The left margin is 100px, the right one, which is too small, is used as 391px, the paddings are 10px and the border is 3px. *)
Definition edoc1 := edoc (edoc_block (Len (pctu 10)) (Len (pxu 0)) (pctu 1) (BKw Medium)) (edoc_centred Auto Auto).
Definition edoc2 := edoc (edoc_block (Len (pixels (NI 100))) (Len (pixels (NI 391))) (pixels (NI 10)) (BLen (pixels (NI 3)))) (edoc_centred Auto Auto).
Lemma edges_node {S} (sty : S -> style) s i b ks os oi ob oks cs cb cks :
  sty cs = sty s \/ (exists b, ob = Some b /\ block_level (sty s) = true /\ edges_written b (sty s) (sty cs)) ->
  all3 (edges_down sty) ks oks cks -> edges_down sty (Node s i b ks) (Node os oi ob oks) (Node cs i cb cks).
Proof.
  intros H K. assert (L : length oks = length ks /\ length cks = length ks) by (clear -K; induction K as [|? ? ? ? ? ? ? ? [IH1 IH2]]; [split; reflexivity|cbn [length]; rewrite IH1, IH2; split; reflexivity]).
  intros [|j p] a Hp.
  - injection Hp as <-. exists (Node os oi ob oks), (Node cs i cb cks). cbn [get_path n_intr n_kids n_style n_box]. destruct L. repeat split; auto.
  - cbn [get_path n_kids] in *. destruct (nth_error ks j) as [k|] eqn:Ej; [|discriminate].
    enough (X : exists o c, nth_error oks j = Some o /\ nth_error cks j = Some c /\ edges_down sty k o c) by (destruct X as (o & c & -> & -> & X); apply (X p a Hp)).
    clear -K Ej. revert j Ej. induction K as [|x y z xs ys zs Hx _ IH]; intros [|j] Ej; try discriminate; cbn [nth_error] in *; [injection Ej as <-; eauto|apply IH, Ej].
Qed.
Lemma edoc_down : edges_down idsty edoc1 (out false edoc1) edoc2.
Proof.
  generalize (eq_refl (out false edoc1)). generalize (out false edoc1) at 2 3. intros o E. vm_compute in E. subst o. unfold edoc1, edoc2, edoc, el.
  repeat first [apply all3_cons|apply all3_nil|apply edges_node]; try (left; reflexivity).
  right. eexists. split; [reflexivity|]. split; [reflexivity|].
  exists (Len (pxu 4)), (Len (pixels (NI 391))), (Len (pxu 5)), (Len (pixels (NI 100))), (pixels (NI 10)), (pxu 3), (pixels (NI 10)), (pxu 4),
    (BLen (pixels (NI 3))), (BLen (pxu 1)), (BLen (pxu 1)), (BLen (pxu 1)).
  split; [reflexivity|]. split; [|split; [|split]].
  - split; [left; reflexivity|]. split; [right; exists (NI 391); split; [reflexivity|split; [apply grid_NI|reflexivity]]|]. split; [left; reflexivity|]. right. exists (NI 100). split; [reflexivity|split; [apply grid_NI|reflexivity]].
  - split; [right; split; [apply grid_NI|reflexivity]|]. split; [left; reflexivity|]. split; [right; split; [apply grid_NI|reflexivity]|left; reflexivity].
  - split; [right; split; [apply grid_NI|reflexivity]|]. repeat split; left; reflexivity.
  - intros (_ & X & _). discriminate X.
Qed.
Example C194_example : boxed edoc1 /\ boxed edoc2 /\ history idsty edoc1 /\ history idsty edoc2 /\ layout idsty screen false edoc1 = (out false edoc1, Ok tt)
  /\ edges_down idsty edoc1 (out false edoc1) edoc2 /\ layout idsty screen false edoc2 = (out false edoc2, Ok tt)
  /\ tops (out false edoc1) = [0; 27; 63; 73]%Q /\ tops (out false edoc2) = [0; 27; 63; 73]%Q.
Proof.
  split; [solve_boxed|]. split; [solve_boxed|]. do 2 (split; [apply history_new; solve_new|]). split; [apply ok_layout; vm_compute; reflexivity|]. split; [apply edoc_down|].
  split; [apply ok_layout; vm_compute; reflexivity|split; vm_compute; reflexivity].
Qed.
(** The margins of centred blocks must stay auto: both are rounded down, and the right one is longer once they are written down. *)
Definition edoc3 := edoc (edoc_block (Len (pctu 10)) (Len (pxu 0)) (pctu 1) (BKw Medium)) (edoc_centred (Len (pxu 249)) (Len (pxu 249))).
Example C194_centred : layout idsty screen false edoc1 = (out false edoc1, Ok tt) /\ layout idsty screen false edoc3 = (out false edoc3, Ok tt)
  /\ margin_left (bx (kid 2 (out false edoc1))) = LNum (NI 249) /\ margin_right (bx (kid 2 (out false edoc1))) = LNum (NI 249)
  /\ margin_right (bx (kid 2 (out false edoc3))) = LNum (NI 250).
Proof. do 2 (split; [apply ok_layout; vm_compute; reflexivity|]). split; [|split]; vm_compute; reflexivity. Qed.
Print Assumptions C194_edges_down.
Print Assumptions C194_succeeds.
