(** * C200: limits that are not reached *)
From Coq Require Import ZArith QArith Qcanon Qround Lia Lqa Bool List.
From Verif Require Import PyNum NumFacts Units BoxModel BoxSpec BoxFacts Engine EngineSpec EngineExamples
  RefLayout RefFacts RefProps OkSpec OkFacts HistSpec HistProps MoveSpec MoveProps LocalProps PushSpec PushProps PixelSpec OkProps SymProps TradeSpec LimitSpec.
Import ListNotations.
Open Scope Qc_scope.

Section T.
Context {S : Type} (sty : S -> style) (d : display_t).
Notation node := (node S).
Lemma below_min P x y v : below d x v -> match v with Some m => qc_min y (len d P m) | None => y end = x -> y = x.
Proof.
  intros B. destruct v as [m|]; [|auto]. destruct (B m eq_refl) as [N L]. rewrite (len_no_pct d P 0 m N). unfold qc_min. destruct (qc_ltb_spec (len d 0 m) y) as [Q|Q]; [|auto].
  intros E. rewrite E in L. exfalso. apply (Qclt_not_eq _ _ L). reflexivity.
Qed.
Lemma above_max P x y v : above d x v -> match v with Len m => qc_maxi y (len d P m) | Auto => y end = x -> y = x.
Proof.
  intros B. destruct v as [|m]; [auto|]. destruct (B m eq_refl) as [N L]. rewrite (len_no_pct d P 0 m N). unfold qc_maxi. destruct (qc_ltb_spec y (len d 0 m)) as [Q|Q]; [|auto].
  intros E. rewrite E in L. exfalso. apply (Qclt_not_eq _ _ L). reflexivity.
Qed.
Lemma keeps_min P x v : not_over d x v -> match v with Some m => qc_min x (len d P m) | None => x end = x.
Proof.
  intros B. destruct v as [m|]; [|auto]. destruct (B m eq_refl) as [N L]. rewrite (len_no_pct d P 0 m N). unfold qc_min. destruct (qc_ltb_spec (len d 0 m) x) as [Q|Q]; [|auto].
  exfalso. apply (Qclt_not_le _ _ Q L).
Qed.
Lemma keeps_max P x v : not_under d x v -> match v with Len m => qc_maxi x (len d P m) | Auto => x end = x.
Proof.
  intros B. destruct v as [|m]; [auto|]. destruct (B m eq_refl) as [N L]. rewrite (len_no_pct d P 0 m N). unfold qc_maxi. destruct (qc_ltb_spec x (len d 0 m)) as [Q|Q]; [|auto].
  exfalso. apply (Qclt_not_le _ _ Q L).
Qed.
Lemma l_widths W e s u mw Mw Mh : slack_width d u s mw Mw -> u_w u = Some (fst (fst (widths d W e s))) -> widths d W e (with_limits mw Mw Mh s) = widths d W e s.
Proof.
  intros [[-> ->]|(x & Hx & B & A & O & U)] E; [reflexivity|]. rewrite Hx in E. injection E as E. unfold widths in *. cbn [with_limits st_width st_margin_left st_margin_right st_direction].
  destruct (st_width s) as [|w]; [reflexivity|].
  assert (X : limited_width d W s w = x).
  { rewrite E. destruct (qc_ltb _ _), (st_direction s), (st_margin_left s), (st_margin_right s); reflexivity. }
  assert (Y : limited_width d W (with_limits mw Mw Mh s) w = x).
  { unfold limited_width in *. cbn [with_limits st_max_width st_min_width]. apply (above_max W x _ _ A) in X. apply (below_min W x _ _ B) in X. rewrite X, (keeps_min W x Mw O). apply keeps_max, U. }
  rewrite X, Y. reflexivity.
Qed.
Lemma l_wmargins a dk s i u mw Mw Mh : slack_width d u s mw Mw -> u_w u = fst (fst (wmargins d a dk s i)) -> wmargins d a dk (with_limits mw Mw Mh s) i = wmargins d a dk s i.
Proof.
  intros Sl E. unfold wmargins in *. change (hedges d (or0 (a_h a)) (with_limits mw Mw Mh s)) with (hedges d (or0 (a_h a)) s). destruct (isinl dk); [reflexivity|].
  rewrite (l_widths _ _ s u mw Mw Mh Sl); [reflexivity|]. rewrite E. destruct (widths _ _ _ s) as [[? ?] ?]. reflexivity.
Qed.
Lemma l_hgt a dk s i u mw Mw Mh l : slack_width d u s mw Mw -> slack_height d u s Mh -> u_w u = fst (fst (wmargins d a dk s i)) -> u_h u = hgt d a dk s i l ->
  forall last, hgt d a dk (with_limits mw Mw Mh s) i last = hgt d a dk s i last.
Proof.
  intros Sw Sh Ew Eh last. unfold hgt in *. rewrite (l_wmargins a dk s i u mw Mw Mh Sw Ew). destruct (isinl dk); [reflexivity|]. f_equal.
  unfold used_block_height, spec_height in *. cbn [with_limits st_height st_max_height st_min_height]. destruct (st_height s) as [|h]; [reflexivity|].
  destruct Sh as [->|(x & Hx & B & O)]; [reflexivity|]. rewrite Hx in Eh. injection Eh as Eh. symmetry in Eh. pose proof (below_min _ x _ _ B Eh) as E. transitivity x; [|symmetry; exact Eh]. cbv beta iota zeta. rewrite E. apply keeps_min, O.
Qed.
Lemma l_down r t s mw Mw Mh : (slack_width d (move_down r t) s mw Mw -> slack_width d t s mw Mw) /\ (slack_height d (move_down r t) s Mh -> slack_height d t s Mh).
Proof. destruct t. unfold slack_width, slack_height. cbn. auto. Qed.
Lemma l_stack (us : list utree) : forall top prev (ks ks' : list node), all3 (loosened sty d false) ks (stack top prev us) ks' -> all3 (loosened sty d false) ks us ks'.
Proof.
  induction us as [|v us IH]; intros top prev ks ks' H; [exact H|]. destruct v as [u vs| |]; cbn [stack] in H; inversion H as [|k ? k' ksr ? ksr' H1 H2]; subst; constructor; try (eapply IH; exact H2); try exact H1.
  inversion H1; subst. econstructor; [eassumption| | |assumption|assumption]; eapply l_down; eassumption.
Qed.
Lemma l_display fx (n m : node) t : loosened sty d fx n t m -> st_display (sty (n_style m)) = st_display (sty (n_style n)).
Proof. intros [? ? ? ? ? ? ? ? ? ? ? ? ? E|? ? ? E|? ? ? E]; cbn [n_style]; [rewrite E; reflexivity|exact E|exact E]. Qed.
Lemma l_blocks (ks ks' : list node) ts : all3 (loosened sty d false) ks ts ks' ->
  existsb (fun k => block_level (sty (n_style k))) ks' = existsb (fun k => block_level (sty (n_style k))) ks.
Proof. induction 1 as [|k t k' ks ts ks' H _ IH]; [reflexivity|]. cbn [existsb]. unfold block_level at 1 3. rewrite (l_display _ _ _ _ H), IH. reflexivity. Qed.
Lemma format_loosened (n : node) : forall fx m a, loosened sty d fx n (format sty d a n) m -> format sty d a m = format sty d a n.
Proof.
  induction n as [s i b ks IH] using node_ind'. intros fx m a H. rewrite format_split in H |- *. pose proof (l_display _ _ _ _ H) as Ed. destruct m as [s' i' b' ks']. cbn [n_style] in Ed. rewrite format_split, Ed.
  destruct (st_display (sty s)) as [dk|]; [|reflexivity].
  set (st := stacks_ sty dk ks) in *. set (inner := inner_of d a dk (sty s) i) in *. remember (node_of d a dk (sty s) i st (kids_of sty d inner st ks)) as t eqn:Et. rewrite Et.
  destruct t as [u us| |]; [|unfold node_of in Et; cbv zeta in Et; discriminate..].
  assert (Ew : u_w u = fst (fst (wmargins d a dk (sty s) i))) by (unfold node_of in Et; cbv zeta in Et; injection Et as -> _; reflexivity).
  assert (Eh : u_h u = hgt d a dk (sty s) i (last_kid (kids_of sty d inner st ks))) by (unfold node_of in Et; cbv zeta in Et; injection Et as -> _; reflexivity).
  assert (Eu : us = kids_of sty d inner st ks) by (unfold node_of in Et; cbv zeta in Et; injection Et as _ Et; exact Et). clear Et.
  inversion H as [? ? ? ? ? ? ? ? ? ? mw Mw Mh Es Sw Sh _ K| |]; subst. clear H.
  pose proof (l_blocks _ _ _ K) as Eb. assert (St : stacks_ sty dk ks' = st) by (unfold st, stacks_; destruct dk; try reflexivity; exact Eb). rewrite St, Es.
  pose proof (l_wmargins a dk _ i' u mw Mw Mh Sw Ew) as Wm. pose proof (l_hgt a dk _ i' u mw Mw Mh _ Sw Sh Ew Eh) as Hg.
  assert (In : inner_of d a dk (with_limits mw Mw Mh (sty s)) i' = inner) by (unfold inner, inner_of; rewrite Hg; unfold lefts; rewrite Wm; reflexivity).
  rewrite In.
  assert (Kd : kids_of sty d inner st ks' = kids_of sty d inner st ks).
  { assert (K' : all3 (loosened sty d false) ks (map (MoveProps.laid_kid sty d inner st) ks) ks') by (unfold kids_of in K; destruct st; [apply l_stack in K|]; exact K).
    assert (Km : map (MoveProps.laid_kid sty d inner st) ks' = map (MoveProps.laid_kid sty d inner st) ks); [|unfold kids_of; rewrite Km; reflexivity].
    clearbody st inner. clear -IH K'. remember (map (MoveProps.laid_kid sty d inner st) ks) as ts eqn:Ets in K'. revert Ets. induction K' as [|k t k' ks ts ks' H K' IHk]; intros Ets; [reflexivity|]. cbn [map] in *. injection Ets as Et Ets.
    f_equal; [|apply IHk; [intros x Hx; apply IH; right; exact Hx|exact Ets]]. pose proof (l_display _ _ _ _ H) as Ed. subst t. unfold MoveProps.laid_kid, block_level in *. rewrite Ed. destruct (st && _); [reflexivity|]. apply (IH k (or_introl eq_refl) false k' inner H). }
  rewrite Kd. unfold node_of. cbv zeta. rewrite Hg. unfold lefts. rewrite Wm. reflexivity.
Qed.
(** C200.  Limits of widths and upper limits of heights that the used sizes do not reach may be left out or
    exchanged for others that the sizes respect: nothing on the page changes. *)
Theorem C200_unreached h5 (n m n' m' : node) : history sty n -> history sty m ->
  layout sty d h5 n = (n', Ok tt) -> layout sty d h5 m = (m', Ok tt) -> loosened sty d h5 n (page sty d h5 n) m ->
  exists t, shows n' t /\ shows m' t.
Proof.
  intros Hn Hm Ln Lm H. exists (page sty d h5 n). split; [apply (C122_any_history sty); assumption|].
  assert (E : page sty d h5 m = page sty d h5 n); [|rewrite <- E; apply (C122_any_history sty); assumption].
  rewrite !page_draft in *. f_equal. unfold draft in *. apply (format_loosened n h5 m). destruct (format _ _ _ n) as [u us| |]; cbn [finished] in H; [|exact H..].
  inversion H as [? ? ? ? ? ? ? ? ? ? mw Mw Mh Es Sw Sh F K| |]; subst. destruct u as [a1 a2 a3 a4 a5 a6 a7 a8 a9 a10 a11 a12 a13 a14 a15 a16 a17 a18]. econstructor; [exact Es|exact Sw| |exact F|exact K].
  destruct h5; [left; apply F; reflexivity|exact Sh].
Qed.
(** Whether they can be laid out at all is the same. *)
Lemma limit_any b u : measurable false u = true -> measurable b u = true.
Proof. unfold measurable. destruct (finite _); [|discriminate]. destruct (u_kind u); try discriminate; auto. Qed.
Lemma limits_known b s : plain_limits s -> measurable_or_auto b (st_min_width s) = true /\ measurable_if_any b (st_max_width s) = true /\ measurable_if_any b (st_max_height s) = true.
Proof.
  intros (H1 & H2 & H3). destruct (st_min_width s), (st_max_width s), (st_max_height s); cbn in *; repeat split; try reflexivity; apply limit_any; assumption.
Qed.
Lemma limits_fit s t i : limits_differ s t -> fit_pair s i t i.
Proof.
  intros (Ps & Pt & mw & Mw & Mh & ->). split; [reflexivity|]. split; [reflexivity|]. split; [reflexivity|]. split.
  { unfold own_height. cbn. destruct (st_height s); cbn; [exact I|]. intros k. reflexivity. }
  intros kd _ _. split; [reflexivity|]. split; [reflexivity|]. intros a a' (Fw & Fh & Fd & Fs). split; [|split; [|split]].
  - unfold edges_ok. rewrite Fw, Fh. reflexivity.
  - destruct (limits_known true s Ps) as (S1 & S2 & _). destruct (limits_known true _ Pt) as (T1 & T2 & _).
    unfold width_ok. rewrite Fw. destruct kd; try reflexivity. cbn [with_limits st_width st_min_width st_max_width] in *. destruct (st_width s); [reflexivity|]. rewrite S1, S2, T1, T2. reflexivity.
  - destruct (limits_known (h_known a) s Ps) as (_ & _ & S3). destruct (limits_known (h_known a) _ Pt) as (_ & _ & T3).
    intros last. unfold height_ok. cbn [with_limits st_height st_min_height st_margin_top st_max_height] in *. rewrite Fh. destruct kd, (st_height s); try reflexivity. rewrite S3, T3. destruct (spec_h a), (spec_h a'); cbn in Fs; try contradiction; rewrite ?Fs; reflexivity.
  - intros _. rewrite Fw, Fh. unfold offsets_ok. rewrite Fd. split; reflexivity.
Qed.
Theorem C200_succeeds h5 h5' (n m : node) : boxed n -> boxed m -> history sty n -> history sty m -> everywhere sty limits_differ n m ->
  ((exists n', layout sty d h5 n = (n', Ok tt)) <-> (exists m', layout sty d h5' m = (m', Ok tt))).
Proof.
  intros Bn Bm Hn Hm Z. rewrite (C123_exactly_when sty d h5 n Hn), (C123_exactly_when sty d h5' m Hm).
  rewrite (can_lay_out_fit sty (everywhere sty limits_differ) ltac:(intros x y [s s' i b b' ks ks' Zs F]; split; [apply limits_fit; exact Zs|exact F]) n m Z Bn Bm). reflexivity.
Qed.
End T.
Print Assumptions C200_unreached.
Print Assumptions C200_succeeds.

(** ** Example *)
Open Scope Z_scope.
(** A box of half of 1000px and a box of 40px, 25px high in it, with limits. *)
Definition ldoc (mw mw' : lenauto) (Mw Mw' Mh' : option unit_) : doc :=
  el block_style
    [el (s_limits mw Auto Mw None (s_size (Len (pctu 50)) Auto block_style))
       [el (s_limits mw' Auto Mw' Mh' (s_size (Len (pxu 40)) (Len (pxu 25)) block_style)) []; el (hpx 20 block_style) []];
     el (hpx 10 block_style) []].
Definition ldoc1 := ldoc (Len (pxu 100)) (Len (pxu 39)) (Some (pxu 501)) None (Some (pxu 26)).
Definition ldoc2 := ldoc Auto Auto (Some (pxu 500)) (Some (pxu 40)) None.
Example C200_example : boxed ldoc1 /\ boxed ldoc2 /\ history idsty ldoc1 /\ history idsty ldoc2
  /\ layout idsty screen false ldoc1 = (out false ldoc1, Ok tt) /\ layout idsty screen false ldoc2 = (out false ldoc2, Ok tt)
  /\ loosened idsty screen false ldoc1 (page idsty screen false ldoc1) ldoc2 /\ everywhere idsty limits_differ ldoc1 ldoc2.
Proof.
  split; [solve_boxed|]. split; [solve_boxed|]. do 2 (split; [apply history_new; solve_new|]). do 2 (split; [apply ok_layout; vm_compute; reflexivity|]). split.
  - match goal with |- loosened _ _ _ _ ?t _ => let v := eval vm_compute in t in replace t with v by (vm_compute; reflexivity) end.
    unfold ldoc1, ldoc2, ldoc, el.
    repeat match goal with |- all3 _ _ _ _ => constructor | |- loosened _ _ _ _ _ _ => eapply loosened_box; [vm_compute; reflexivity| | |discriminate|] end.
    all: first [left; split; reflexivity|left; reflexivity|right; eexists; split; [reflexivity|]; repeat split; intros; match goal with X : _ = _ |- _ => try discriminate X; vm_compute in X; try discriminate X; injection X as <- end; vm_compute; try reflexivity; try discriminate].
  - unfold ldoc1, ldoc2, ldoc, el. repeat match goal with |- Forall2 _ _ _ => constructor | |- everywhere _ _ _ _ => apply everywhere_node end; (split; [repeat split; reflexivity|split; [repeat split; reflexivity|do 3 eexists; vm_compute; reflexivity]]).
Qed.
