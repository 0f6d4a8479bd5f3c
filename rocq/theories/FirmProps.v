(** * C203: a bottom margin that is not larger than the top margin below it *)
From Coq Require Import ZArith QArith Qcanon Qround Lia Lqa Bool List.
From Verif Require Import PyNum NumFacts Units BoxModel BoxSpec BoxFacts Engine EngineSpec EngineExamples
  RefLayout RefFacts RefProps OkSpec OkFacts HistSpec HistProps MoveSpec MoveProps LocalProps PushSpec PushProps PixelSpec OkProps SymProps TradeSpec FirmSpec.
Import ListNotations.
Open Scope Qc_scope.

Lemma bb_inv u v : but_bottom u = but_bottom v ->
  u_mt u = u_mt v /\ u_mr u = u_mr v /\ u_ml u = u_ml v /\ u_bt u = u_bt v /\ u_br u = u_br v /\ u_bb u = u_bb v /\ u_bl u = u_bl v /\ u_pt u = u_pt v /\ u_pr u = u_pr v /\ u_pb u = u_pb v /\ u_pl u = u_pl v
  /\ u_left u = u_left v /\ u_top u = u_top v /\ u_w u = u_w v /\ u_h u = u_h v /\ u_ct u = u_ct v.
Proof.
  intros H. unfold but_bottom in H. repeat split; first [exact (f_equal (fun p => nth 0 (fst (fst p)) 0) H)|exact (f_equal (fun p => nth 1 (fst (fst p)) 0) H)|exact (f_equal (fun p => nth 2 (fst (fst p)) 0) H)|exact (f_equal (fun p => nth 3 (fst (fst p)) 0) H)
    |exact (f_equal (fun p => nth 4 (fst (fst p)) 0) H)|exact (f_equal (fun p => nth 5 (fst (fst p)) 0) H)|exact (f_equal (fun p => nth 6 (fst (fst p)) 0) H)|exact (f_equal (fun p => nth 7 (fst (fst p)) 0) H)
    |exact (f_equal (fun p => nth 8 (fst (fst p)) 0) H)|exact (f_equal (fun p => nth 9 (fst (fst p)) 0) H)|exact (f_equal (fun p => nth 10 (fst (fst p)) 0) H)|exact (f_equal (fun p => nth 11 (fst (fst p)) 0) H)|exact (f_equal (fun p => nth 12 (fst (fst p)) 0) H)
    |exact (f_equal (fun p => nth 0 (snd (fst p)) None) H)|exact (f_equal (fun p => nth 1 (snd (fst p)) None) H)|exact (f_equal snd H)].
Qed.
Lemma bb_height u v : but_bottom u = but_bottom v -> border_height v = border_height u /\ u_mt v = u_mt u /\ u_ct v = u_ct u.
Proof. intros H. apply bb_inv in H. destruct H as (E1 & E2 & E3 & E4 & E5 & E6 & E7 & E8 & E9 & E10 & E11 & E12 & E13 & E14 & E15 & E16). unfold border_height. rewrite E1, E4, E6, E8, E10, E15, E16. repeat split. Qed.
Lemma bb_down r u v : but_bottom u = but_bottom v -> but_bottom (move_down r u) = but_bottom (move_down r v).
Proof.
  intros H. apply bb_inv in H. destruct u as [a1 a2 a3 a4 a5 a6 a7 a8 a9 a10 a11 a12 a13 a14 a15 a16 a17 a18], v as [b1 b2 b3 b4 b5 b6 b7 b8 b9 b10 b11 b12 b13 b14 b15 b16 b17 b18]. unfold but_bottom, move_down. cbn [u_mt u_mr u_mb u_ml u_bt u_br u_bb u_bl u_pt u_pr u_pb u_pl u_w u_h u_left u_top u_ct u_cb] in *.
  destruct H as (E1 & E2 & E3 & E4 & E5 & E6 & E7 & E8 & E9 & E10 & E11 & E12 & E13 & E14 & E15 & E16). subst. reflexivity.
Qed.
Lemma sb_down c r u v us vs : same_but_bottoms c (UNode u us) (UNode v vs) -> same_but_bottoms c (UNode (move_down r u) us) (UNode (move_down r v) vs).
Proof. intros H. inversion H; subst; constructor; try assumption; try (apply bb_down; assumption); intros C; f_equal; auto. Qed.
Lemma sb_weaken c x y : same_but_bottoms c x y -> same_but_bottoms true x y.
Proof. intros []; constructor; try assumption; discriminate. Qed.
Lemma sb_box c u us v vs : same_but_bottoms c (UNode u us) (UNode v vs) -> but_bottom u = but_bottom v.
Proof. intros H. inversion H; assumption. Qed.
(** The last of the children and the others. *)
Definition kids_same (us vs : list utree) : Prop :=
  us = [] /\ vs = [] \/ exists a x b y, us = a ++ [x] /\ vs = b ++ [y] /\ Forall2 (same_but_bottoms true) a b /\ same_but_bottoms false x y.
Lemma kids_next x y us vs : (us = [] -> same_but_bottoms false x y) -> same_but_bottoms true x y -> kids_same us vs -> kids_same (x :: us) (y :: vs).
Proof.
  intros F T [[-> ->]|(a & p & b & q & -> & -> & A & B)]; right.
  - exists [], x, [], y. repeat split; [constructor|apply F; reflexivity].
  - exists (x :: a), p, (y :: b), q. repeat split; [constructor; assumption|exact B].
Qed.
Lemma kids_all us vs : kids_same us vs -> Forall2 (same_but_bottoms true) us vs.
Proof. intros [[-> ->]|(a & p & b & q & -> & -> & A & B)]; [constructor|]. apply Forall2_app; [exact A|]. constructor; [apply (sb_weaken false), B|constructor]. Qed.
Lemma kids_last us vs : kids_same us vs -> last_kid vs = last_kid us.
Proof.
  intros [[-> ->]|(a & p & b & q & -> & -> & A & B)]; [reflexivity|]. unfold last_kid. rewrite !rev_app_distr. cbn. inversion B as [? ? ? _ E|? ? ? ? ? ? ? _ E| |]; subst; try reflexivity; rewrite (E eq_refl); reflexivity.
Qed.
Lemma kids_node c u v us vs : but_bottom u = but_bottom v -> (c = false -> u = v) -> kids_same us vs -> same_but_bottoms c (UNode u us) (UNode v vs).
Proof. intros E F [[-> ->]|(a & p & b & q & -> & -> & A & B)]; constructor; assumption. Qed.
Lemma below_stack ts : forall top p, margin_below (stack top p ts) = margin_below ts.
Proof. induction ts as [|[u us| |] ts IH]; intros top p; cbn [stack margin_below]; [reflexivity|destruct u; reflexivity|apply IH|apply IH]. Qed.
Lemma maxi_le a b : a <= b -> qc_maxi a b = b.
Proof. intros H. unfold qc_maxi. destruct (qc_ltb_spec a b) as [Q|Q]; [reflexivity|]. apply Qcle_antisym; [exact H|]. apply Qcnot_lt_le. exact Q. Qed.

Section T.
Context {S : Type} (sty : S -> style) (d : display_t).
Notation node := (node S).
Notation kid d inner st := (MoveProps.laid_kid sty d inner st).
Lemma firm_display p (n m : node) t : firmed sty d p n t m -> st_display (sty (n_style m)) = st_display (sty (n_style n)).
Proof. intros [? ? ? ? ? ? ? ? ? ? H _|? ? ? E|? ? ? E]; cbn [n_style]; [|exact E|exact E]. destruct H as [->|(_ & z & v & _ & -> & _)]; reflexivity. Qed.
Lemma firm_blocks (ks ks' : list node) ts : firmed_kids sty d ks ts ks' ->
  existsb (fun k => block_level (sty (n_style k))) ks' = existsb (fun k => block_level (sty (n_style k))) ks.
Proof. induction 1 as [|k t k' ks ts ks' H _ IH]; [reflexivity|]. cbn [existsb]. unfold block_level at 1 3. rewrite (firm_display _ _ _ _ H), IH. reflexivity. Qed.
Lemma firm_slide p r (n m : node) u us : firmed sty d p n (UNode (move_down r u) us) m -> firmed sty d p n (UNode u us) m.
Proof. intros H. inversion H; subst. constructor; [|assumption]. destruct u. assumption. Qed.
(** What holds of an element and its counterpart. *)
Definition extents (b : option Qc) (z z' : Z) : Prop := z' = z \/ exists m, b = Some m /\ Z2Qc z <= m /\ Z2Qc z' <= m.
Definition good (b : option Qc) (x y : utree) : Prop :=
  same_but_bottoms (match b with None => false | _ => true end) x y
  /\ match x, y with UNode u _, UNode v _ => extents b (u_cb u) (u_cb v) | _, _ => True end.
Definition prevs (b : option Qc) (p p' : option Z) : Prop := p' = p \/ exists z z', p = Some z /\ p' = Some z' /\ extents b z z'.
Lemma good_next b ts x y : good b x y -> b = margin_below ts -> (ts = [] -> same_but_bottoms false x y) /\ same_but_bottoms true x y.
Proof. intros (A & _) ->. split; [intros ->; exact A|apply (sb_weaken _ _ _ A)]. Qed.
Lemma firm_stack (f g : node -> utree) ks : forall ks' top p p',
  (forall k k' b, In k ks -> firmed sty d b k (f k) k' -> good b (f k) (g k')) ->
  prevs (margin_below (map f ks)) p p' ->
  firmed_kids sty d ks (stack top p (map f ks)) ks' ->
  kids_same (stack top p (map f ks)) (stack top p' (map g ks')).
Proof.
  induction ks as [|k ks IH]; intros ks' top p p' G P H; cbn [map] in H, P.
  { inversion H; subst. cbn. left. split; reflexivity. }
  destruct (f k) as [u us| |] eqn:Fk; cbn [stack margin_below] in H, P; inversion H as [|? ? k' ? ? ks1 H1 H2]; subst; cbn [map].
  - apply firm_slide in H1. rewrite below_stack in H1. rewrite <- Fk in H1. pose proof (G k k' _ (or_introl eq_refl) H1) as Gk. destruct Gk as (A & B). rewrite Fk in A, B |- *.
    destruct (g k') as [v vs| |] eqn:Gk; [|inversion A..]. cbn [stack].
    pose proof (sb_box _ _ _ _ _ A) as Bt. destruct (bb_height _ _ Bt) as (Eb & Em & _).
    assert (Eg : match p' with None => 0 | Some z => qc_maxi (Z2Qc z) (u_mt v) end = match p with None => 0 | Some z => qc_maxi (Z2Qc z) (u_mt u) end).
    { rewrite Em. destruct P as [->|(z & z' & -> & -> & [->|(m & Q & L & L')])]; [reflexivity|reflexivity|]. injection Q as <-. rewrite !maxi_le by assumption. reflexivity. }
    rewrite Eg, Eb. set (y := top + _) in *.
    assert (T : kids_same (stack (y + border_height u) (Some (u_cb u)) (map f ks)) (stack (y + border_height u) (Some (u_cb v)) (map g ks1))).
    { apply IH; [intros q q' b I; apply G; right; exact I| |exact H2]. right. exists (u_cb u), (u_cb v). repeat split. exact B. }
    apply kids_next; [|apply sb_down, (sb_weaken _ _ _ A)|exact T]. intros N. apply sb_down. rewrite <- (below_stack (map f ks) (y + border_height u) (Some (u_cb u))), N in A. exact A.
  - rewrite below_stack in H1. rewrite <- Fk in H1. destruct (G k k' _ (or_introl eq_refl) H1) as (A & _). rewrite Fk in A |- *. inversion A as [| |? X|]; subst. cbn [stack].
    apply kids_next; [intros _; constructor|constructor|]. apply IH; [intros q q' b I; apply G; right; exact I|exact P|exact H2].
  - rewrite below_stack in H1. rewrite <- Fk in H1. destruct (G k k' _ (or_introl eq_refl) H1) as (A & _). rewrite Fk in A |- *. inversion A as [| | |? X]; subst. cbn [stack].
    apply kids_next; [intros _; constructor|constructor|]. apply IH; [intros q q' b I; apply G; right; exact I|exact P|exact H2].
Qed.
Lemma firm_flat (f g : node -> utree) ks : forall ks',
  (forall k k' b, In k ks -> firmed sty d b k (f k) k' -> good b (f k) (g k')) ->
  firmed_kids sty d ks (map f ks) ks' -> kids_same (map f ks) (map g ks').
Proof.
  induction ks as [|k ks IH]; intros ks' G H; cbn [map] in H; inversion H as [|? ? k' ? ? ks1 H1 H2]; subst; cbn [map]; [left; split; reflexivity|].
  destruct (good_next _ _ _ _ (G k k' _ (or_introl eq_refl) H1) eq_refl) as (A & B). apply kids_next; [exact A|exact B|]. apply IH; [intros q q' b I; apply G; right; exact I|exact H2].
Qed.
Lemma format_firmed (n : node) : forall p m a, firmed sty d p n (format sty d a n) m -> good p (format sty d a n) (format sty d a m).
Proof.
  induction n as [s i b ks IH] using node_ind'. intros p m a H. rewrite format_split in H |- *. pose proof (firm_display _ _ _ _ H) as Ed. destruct m as [s' i' b' ks']. cbn [n_style] in Ed. rewrite format_split, Ed.
  destruct (st_display (sty s)) as [dk|] eqn:Dk; [|split; [constructor|exact I]].
  set (st := stacks_ sty dk ks) in *. set (inner := inner_of d a dk (sty s) i) in *.
  remember (node_of d a dk (sty s) i st (kids_of sty d inner st ks)) as t eqn:Et.
  destruct t as [u us| |]; [|unfold node_of in Et; cbv zeta in Et; discriminate..].
  assert (Eu : us = kids_of sty d inner st ks) by (unfold node_of in Et; cbv zeta in Et; injection Et as _ Et; exact Et).
  inversion H as [? ? ? ? ? ? ? ? ? ? Th K| |]; subst. clear H.
  pose proof (firm_blocks _ _ _ K) as Eb. assert (St : stacks_ sty dk ks' = st) by (unfold st, stacks_; destruct dk; try reflexivity; exact Eb). rewrite St.
  (* the children, in the same area *)
  assert (Ks : kids_same (kids_of sty d inner st ks) (kids_of sty d inner st ks')).
  { assert (G : forall k k' p, In k ks -> firmed sty d p k (kid d inner st k) k' -> good p (kid d inner st k) (kid d inner st k')).
    { intros k k' p' Hk Hs. pose proof (firm_display _ _ _ _ Hs) as Ek. unfold MoveProps.laid_kid, block_level in *. rewrite Ek. destruct (st && _); [split; [constructor|exact I]|]. apply IH; assumption. }
    unfold kids_of in *. destruct st; [apply (firm_stack (kid d inner true) (kid d inner true) ks ks' 0 None None G (or_introl eq_refl) K)|apply (firm_flat (kid d inner false) (kid d inner false) ks ks' G K)]. }
  assert (In : inner_of d a dk (sty s') i' = inner).
  { unfold inner. destruct Th as [->|(Bl & z & v & _ & -> & _)]; [reflexivity|]. unfold block_level in Bl. rewrite Dk in Bl. destruct dk; try discriminate; reflexivity. }
  rewrite In. set (kk := kids_of sty d inner st ks) in *. set (kk' := kids_of sty d inner st ks') in *. rewrite Et.
  pose proof (kids_last _ _ Ks) as L.
  assert (Fi : (if st then match kk' with UNode u _ :: _ => u_ct u | _ => 0%Z end else 0%Z) = (if st then match kk with UNode u _ :: _ => u_ct u | _ => 0%Z end else 0%Z)).
  { destruct st; [|reflexivity]. pose proof (kids_all _ _ Ks) as F. destruct F as [|x y r r' Hx _]; [reflexivity|]. destruct x, y; try (inversion Hx; fail); try reflexivity. apply (bb_height _ _ (sb_box _ _ _ _ _ Hx)). }
  destruct Th as [Es|(Bl & z & v & -> & Es & Le & Np & Le')].
  - (* the same declarations *)
    assert (N : node_of d a dk (sty s') i' st kk' = match node_of d a dk (sty s) i' st kk with UNode w _ => UNode w kk' | t => t end).
    { rewrite Es. unfold node_of. cbv zeta. rewrite Fi, L. reflexivity. }
    rewrite N, <- Et. split; [apply kids_node; [reflexivity|reflexivity|exact Ks]|left; reflexivity].
  - (* another bottom margin *)
    assert (I : isinl dk = false) by (unfold block_level in Bl; rewrite Dk in Bl; destruct dk; try discriminate; reflexivity).
    assert (Wm : wmargins d a dk (with_margin_bottom v (sty s)) i' = wmargins d a dk (sty s) i') by (unfold wmargins; rewrite I; reflexivity).
    assert (Hg : hgt d a dk (with_margin_bottom v (sty s)) i' (last_kid kk) = hgt d a dk (sty s) i' (last_kid kk)) by (unfold hgt; rewrite I; reflexivity).
    assert (Lf : lefts d a dk (with_margin_bottom v (sty s)) i' = lefts d a dk (sty s) i') by (unfold lefts; rewrite Wm; reflexivity).
    assert (Eg : edges d a dk (with_margin_bottom v (sty s)) = edges d a dk (sty s)) by (unfold edges; rewrite I; reflexivity).
    assert (N : exists w, node_of d a dk (sty s') i' st kk' = UNode w kk' /\ but_bottom u = but_bottom w /\ Z2Qc (u_cb w) <= z).
    { unfold node_of in Et |- *. cbv zeta in Et |- *. injection Et as ->. eexists. split; [reflexivity|]. rewrite Es. cbn [u_mt u_mr u_mb u_ml u_bt u_br u_bb u_bl u_pt u_pr u_pb u_pl u_w u_h u_left u_top u_ct u_cb] in *. split.
      - unfold but_bottom. cbn [u_mt u_mr u_mb u_ml u_bt u_br u_bb u_bl u_pt u_pr u_pb u_pl u_w u_h u_left u_top u_ct u_cb]. rewrite L, Hg, Wm, Lf, Eg, Fi. reflexivity.
      - unfold bottoms in *. rewrite I, L in *. cbn [with_margin_bottom st_height st_margin_bottom andb or0] in *. rewrite (len0_no_pct d _ 0 v Np). destruct (st_height (sty s)); [|exact Le']. destruct (last_kid kk) as [k|]; [|exact Le'].
        destruct (Z.max_spec (whole_px (len0 d 0 v)) (u_cb k)) as [[_ ->]|[_ ->]]; [|exact Le']. eapply Qcle_trans; [|exact Le]. apply Z2Qc_le. apply Z.le_max_r. }
    destruct N as (w & -> & Bw & Lw). rewrite <- Et. split; [apply kids_node; [exact Bw|discriminate|exact Ks]|]. right. exists z. repeat split; assumption.
Qed.
(** C203.  Between siblings only the larger margin counts: a bottom margin of a block that collapses with a top margin below it which is at least as large
    can be changed to any other such margin; no box moves or changes its size. *)
Theorem C203_smaller_margin h5 (n m n' m' : node) : history sty n -> history sty m ->
  layout sty d h5 n = (n', Ok tt) -> layout sty d h5 m = (m', Ok tt) -> firmed sty d None n (page sty d h5 n) m ->
  exists t t', shows n' t /\ shows m' t' /\ same_but_bottoms false t t'.
Proof.
  intros Hn Hm Ln Lm H. exists (page sty d h5 n), (page sty d h5 m). split; [apply (C122_any_history sty); assumption|]. split; [apply (C122_any_history sty); assumption|].
  rewrite !page_draft in *. unfold draft in *. set (a := mkArea (Some (nval (disp_width d))) (Some (nval (disp_height d))) 0 0 None) in *.
  assert (X : firmed sty d None n (format sty d a n) m).
  { destruct (format sty d a n) as [u us| |]; cbn [finished] in H; [|exact H..]. inversion H as [? ? ? ? ? ? ? ? ? ? Th K| |]; subst. constructor; [|exact K].
    destruct Th as [E|(_ & z & v & E & _)]; [left; exact E|discriminate E]. }
  destruct (format_firmed n None m a X) as (G & _). destruct (format sty d a n) as [u us| |], (format sty d a m) as [v vs| |]; cbn [finished]; try exact G; try (inversion G; fail).
  inversion G as [? ? ? B E|? ? ? x y r r' B E F1 F2| |]; subst; rewrite (E eq_refl); constructor; try assumption; reflexivity.
Qed.
(** Whether they can be laid out at all is the same. *)
Lemma firm_any b v : measurable_or_auto false v = true -> measurable_or_auto b v = true.
Proof. destruct v as [|u]; [auto|]. cbn. unfold measurable. destruct (finite _); [|discriminate]. destruct (u_kind u); try discriminate; auto. Qed.
Lemma bottoms_fit s t i : bottoms_differ s t -> fit_pair s i t i.
Proof.
  intros [->|(Bl & Ps & v & -> & Pt)].
  - split; [reflexivity|]. split; [reflexivity|]. split; [reflexivity|]. split; [destruct (own_height s); cbn; [intros k; reflexivity|exact I]|]. intros kd _ _. split; [reflexivity|]. split; [reflexivity|]. intros a a' (Fw & Fh & Fd & Fs).
    split; [unfold edges_ok; rewrite Fw, Fh; reflexivity|]. split; [unfold width_ok; rewrite Fw; reflexivity|]. split; [|intros _; rewrite Fw, Fh; unfold offsets_ok; rewrite Fd; split; reflexivity].
    intros last. unfold height_ok. rewrite Fh. destruct kd, (st_height s); try reflexivity. destruct (spec_h a), (spec_h a'); cbn in Fs; try contradiction; rewrite ?Fs; reflexivity.
  - split; [reflexivity|]. split; [reflexivity|]. split; [reflexivity|]. split; [unfold own_height; cbn; destruct (st_height s); cbn; [exact I|intros k; reflexivity]|].
    intros kd _ Kd. assert (kd = Block) as -> by (unfold block_level in Bl; unfold kind_of in Kd; destruct (st_display s) as [[]|]; try discriminate; destruct (st_float s), (st_position s), (s_replaced i); congruence).
    split; [reflexivity|]. split; [reflexivity|]. intros a a' (Fw & Fh & Fd & Fs). split; [|split; [|split]].
    + unfold edges_ok. cbn [with_margin_bottom st_margin_left st_margin_right st_margin_top st_margin_bottom st_border_top st_border_bottom st_border_left st_border_right st_padding_top st_padding_bottom st_padding_left st_padding_right]. cbn [forallb]. rewrite Fw, Fh, !(firm_any _ _ Ps), !(firm_any _ _ Pt). reflexivity.
    + unfold width_ok. rewrite Fw. reflexivity.
    + intros last. unfold height_ok. rewrite Fh. cbn [with_margin_bottom st_height st_min_height st_max_height]. destruct (st_height s); [reflexivity|]. destruct (spec_h a), (spec_h a'); cbn in Fs; try contradiction; rewrite ?Fs; reflexivity.
    + intros _. rewrite Fw, Fh. unfold offsets_ok. rewrite Fd. split; reflexivity.
Qed.
Theorem C203_succeeds h5 h5' (n m : node) : boxed n -> boxed m -> history sty n -> history sty m -> everywhere sty bottoms_differ n m ->
  ((exists n', layout sty d h5 n = (n', Ok tt)) <-> (exists m', layout sty d h5' m = (m', Ok tt))).
Proof.
  intros Bn Bm Hn Hm Z. rewrite (C123_exactly_when sty d h5 n Hn), (C123_exactly_when sty d h5' m Hm).
  rewrite (can_lay_out_fit sty (everywhere sty bottoms_differ) ltac:(intros x y [s s' i b b' ks ks' Zs F]; split; [apply bottoms_fit; exact Zs|exact F]) n m Z Bn Bm). reflexivity.
Qed.
End T.
Print Assumptions C203_smaller_margin.
Print Assumptions C203_succeeds.

(** ** Example *)
Open Scope Z_scope.
(** A block with a bottom margin of less than 20px, followed by one with the top margin 20px, and the same again inside. *)
Definition fdoc (m m' : Z) : doc :=
  el block_style
    [el (s_margin (Len (pxu 7)) Auto (Len (pxu m)) Auto block_style)
       [el (s_margin (Len (pxu 3)) Auto (Len (pxu m')) Auto (hpx 5 block_style)) []; el (s_margin (Len (pxu 12)) Auto (Len (pxu 4)) Auto (hpx 8 block_style)) []];
     el (s_margin (Len (pxu 20)) Auto (Len (pxu 2)) Auto (hpx 30 block_style)) []].
Example C203_example : boxed (fdoc 15 0) /\ boxed (fdoc 20 9) /\ history idsty (fdoc 15 0) /\ history idsty (fdoc 20 9)
  /\ layout idsty screen false (fdoc 15 0) = (out false (fdoc 15 0), Ok tt) /\ layout idsty screen false (fdoc 20 9) = (out false (fdoc 20 9), Ok tt)
  /\ firmed idsty screen None (fdoc 15 0) (page idsty screen false (fdoc 15 0)) (fdoc 20 9) /\ everywhere idsty bottoms_differ (fdoc 15 0) (fdoc 20 9).
Proof.
  split; [solve_boxed|]. split; [solve_boxed|]. do 2 (split; [apply history_new; solve_new|]). do 2 (split; [apply ok_layout; vm_compute; reflexivity|]). split.
  - match goal with |- firmed _ _ _ _ ?t _ => let v := eval vm_compute in t in replace t with v by (vm_compute; reflexivity) end.
    unfold fdoc, el.
    repeat match goal with |- firmed_kids _ _ _ _ _ => constructor | |- firmed _ _ _ _ _ _ => apply firmed_box end.
    all: first [left; reflexivity|right; split; [reflexivity|]; do 2 eexists; split; [reflexivity|]; split; [vm_compute; reflexivity|]; split; [vm_compute; discriminate|]; split; [reflexivity|vm_compute; discriminate]].
  - unfold fdoc, el. repeat match goal with |- Forall2 _ _ _ => constructor | |- everywhere _ _ _ _ => apply everywhere_node end; first [left; reflexivity|right; split; [reflexivity|]; split; [reflexivity|]; eexists; split; [vm_compute; reflexivity|reflexivity]].
Qed.
