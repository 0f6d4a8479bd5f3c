(** * C202: a top margin that is not larger than what it collapses with *)
From Coq Require Import ZArith QArith Qcanon Qround Lia Lqa Bool List.
From Verif Require Import PyNum NumFacts Units BoxModel BoxSpec BoxFacts Engine EngineSpec EngineExamples
  RefLayout RefFacts RefProps OkSpec OkFacts HistSpec HistProps MoveSpec MoveProps LocalProps PushSpec PushProps PixelSpec OkProps SymProps TradeSpec SoftSpec.
Import ListNotations.
Open Scope Qc_scope.

Lemma bt_inv u v : but_top u = but_top v ->
  u_mr u = u_mr v /\ u_ml u = u_ml v /\ u_bt u = u_bt v /\ u_br u = u_br v /\ u_bb u = u_bb v /\ u_bl u = u_bl v /\ u_pt u = u_pt v /\ u_pr u = u_pr v /\ u_pb u = u_pb v /\ u_pl u = u_pl v
  /\ u_left u = u_left v /\ u_top u = u_top v /\ u_mb u = u_mb v /\ u_w u = u_w v /\ u_h u = u_h v /\ u_cb u = u_cb v.
Proof.
  intros H. unfold but_top in H. repeat split; first [exact (f_equal (fun p => nth 0 (fst (fst p)) 0) H)|exact (f_equal (fun p => nth 1 (fst (fst p)) 0) H)|exact (f_equal (fun p => nth 2 (fst (fst p)) 0) H)|exact (f_equal (fun p => nth 3 (fst (fst p)) 0) H)
    |exact (f_equal (fun p => nth 4 (fst (fst p)) 0) H)|exact (f_equal (fun p => nth 5 (fst (fst p)) 0) H)|exact (f_equal (fun p => nth 6 (fst (fst p)) 0) H)|exact (f_equal (fun p => nth 7 (fst (fst p)) 0) H)
    |exact (f_equal (fun p => nth 8 (fst (fst p)) 0) H)|exact (f_equal (fun p => nth 9 (fst (fst p)) 0) H)|exact (f_equal (fun p => nth 10 (fst (fst p)) 0) H)|exact (f_equal (fun p => nth 11 (fst (fst p)) 0) H)
    |exact (f_equal (fun p => nth 0 (snd (fst p)) None) H)|exact (f_equal (fun p => nth 1 (snd (fst p)) None) H)|exact (f_equal (fun p => nth 2 (snd (fst p)) None) H)|exact (f_equal snd H)].
Qed.
Lemma bt_bb u v : but_top u = but_top v -> border_height v = border_height u /\ border_bottom v = border_bottom u /\ u_cb v = u_cb u.
Proof. intros H. apply bt_inv in H. destruct H as (E1 & E2 & E3 & E4 & E5 & E6 & E7 & E8 & E9 & E10 & E11 & E12 & E13 & E14 & E15 & E16). unfold border_height, border_bottom. rewrite E3, E5, E7, E9, E12, E15, E16. repeat split. Qed.
Lemma bt_down r u v : but_top u = but_top v -> but_top (move_down r u) = but_top (move_down r v).
Proof.
  intros H. apply bt_inv in H. destruct u as [a1 a2 a3 a4 a5 a6 a7 a8 a9 a10 a11 a12 a13 a14 a15 a16 a17 a18], v as [b1 b2 b3 b4 b5 b6 b7 b8 b9 b10 b11 b12 b13 b14 b15 b16 b17 b18]. unfold but_top, move_down. cbn [u_mt u_mr u_mb u_ml u_bt u_br u_bb u_bl u_pt u_pr u_pb u_pl u_w u_h u_left u_top u_ct u_cb] in *.
  destruct H as (E1 & E2 & E3 & E4 & E5 & E6 & E7 & E8 & E9 & E10 & E11 & E12 & E13 & E14 & E15 & E16). subst. reflexivity.
Qed.
Lemma st_down c r u v us vs : same_but_tops c (UNode u us) (UNode v vs) -> same_but_tops c (UNode (move_down r u) us) (UNode (move_down r v) vs).
Proof. intros H. inversion H; subst; constructor; try assumption; try (apply bt_down; assumption); intros C; f_equal; auto. Qed.
Lemma st_weaken c x y : same_but_tops c x y -> same_but_tops true x y.
Proof. intros []; constructor; try assumption; discriminate. Qed.
(** The first of the children and the others. *)
Definition kids_same (us vs : list utree) : Prop :=
  match us, vs with [], [] => True | x :: us, y :: vs => same_but_tops false x y /\ Forall2 (same_but_tops true) us vs | _, _ => False end.
Lemma kids_all us vs : kids_same us vs -> Forall2 (same_but_tops true) us vs.
Proof. destruct us, vs; try contradiction; [constructor|]. intros [H1 H2]. constructor; [apply (st_weaken false), H1|exact H2]. Qed.
Lemma kids_last us vs : kids_same us vs -> match last_kid us, last_kid vs with None, None => True | Some u, Some v => but_top u = but_top v | _, _ => False end.
Proof.
  intros H. apply kids_all in H. unfold last_kid. assert (R : Forall2 (same_but_tops true) (rev us) (rev vs)).
  { induction H; [constructor|]. cbn. apply Forall2_app; [assumption|constructor; [assumption|constructor]]. }
  destruct R as [|x y r r' Hx _]; [exact I|]. inversion Hx; subst; try assumption; reflexivity.
Qed.
Lemma kids_node c u v us vs : but_top u = but_top v -> (c = false -> u = v) -> kids_same us vs -> same_but_tops c (UNode u us) (UNode v vs).
Proof. intros E F K. destruct us, vs; try contradiction; [constructor; assumption|]. destruct K. constructor; assumption. Qed.

Section T.
Context {S : Type} (sty : S -> style) (d : display_t).
Notation node := (node S).
Notation kid d inner st := (MoveProps.laid_kid sty d inner st).
Lemma soft_display p (n m : node) t : softened sty d p n t m -> st_display (sty (n_style m)) = st_display (sty (n_style n)).
Proof. intros [? ? ? ? ? ? ? ? ? ? H _|? ? ? E|? ? ? E]; cbn [n_style]; [|exact E|exact E]. destruct H as [->|(_ & z & v & _ & -> & _)]; reflexivity. Qed.
Lemma soft_blocks p (ks ks' : list node) ts : softened_kids sty d p ks ts ks' ->
  existsb (fun k => block_level (sty (n_style k))) ks' = existsb (fun k => block_level (sty (n_style k))) ks.
Proof. induction 1 as [|p k t k' ks ts ks' H _ IH]; [reflexivity|]. cbn [existsb]. unfold block_level at 1 3. rewrite (soft_display _ _ _ _ H), IH. reflexivity. Qed.
Lemma soft_slide p r (n m : node) u us : softened sty d p n (UNode (move_down r u) us) m -> softened sty d p n (UNode u us) m.
Proof.
  intros H. inversion H; subst. constructor; [|assumption]. destruct u. assumption.
Qed.
(** What holds of an element and its counterpart. *)
Definition good (p : option Z) (x y : utree) : Prop :=
  same_but_tops (match p with None => false | _ => true end) x y
  /\ match p, x, y with Some z, UNode u _, UNode v _ => qc_maxi (Z2Qc z) (u_mt v) = qc_maxi (Z2Qc z) (u_mt u) | None, UNode u _, UNode v _ => u_mt v = u_mt u | _, _, _ => True end.
Lemma soft_stack (f g : node -> utree) ks : forall ks' top p,
  (forall k k' p, In k ks -> softened sty d p k (f k) k' -> good p (f k) (g k')) ->
  softened_kids sty d p ks (stack top p (map f ks)) ks' ->
  Forall2 (same_but_tops true) (stack top p (map f ks)) (stack top p (map g ks')) /\ (p = None -> kids_same (stack top p (map f ks)) (stack top p (map g ks'))).
Proof.
  induction ks as [|k ks IH]; intros ks' top p G H; cbn [map] in H.
  { inversion H; subst. cbn. split; [constructor|intros _; exact I]. }
  destruct (f k) as [u us| |] eqn:Fk; cbn [stack] in H; inversion H as [|? ? ? k' ? ? ks1 H1 H2]; subst; cbn [map].
  - apply soft_slide in H1. rewrite <- Fk in H1. destruct (G k k' p (or_introl eq_refl) H1) as (A & B). rewrite Fk in A, B |- *.
    destruct (g k') as [v vs| |] eqn:Gk; [|inversion A..]. cbn [stack].
    assert (Bt : but_top u = but_top v) by (inversion A; assumption). destruct (bt_bb _ _ Bt) as (Eb & _ & Ec).
    assert (Eg : match p with None => 0 | Some z => qc_maxi (Z2Qc z) (u_mt v) end = match p with None => 0 | Some z => qc_maxi (Z2Qc z) (u_mt u) end) by (destruct p; [exact B|reflexivity]).
    rewrite Eg, Eb, Ec. set (y := top + _) in *. cbn [extent_below] in H2. replace (u_cb (move_down y u)) with (u_cb u) in H2 by (destruct u; reflexivity).
    destruct (IH ks1 (y + border_height u) (Some (u_cb u)) (fun k k' p I => G k k' p (or_intror I)) H2) as (T & _). split.
    + constructor; [apply st_down, (st_weaken _ _ _ A)|exact T].
    + intros ->. cbn [kids_same]. split; [apply st_down, A|exact T].
  - rewrite <- Fk in H1. destruct (G k k' p (or_introl eq_refl) H1) as (A & _). rewrite Fk in A |- *. inversion A as [| |? X|]; subst. cbn [stack extent_below] in *.
    destruct (IH ks1 top p (fun k k' p I => G k k' p (or_intror I)) H2) as (T & _). split; [constructor; [constructor|exact T]|]. intros ->. cbn [kids_same]. split; [constructor|exact T].
  - rewrite <- Fk in H1. destruct (G k k' p (or_introl eq_refl) H1) as (A & _). rewrite Fk in A |- *. inversion A as [| | |? X]; subst. cbn [stack extent_below] in *.
    destruct (IH ks1 top p (fun k k' p I => G k k' p (or_intror I)) H2) as (T & _). split; [constructor; [constructor|exact T]|]. intros ->. cbn [kids_same]. split; [constructor|exact T].
Qed.
Lemma soft_flat (f g : node -> utree) ks : forall ks' p,
  (forall k k' p, In k ks -> softened sty d p k (f k) k' -> good p (f k) (g k')) ->
  softened_kids sty d p ks (map f ks) ks' ->
  Forall2 (same_but_tops true) (map f ks) (map g ks') /\ (p = None -> kids_same (map f ks) (map g ks')).
Proof.
  induction ks as [|k ks IH]; intros ks' p G H; cbn [map] in H; inversion H as [|? ? ? k' ? ? ks1 H1 H2]; subst; cbn [map]; [split; [constructor|intros _; exact I]|].
  destruct (G k k' p (or_introl eq_refl) H1) as (A & _). destruct (IH ks1 _ (fun k k' p I => G k k' p (or_intror I)) H2) as (T & _).
  split; [constructor; [apply (st_weaken _ _ _ A)|exact T]|]. intros ->. split; [exact A|exact T].
Qed.
Lemma format_softened (n : node) : forall p m a, softened sty d p n (format sty d a n) m -> good p (format sty d a n) (format sty d a m).
Proof.
  induction n as [s i b ks IH] using node_ind'. intros p m a H. rewrite format_split in H |- *. pose proof (soft_display _ _ _ _ H) as Ed. destruct m as [s' i' b' ks']. cbn [n_style] in Ed. rewrite format_split, Ed.
  destruct (st_display (sty s)) as [dk|] eqn:Dk; [|split; [constructor|destruct p; exact I]].
  set (st := stacks_ sty dk ks) in *. set (inner := inner_of d a dk (sty s) i) in *.
  remember (node_of d a dk (sty s) i st (kids_of sty d inner st ks)) as t eqn:Et.
  destruct t as [u us| |]; [|unfold node_of in Et; cbv zeta in Et; discriminate..].
  assert (Em : u_mt u = len0 d (or0 (a_h a)) (st_margin_top (sty s))) by (unfold node_of in Et; cbv zeta in Et; injection Et as -> _; reflexivity).
  assert (Eu : us = kids_of sty d inner st ks) by (unfold node_of in Et; cbv zeta in Et; injection Et as _ Et; exact Et).
  inversion H as [? ? ? ? ? ? ? ? ? ? Th K| |]; subst. clear H.
  pose proof (soft_blocks _ _ _ _ K) as Eb. assert (St : stacks_ sty dk ks' = st) by (unfold st, stacks_; destruct dk; try reflexivity; exact Eb). rewrite St.
  (* the children, in the same area *)
  assert (Ks : kids_same (kids_of sty d inner st ks) (kids_of sty d inner st ks')).
  { assert (G : forall k k' p, In k ks -> softened sty d p k (kid d inner st k) k' -> good p (kid d inner st k) (kid d inner st k')).
    { intros k k' p' Hk Hs. pose proof (soft_display _ _ _ _ Hs) as Ek. unfold MoveProps.laid_kid, block_level in *. rewrite Ek. destruct (st && _); [split; [constructor|destruct p'; exact I]|]. apply IH; assumption. }
    unfold kids_of in *. destruct st; [apply (soft_stack (kid d inner true) (kid d inner true) ks ks' 0 None G K)|apply (soft_flat (kid d inner false) (kid d inner false) ks ks' None G K)]; reflexivity. }
  assert (In : inner_of d a dk (sty s') i' = inner).
  { unfold inner. destruct Th as [->|(Bl & z & v & _ & -> & _)]; [reflexivity|]. unfold block_level in Bl. rewrite Dk in Bl. destruct dk; try discriminate; reflexivity. }
  rewrite In. set (kk := kids_of sty d inner st ks) in *. set (kk' := kids_of sty d inner st ks') in *. rewrite Et.
  pose proof (kids_last _ _ Ks) as L.
  assert (Hg : hgt d a dk (sty s') i' (last_kid kk') = hgt d a dk (sty s) i' (last_kid kk)).
  { transitivity (hgt d a dk (sty s) i' (last_kid kk')).
    - destruct Th as [->|(Bl & z & v & _ & -> & _)]; [reflexivity|]. unfold block_level in Bl. rewrite Dk in Bl. destruct dk; try discriminate; reflexivity.
    - unfold hgt. destruct (isinl dk); [reflexivity|]. f_equal. unfold used_block_height. destruct (spec_height _ _ _ _); [reflexivity|]. destruct (last_kid kk), (last_kid kk'); try contradiction; [apply (bt_bb _ _ L)|reflexivity]. }
  assert (Cb : forall q : Z, match last_kid kk' with Some k => Z.max q (u_cb k) | None => q end = match last_kid kk with Some k => Z.max q (u_cb k) | None => q end).
  { intros q. destruct (last_kid kk), (last_kid kk'); try contradiction; [|reflexivity]. destruct (bt_bb _ _ L) as (_ & _ & ->). reflexivity. }
  assert (Fi : (if st then match kk' with UNode u _ :: _ => u_ct u | _ => 0%Z end else 0%Z) = (if st then match kk with UNode u _ :: _ => u_ct u | _ => 0%Z end else 0%Z)).
  { destruct st; [|reflexivity]. destruct kk as [|x r], kk' as [|y r']; try contradiction; [reflexivity|]. destruct Ks as [Hx _]. inversion Hx as [? ? ? _ E|? ? ? ? ? ? ? _ E| |]; subst; try reflexivity; rewrite (E eq_refl); reflexivity. }
  set (cbof := fun (mb : Z) (l : option used) => match st_height (sty s), l with Auto, Some k => if isinl dk then mb else Z.max mb (u_cb k) | _, _ => mb end).
  assert (Ecb : forall mb, cbof mb (last_kid kk') = cbof mb (last_kid kk)).
  { intros mb. unfold cbof. destruct (st_height (sty s)); [|reflexivity]. specialize (Cb mb). destruct (last_kid kk), (last_kid kk'); try contradiction; try reflexivity. destruct (isinl dk); [reflexivity|exact Cb]. }
  destruct Th as [Es|(Bl & z & v & -> & Es & Le & Np & Le')].
  - (* the same declarations *)
    assert (N : node_of d a dk (sty s') i' st kk' = match node_of d a dk (sty s) i' st kk with UNode w _ => UNode w kk' | t => t end).
    { rewrite Es in *. unfold node_of. cbv zeta. rewrite Hg, Fi. specialize (Ecb (whole_px (or0 (bottoms d a dk (sty s) i')))). unfold cbof in Ecb. rewrite Ecb. reflexivity. }
    rewrite N, <- Et. split; [apply kids_node; [reflexivity|reflexivity|exact Ks]|destruct p; reflexivity].
  - (* another top margin *)
    assert (I : isinl dk = false) by (unfold block_level in Bl; rewrite Dk in Bl; destruct dk; try discriminate; reflexivity).
    assert (Wm : wmargins d a dk (with_margin_top v (sty s)) i' = wmargins d a dk (sty s) i') by (unfold wmargins; rewrite I; reflexivity).
    assert (Lf : lefts d a dk (with_margin_top v (sty s)) i' = lefts d a dk (sty s) i') by (unfold lefts; rewrite Wm; reflexivity).
    assert (Eg : edges d a dk (with_margin_top v (sty s)) = edges d a dk (sty s)) by (unfold edges; rewrite I; reflexivity).
    assert (N : exists w, node_of d a dk (sty s') i' st kk' = UNode w kk' /\ but_top u = but_top w /\ u_mt w = len0 d (or0 (a_h a)) v).
    { unfold node_of in Et |- *. cbv zeta in Et |- *. injection Et as ->. eexists. split; [reflexivity|]. split; [|rewrite Es; reflexivity]. unfold but_top. cbn [u_mt u_mr u_mb u_ml u_bt u_br u_bb u_bl u_pt u_pr u_pb u_pl u_w u_h u_left u_top u_ct u_cb].
      rewrite Hg. specialize (Ecb (whole_px (or0 (bottoms d a dk (sty s) i')))). unfold cbof in Ecb. rewrite Es in *. cbn [with_margin_top st_height st_border_top st_border_right st_border_bottom st_border_left st_padding_top st_padding_right st_padding_bottom st_padding_left st_left st_right st_top st_bottom] in *.
      rewrite Wm, Lf, Eg. change (bottoms d a dk (with_margin_top v (sty s)) i') with (bottoms d a dk (sty s) i'). change (isrel (with_margin_top v (sty s))) with (isrel (sty s)). rewrite Ecb. reflexivity. }
    destruct N as (w & -> & Bw & Mw). rewrite <- Et. split; [apply kids_node; [exact Bw|discriminate|exact Ks]|].
    rewrite Mw, (len0_no_pct d _ 0 v Np). unfold qc_maxi. destruct (qc_ltb_spec (Z2Qc z) (len0 d 0 v)) as [Q|Q]; [exfalso; apply (Qclt_not_le _ _ Q Le')|]. destruct (qc_ltb_spec (Z2Qc z) (u_mt u)) as [R|R]; [exfalso; apply (Qclt_not_le _ _ R Le)|reflexivity].
Qed.
(** C202.  Between siblings only the larger margin counts: a top margin of a block that is at most what collapses at the bottom
    of the box before it can be changed to any other such margin; no box moves or changes its size. *)
Theorem C202_smaller_margin h5 (n m n' m' : node) : history sty n -> history sty m ->
  layout sty d h5 n = (n', Ok tt) -> layout sty d h5 m = (m', Ok tt) -> softened sty d None n (page sty d h5 n) m ->
  exists t t', shows n' t /\ shows m' t' /\ same_but_tops false t t'.
Proof.
  intros Hn Hm Ln Lm H. exists (page sty d h5 n), (page sty d h5 m). split; [apply (C122_any_history sty); assumption|]. split; [apply (C122_any_history sty); assumption|].
  rewrite !page_draft in *. unfold draft in *. set (a := mkArea (Some (nval (disp_width d))) (Some (nval (disp_height d))) 0 0 None) in *.
  assert (X : softened sty d None n (format sty d a n) m).
  { destruct (format sty d a n) as [u us| |]; cbn [finished] in H; [|exact H..]. inversion H as [? ? ? ? ? ? ? ? ? ? Th K| |]; subst. constructor; [|exact K].
    destruct Th as [E|(_ & z & v & E & _)]; [left; exact E|discriminate E]. }
  destruct (format_softened n None m a X) as (G & _). destruct (format sty d a n) as [u us| |], (format sty d a m) as [v vs| |]; cbn [finished]; try exact G; try (inversion G; fail).
  inversion G as [? ? ? B E|? ? ? x y r r' B E F1 F2| |]; subst; rewrite (E eq_refl); constructor; try assumption; reflexivity.
Qed.
(** Whether they can be laid out at all is the same. *)
Lemma soft_any b v : measurable_or_auto false v = true -> measurable_or_auto b v = true.
Proof. destruct v as [|u]; [auto|]. cbn. unfold measurable. destruct (finite _); [|discriminate]. destruct (u_kind u); try discriminate; auto. Qed.
Lemma tops_fit s t i : tops_differ s t -> fit_pair s i t i.
Proof.
  intros [->|(Bl & Ps & v & -> & Pt)].
  - split; [reflexivity|]. split; [reflexivity|]. split; [reflexivity|]. split; [destruct (own_height s); cbn; [intros k; reflexivity|exact I]|]. intros kd _ _. split; [reflexivity|]. split; [reflexivity|]. intros a a' (Fw & Fh & Fd & Fs).
    split; [unfold edges_ok; rewrite Fw, Fh; reflexivity|]. split; [unfold width_ok; rewrite Fw; reflexivity|]. split; [|intros _; rewrite Fw, Fh; unfold offsets_ok; rewrite Fd; split; reflexivity].
    intros last. unfold height_ok. rewrite Fh. destruct kd, (st_height s); try reflexivity. destruct (spec_h a), (spec_h a'); cbn in Fs; try contradiction; rewrite ?Fs; reflexivity.
  - split; [reflexivity|]. split; [reflexivity|]. split; [reflexivity|]. split; [unfold own_height; cbn; destruct (st_height s); cbn; [exact I|intros k; reflexivity]|].
    intros kd _ Kd. assert (kd = Block) as -> by (unfold block_level in Bl; unfold kind_of in Kd; destruct (st_display s) as [[]|]; try discriminate; destruct (st_float s), (st_position s), (s_replaced i); congruence).
    split; [reflexivity|]. split; [reflexivity|]. intros a a' (Fw & Fh & Fd & Fs). split; [|split; [|split]].
    + unfold edges_ok. cbn [with_margin_top st_margin_left st_margin_right st_margin_top st_margin_bottom st_border_top st_border_bottom st_border_left st_border_right st_padding_top st_padding_bottom st_padding_left st_padding_right]. cbn [forallb]. rewrite Fw, Fh, !(soft_any _ _ Ps), !(soft_any _ _ Pt). reflexivity.
    + unfold width_ok. rewrite Fw. reflexivity.
    + intros last. unfold height_ok. rewrite Fh. cbn [with_margin_top st_height st_min_height st_max_height]. destruct (st_height s); [reflexivity|]. destruct (spec_h a), (spec_h a'); cbn in Fs; try contradiction; rewrite ?Fs; reflexivity.
    + intros _. rewrite Fw, Fh. unfold offsets_ok. rewrite Fd. split; reflexivity.
Qed.
Theorem C202_succeeds h5 h5' (n m : node) : boxed n -> boxed m -> history sty n -> history sty m -> everywhere sty tops_differ n m ->
  ((exists n', layout sty d h5 n = (n', Ok tt)) <-> (exists m', layout sty d h5' m = (m', Ok tt))).
Proof.
  intros Bn Bm Hn Hm Z. rewrite (C123_exactly_when sty d h5 n Hn), (C123_exactly_when sty d h5' m Hm).
  rewrite (can_lay_out_fit sty (everywhere sty tops_differ) ltac:(intros x y [s s' i b b' ks ks' Zs F]; split; [apply tops_fit; exact Zs|exact F]) n m Z Bn Bm). reflexivity.
Qed.
End T.
Print Assumptions C202_smaller_margin.
Print Assumptions C202_succeeds.

(** ** Example *)
Open Scope Z_scope.
(** A block with the bottom margin 20px, followed by one with a smaller top margin, and the same again inside. *)
Definition sdoc (m m' : Z) : doc :=
  el block_style
    [el (s_margin (Len (pxu 7)) Auto (Len (pxu 20)) Auto (hpx 30 block_style)) [];
     el (s_margin (Len (pxu m)) Auto (Len (pxu 0)) Auto block_style)
       [el (s_margin (Len (pxu 3)) Auto (Len (pxu 12)) Auto (hpx 5 block_style)) []; el (s_margin (Len (pxu m')) Auto (Len (pxu 0)) Auto (hpx 8 block_style)) []]].
Example C202_example : boxed (sdoc 15 0) /\ boxed (sdoc 20 9) /\ history idsty (sdoc 15 0) /\ history idsty (sdoc 20 9)
  /\ layout idsty screen false (sdoc 15 0) = (out false (sdoc 15 0), Ok tt) /\ layout idsty screen false (sdoc 20 9) = (out false (sdoc 20 9), Ok tt)
  /\ softened idsty screen None (sdoc 15 0) (page idsty screen false (sdoc 15 0)) (sdoc 20 9) /\ everywhere idsty tops_differ (sdoc 15 0) (sdoc 20 9).
Proof.
  split; [solve_boxed|]. split; [solve_boxed|]. do 2 (split; [apply history_new; solve_new|]). do 2 (split; [apply ok_layout; vm_compute; reflexivity|]). split.
  - match goal with |- softened _ _ _ _ ?t _ => let v := eval vm_compute in t in replace t with v by (vm_compute; reflexivity) end.
    unfold sdoc, el.
    repeat match goal with |- softened_kids _ _ _ _ _ _ => constructor | |- softened _ _ _ _ _ _ => apply softened_box end.
    all: first [left; reflexivity|right; split; [reflexivity|]; do 2 eexists; split; [reflexivity|]; split; [vm_compute; reflexivity|]; split; [vm_compute; discriminate|]; split; [reflexivity|vm_compute; discriminate]].
  - unfold sdoc, el. repeat match goal with |- Forall2 _ _ _ => constructor | |- everywhere _ _ _ _ => apply everywhere_node end; first [left; reflexivity|right; split; [reflexivity|]; split; [reflexivity|]; eexists; split; [vm_compute; reflexivity|reflexivity]].
Qed.
