(** * C174, C175, C176: one of the documents can be laid out exactly when the other can *)
From Coq Require Import ZArith QArith Qcanon Qround Lia Lqa Bool List Permutation.
From Verif Require Import PyNum NumFacts Units BoxModel BoxSpec BoxFacts Engine EnginePure EngineSpec EngineExamples EngineInv EngineTree EngineTotal EngineWidth
  RefLayout RefFacts RefProps HistSpec HistProps MoveSpec MoveProps EdgeSpec EdgeProps LocalSpec LocalProps PushSpec PushProps OkSpec OkProps WrapSpec WrapProps
  ReorderSpec ReorderProps SpacerSpec SpacerProps TailSpec TailProps.
Import ListNotations.

Section S.
Context {S : Type} (sty : S -> style).
Notation node := (node S).

Definition kid_ok (inner : around) (k : node) : bool := if block_child sty k then can_lay sty inner k else true.
(** Two lists of children of a block that make no difference. *)
Lemma can_lay_kids s i b b' (ks ks' : list node) : st_display (sty s) = Some DBlock \/ st_display (sty s) = Some DListItem ->
  existsb (block_child sty) ks = true -> existsb (block_child sty) ks' = true ->
  blocks_first sty ks' = blocks_first sty ks -> (forall inner, forallb (kid_ok inner) ks' = forallb (kid_ok inner) ks) ->
  (st_height (sty s) = Auto -> last_boxed ks' = last_boxed ks) ->
  (forall inner, st_height (sty s) = Auto -> forallb (kid_ok inner) ks = true -> last_sized sty true ks' = last_sized sty true ks) ->
  forall a, can_lay sty a (Node s i b' ks') = can_lay sty a (Node s i b ks).
Proof.
  intros D X X' B F L1 L2 a. cbn [can_lay]. destruct (kind_of (sty s) i) as [kd|] eqn:K; [|reflexivity].
  assert (Kb : kd = Block) by (eapply block_kind; [|exact K]; unfold block_level; destruct D as [-> | ->]; reflexivity). subst kd.
  assert (If : forall (dk : display_k) q, st_display (sty s) = Some dk -> (match dk with DBlock | DListItem => q | _ => false end) = q) by (intros dk q E; destruct D as [D|D]; rewrite D in E; injection E as <-; reflexivity).
  destruct (st_display (sty s)) as [dk|]; [|reflexivity]. rewrite !(If dk _ eq_refl), X, X'.
  assert (H : forall l l', (st_height (sty s) = Auto -> l' = l) -> height_ok a Block (sty s) l' = height_ok a Block (sty s) l).
  { intros l l' E. unfold height_ok. destruct (st_height (sty s)); [rewrite E; reflexivity|reflexivity]. }
  rewrite (H (last_boxed ks) (last_boxed ks') L1), B. set (inner := mkAround _ _ _ _). specialize (F inner). specialize (L2 inner). unfold kid_ok in F, L2. rewrite F.
  destruct (forallb _ ks); [|rewrite !andb_false_r; reflexivity]. rewrite (H (last_sized sty true ks) (last_sized sty true ks')); [reflexivity|]. intros Hh. apply L2; [exact Hh|reflexivity].
Qed.
(** The same, with what is around the children of a block. *)
Lemma can_lay_kids' s i b b' (ks ks' : list node) : st_display (sty s) = Some DBlock \/ st_display (sty s) = Some DListItem ->
  existsb (block_child sty) ks = true -> existsb (block_child sty) ks' = true ->
  blocks_first sty ks' = blocks_first sty ks -> (forall p, forallb (kid_ok (mkAround true true false p)) ks' = forallb (kid_ok (mkAround true true false p)) ks) ->
  (st_height (sty s) = Auto -> last_boxed ks' = last_boxed ks /\ last_sized sty true ks' = last_sized sty true ks) ->
  forall a, can_lay sty a (Node s i b' ks') = can_lay sty a (Node s i b ks).
Proof.
  intros D X X' B F L a. cbn [can_lay]. destruct (kind_of (sty s) i) as [kd|] eqn:K; [|reflexivity].
  assert (Kb : kd = Block) by (eapply block_kind; [|exact K]; unfold block_level; destruct D as [-> | ->]; reflexivity). subst kd.
  assert (If : forall (dk : display_k) q, st_display (sty s) = Some dk -> (match dk with DBlock | DListItem => q | _ => false end) = q) by (intros dk q E; destruct D as [D|D]; rewrite D in E; injection E as <-; reflexivity).
  destruct (st_display (sty s)) as [dk|]; [|reflexivity]. rewrite !(If dk _ eq_refl), X, X'.
  assert (H : forall l l', (st_height (sty s) = Auto -> l' = l) -> height_ok a Block (sty s) l' = height_ok a Block (sty s) l).
  { intros l l' E. unfold height_ok. destruct (st_height (sty s)); [rewrite E; reflexivity|reflexivity]. }
  rewrite (H (last_boxed ks) (last_boxed ks')), (H (last_sized sty true ks) (last_sized sty true ks')), B by (intros Hh; apply L, Hh).
  cbn [width_known height_known]. replace (if relative (sty s) then true else true) with true by (destruct (relative (sty s)); reflexivity).
  set (p := match st_height (sty s) with Auto => None | Len u => Some u end). specialize (F p). unfold kid_ok in F. rewrite F. reflexivity.
Qed.
Lemma list_eq_nil_dec_ {A} (l : list A) : l = [] \/ l <> []. Proof. destruct l; [left; reflexivity|right; discriminate]. Qed.
Lemma same_kid_ok inner (ks ks' : list node) : Forall2 same_boxes ks ks' -> forallb (kid_ok inner) ks' = forallb (kid_ok inner) ks.
Proof. induction 1 as [|k k' l l' H F IH]; [reflexivity|]. cbn [forallb]. rewrite IH. unfold kid_ok, block_child. destruct (same_style _ _ H) as (-> & _). rewrite (can_lay_same sty k k' inner H). reflexivity. Qed.
Lemma same_first (ks ks' : list node) : Forall2 same_boxes ks ks' -> blocks_first sty ks' = blocks_first sty ks /\ existsb (block_child sty) ks' = existsb (block_child sty) ks.
Proof.
  induction 1 as [|k k' l l' H F [I1 I2]]; [split; reflexivity|]. cbn [blocks_first existsb]. rewrite I1, I2. unfold block_child. destruct (same_style _ _ H) as (-> & _). split; reflexivity.
Qed.
Lemma same_last_boxed (ks ks' : list node) : Forall2 same_boxes ks ks' -> last_boxed ks' = last_boxed ks.
Proof. intros F. unfold last_boxed. apply Forall2_rev_ in F. inversion F as [|k k' r r' Hk]; [reflexivity|]. destruct (same_style _ _ Hk) as (_ & _ & ->). reflexivity. Qed.
Lemma same_last_sized st (ks ks' : list node) : Forall2 same_boxes ks ks' -> last_sized sty st ks' = last_sized sty st ks.
Proof. intros F. unfold last_sized. apply Forall2_rev_ in F. inversion F as [|k k' r r' Hk]; [reflexivity|]. unfold block_child. destruct (same_style _ _ Hk) as (-> & -> & ->). reflexivity. Qed.
Lemma first_app (l : list node) r r' : blocks_first sty r' = blocks_first sty r -> existsb (block_child sty) r' = existsb (block_child sty) r -> blocks_first sty (l ++ r') = blocks_first sty (l ++ r).
Proof. intros E X. induction l as [|k l IH]; [exact E|]. cbn [app blocks_first]. rewrite IH, !existsb_app, X. reflexivity. Qed.
Lemma last_tail {A} (l r r' : list node) (f : list node -> option A) : (forall x y, y <> [] -> f (x ++ y) = f y) -> r <> [] -> r' <> [] -> f r' = f r -> f (l ++ r') = f (l ++ r).
Proof. intros H N N' E. rewrite !H; assumption. Qed.
Lemma boxed_last (l : list node) (x : node) : boxed x -> last_boxed (l ++ [x]) = Some true.
Proof. intros B. unfold last_boxed. rewrite rev_app_distr. cbn. inversion B. reflexivity. Qed.
Lemma boxed_lasts (l : list node) : l <> [] -> (forall k, In k l -> boxed k) -> last_boxed l = Some true.
Proof. intros N A. destruct (exists_last N) as (q & x & ->). apply boxed_last, A, in_or_app. right. left. reflexivity. Qed.
Lemma perm_forallb (f : node -> bool) l l' : Permutation l l' -> forallb f l' = forallb f l.
Proof. induction 1; cbn; rewrite ?IHPermutation; try reflexivity; [destruct (f x), (f y); reflexivity|congruence]. Qed.
Lemma last_sized_tail st (x y : list node) : y <> [] -> last_sized sty st (x ++ y) = last_sized sty st y.
Proof. intros N. destruct (exists_last N) as (q & k & ->). rewrite app_assoc. unfold last_sized. rewrite !rev_app_distr. reflexivity. Qed.

(** The level above. *)
Lemma can_lay_above (k k' : node) s i b b' before before' rest rest' : alike k k' -> some (n_box k') = some (n_box k) -> (forall a, can_lay sty a k' = can_lay sty a k) ->
  Forall2 same_boxes before before' -> Forall2 same_boxes rest rest' -> forall a, can_lay sty a (Node s i b' (before' ++ k' :: rest')) = can_lay sty a (Node s i b (before ++ k :: rest)).
Proof. intros A B C F1 F3. apply can_lay_children. apply Forall2_app; [apply same_fine, F1|]. constructor; [auto|apply same_fine, F3]. Qed.

(** ** C174 *)
Lemma can_lay_reordered p c (n m : node) : reordered sty p c n m -> boxed n -> boxed m -> forall a, can_lay sty a m = can_lay sty a n.
Proof.
  induction 1 as [s i b b' before before' group group' rest rest' E1 Pg E3 Ds Sk|p c s i b b' before before' k k' rest rest' E1 W IH E3]; intros Bn Bm;
    inversion Bn as [? ? ? ? Kn]; subst; inversion Bm as [? ? ? ? Km]; subst.
  - destruct (perm_inputs _ _ Pg) as (h & Ph & Eh).
    assert (F1 : Forall2 same_boxes before before') by (apply inputs_sames; [exact E1|intros; apply Kn, in_or_app; auto|intros; apply Km, in_or_app; auto]).
    assert (F3 : Forall2 same_boxes rest rest') by (apply inputs_sames; [exact E3|intros; apply Kn, in_or_app; right; apply in_or_app; auto|intros; apply Km, in_or_app; right; apply in_or_app; auto]).
    assert (F2 : Forall2 same_boxes h group').
    { apply inputs_sames; [exact Eh| |intros; apply Km, in_or_app; right; apply in_or_app; auto]. intros k I. apply Kn, in_or_app; right; apply in_or_app; left. eapply Permutation_in; [apply Permutation_sym, Ph|exact I]. }
    assert (FF : Forall2 same_boxes (before ++ h ++ rest) (before' ++ group' ++ rest')) by (apply Forall2_app; [exact F1|apply Forall2_app; assumption]).
    intros a. transitivity (can_lay sty a (Node s i (Some b0) (before ++ h ++ rest))); [apply can_lay_children, same_fine, FF|]. revert a.
    destruct group as [|g0 gs]; [apply Permutation_nil in Ph; subst h; reflexivity|]. set (group := g0 :: gs) in *.
    assert (Ng : group <> []) by discriminate. assert (Nh : h <> []) by (intros X; rewrite X in Ph; apply Permutation_sym, Permutation_nil in Ph; discriminate).
    assert (Bg : forall k, In k group -> block_child sty k = true) by (intros k I; rewrite Forall_forall in Sk; apply (proj1 (Sk k I))).
    assert (Bh : forall k, In k h -> block_child sty k = true) by (intros k I; apply Bg; eapply Permutation_in; [apply Permutation_sym, Ph|exact I]).
    assert (EX : forall l, l <> [] -> (forall k, In k l -> block_child sty k = true) -> existsb (block_child sty) (before ++ l ++ rest) = true).
    { intros l N A. apply existsb_exists. destruct l as [|k l]; [contradiction|]. exists k. split; [apply in_or_app; right; left; reflexivity|apply A; left; reflexivity]. }
    assert (LB : forall l, l <> [] -> (forall k, In k l -> boxed k) -> last_boxed (before ++ l ++ rest) = Some true).
    { intros l N A. apply boxed_lasts; [destruct before; [destruct l; [contradiction|discriminate]|discriminate]|]. intros k I. apply in_app_or in I. destruct I as [I|I]; [apply Kn, in_or_app; auto|].
      apply in_app_or in I. destruct I as [I|I]; [apply A, I|apply Kn, in_or_app; right; apply in_or_app; auto]. }
    apply can_lay_kids; [exact Ds|apply EX; assumption|apply EX; assumption|apply first_around; auto| | |].
    + intros inner. rewrite !forallb_app, (perm_forallb _ _ _ Ph). reflexivity.
    + intros _. rewrite !LB; [reflexivity|assumption| |assumption|]; intros k I; apply Kn, in_or_app; right; apply in_or_app; left; [exact I|eapply Permutation_in; [apply Permutation_sym, Ph|exact I]].
    + intros inner _ F. destruct rest as [|r0 rs]; [|rewrite !app_assoc, !last_sized_tail by discriminate; reflexivity]. rewrite !app_nil_r in *. rewrite forallb_app in F. apply andb_prop in F. destruct F as [_ F].
      assert (LS : forall l, l <> [] -> (forall k, In k l -> block_child sty k = true) -> forallb (kid_ok inner) l = true -> last_sized sty true (before ++ l) = Some true).
      { intros l N A Fl. destruct (exists_last N) as (q & k & ->). assert (I : In k (q ++ [k])) by (apply in_or_app; right; left; reflexivity). rewrite app_assoc. apply (last_block sty _ k inner); [exact (A k I)|].
        rewrite forallb_forall in Fl. specialize (Fl k I). unfold kid_ok in Fl. rewrite (A k I) in Fl. exact Fl. }
      rewrite !LS; auto. rewrite (perm_forallb _ _ _ Ph). exact F.
  - assert (F1 : Forall2 same_boxes before before') by (apply inputs_sames; [exact E1|intros; apply Kn, in_or_app; auto|intros; apply Km, in_or_app; auto]).
    assert (F3 : Forall2 same_boxes rest rest') by (apply inputs_sames; [exact E3|intros; apply Kn, in_or_app; right; right; assumption|intros; apply Km, in_or_app; right; right; assumption]).
    assert (Bk : boxed k) by (apply Kn, in_or_app; right; left; reflexivity). assert (Bk' : boxed k') by (apply Km, in_or_app; right; left; reflexivity).
    apply can_lay_above; [inversion W; split; reflexivity|inversion Bk; inversion Bk'; reflexivity|apply IH; assumption|exact F1|exact F3].
Qed.
Theorem C174_succeeds : forall d h5 p c (n m : node), boxed n -> boxed m -> history sty n -> history sty m -> reordered sty p c n m ->
  ((exists n', layout sty d h5 n = (n', Ok tt)) <-> (exists m', layout sty d h5 m = (m', Ok tt))).
Proof.
  intros d h5 p c n m Bn Bm Hn Hm W. rewrite (C123_exactly_when sty d h5 n Hn), (C123_exactly_when sty d h5 m Hm). unfold can_lay_out.
  rewrite (can_lay_reordered p c n m W Bn Bm), (reordered_style sty p c n m W). inversion Bn; inversion Bm; reflexivity.
Qed.

(** ** C175 *)
Lemma can_lay_blank (e : node) p : blank sty e -> can_lay sty (mkAround true true false p) e = true.
Proof.
  destruct e as [ws wi wb ks]. intros ((P1 & P2 & P3 & P4 & P5 & P6 & P7 & P8) & Mh & Nk & Rp). cbn [n_style n_kids n_intr] in *. subst ks. cbn [can_lay]. rewrite P1.
  assert (K : kind_of (sty ws) wi = Some Block) by (unfold kind_of; rewrite P1, P2, P3, Rp; reflexivity). rewrite K.
  cbn [forallb] in P6, P7, P8. repeat rewrite andb_true_iff in P6. repeat rewrite andb_true_iff in P7. repeat rewrite andb_true_iff in P8.
  destruct P6 as (M1 & M2 & M3 & M4 & _). destruct P7 as (B1 & B2 & B3 & B4 & _). destruct P8 as (D1 & D2 & D3 & D4 & _).
  assert (Na : forall u, nothing u = true -> measurable true u = true) by (intros u X; apply andb_prop in X; apply X).
  assert (Nm : forall v, nothing_or_auto v = true -> measurable_or_auto true v = true) by (intros [|u] X; [reflexivity|apply Na, X]).
  assert (Nb : forall v, no_border v = true -> measurable_border true v = true) by (intros [|u] X; [reflexivity|apply Na, X]).
  assert (Eo : edges_ok (mkAround true true false p) (sty ws) = true).
  { unfold edges_ok. cbn [w_known h_known forallb]. rewrite !Nm, !Nb, !Na by assumption. reflexivity. }
  rewrite Eo. unfold relative, width_ok, height_ok. rewrite P2, P4, P5, Mh. reflexivity.
Qed.
Lemma spaced_styles p (n m : node) : spaced sty p n m -> n_style m = n_style n /\ n_intr m = n_intr n.
Proof. intros H. inversion H; split; reflexivity. Qed.
Lemma can_lay_spaced p (n m : node) : spaced sty p n m -> boxed n -> boxed m -> forall a, can_lay sty a m = can_lay sty a n.
Proof.
  induction 1 as [s i b b' before before' k l k' l' e rest rest' Ds E1 Ek El E3 Bk Pk Bl He|p s i b b' before before' k k' rest rest' Ds E1 W IH E3]; intros Bn Bm;
    inversion Bn as [? ? ? ? Kn]; subst; inversion Bm as [? ? ? ? Km]; subst.
  - assert (F1 : Forall2 same_boxes before before') by (apply inputs_sames; [exact E1|intros; apply Kn, in_or_app; auto|intros; apply Km, in_or_app; auto]).
    assert (F3 : Forall2 same_boxes (l :: rest) (l' :: rest')).
    { apply inputs_sames; [cbn [map]; congruence|intros; apply Kn, in_or_app; right; right; assumption|intros; apply Km, in_or_app; right; right; right; assumption]. }
    assert (F2 : Forall2 same_boxes [k] [k']).
    { apply inputs_sames; [cbn [map]; congruence|intros x [<- |[]]; apply Kn, in_or_app; right; left; reflexivity|intros x [<- |[]]; apply Km, in_or_app; right; left; reflexivity]. }
    assert (Be : boxed e) by (apply Km, in_or_app; right; right; left; reflexivity).
    assert (Ee : same_boxes e e) by (apply inputs_same; [reflexivity|exact Be|exact Be]).
    intros a. transitivity (can_lay sty a (Node s i (Some b0) (before ++ k :: e :: l :: rest))).
    { apply can_lay_children, same_fine, Forall2_app; [exact F1|]. inversion F2; subst. constructor; [assumption|]. constructor; [exact Ee|exact F3]. }
    revert a. assert (Be' : block_child sty e = true) by (unfold block_child; destruct He as ((-> & _) & _); reflexivity).
    assert (EX : forall w, existsb (block_child sty) (before ++ k :: w) = true).
    { intros w. apply existsb_exists. exists k. split; [apply in_or_app; right; left; reflexivity|exact Bk]. }
    apply can_lay_kids'; [exact Ds|apply EX|apply EX| | |].
    + apply (first_around sty before [k] [k; e] (l :: rest) (l :: rest)); try discriminate; try reflexivity; intros x I; cbn in I; destruct I as [<- |I]; try exact Bk; [destruct I|destruct I as [<- |[]]; exact Be'].
    + intros p. rewrite !forallb_app. cbn [forallb]. unfold kid_ok at 3. rewrite Be', (can_lay_blank e p He). reflexivity.
    + intros _. unfold last_boxed, last_sized. change (k :: e :: l :: rest) with ([k; e] ++ l :: rest). change (k :: l :: rest) with ([k] ++ l :: rest). rewrite !app_assoc, !(rev_app_distr _ (l :: rest)).
      destruct (rev (l :: rest)) as [|z zs] eqn:Z; [apply (f_equal (@rev _)) in Z; rewrite rev_involutive in Z; discriminate|]. split; reflexivity.
  - destruct (spaced_styles _ _ _ W) as [S1 S2].
    assert (F1 : Forall2 same_boxes before before') by (apply inputs_sames; [exact E1|intros; apply Kn, in_or_app; auto|intros; apply Km, in_or_app; auto]).
    assert (F3 : Forall2 same_boxes rest rest') by (apply inputs_sames; [exact E3|intros; apply Kn, in_or_app; right; right; assumption|intros; apply Km, in_or_app; right; right; assumption]).
    assert (Bk : boxed k) by (apply Kn, in_or_app; right; left; reflexivity). assert (Bk' : boxed k') by (apply Km, in_or_app; right; left; reflexivity).
    apply can_lay_above; [split; assumption|inversion Bk; inversion Bk'; reflexivity|apply IH; assumption|exact F1|exact F3].
Qed.
Theorem C175_succeeds : forall d h5 p (n m : node), boxed n -> boxed m -> history sty n -> history sty m -> spaced sty p n m ->
  ((exists n', layout sty d h5 n = (n', Ok tt)) <-> (exists m', layout sty d h5 m = (m', Ok tt))).
Proof.
  intros d h5 p n m Bn Bm Hn Hm W. rewrite (C123_exactly_when sty d h5 n Hn), (C123_exactly_when sty d h5 m Hm). unfold can_lay_out.
  rewrite (can_lay_spaced p n m W Bn Bm), (proj1 (spaced_styles p n m W)). inversion Bn; inversion Bm; reflexivity.
Qed.

(** ** C176 *)
Lemma retailed_styles p (n m : node) : retailed sty p n m -> n_style m = n_style n /\ n_intr m = n_intr n.
Proof. intros H. inversion H; split; reflexivity. Qed.
Lemma first_tail (l tl : list node) : (forall x, In x tl -> block_child sty x = false) -> blocks_first sty (l ++ tl) = blocks_first sty l /\ existsb (block_child sty) (l ++ tl) = existsb (block_child sty) l.
Proof.
  intros A. assert (X : existsb (block_child sty) tl = false).
  { destruct (existsb (block_child sty) tl) eqn:E; [|reflexivity]. apply existsb_exists in E. destruct E as (x & I & E). rewrite (A x I) in E. discriminate. }
  induction l as [|k l [I1 I2]]; cbn [app blocks_first existsb].
  - split; [|exact X]. induction tl as [|t tl IH]; [reflexivity|]. cbn [blocks_first]. rewrite (A t (or_introl eq_refl)). cbn [existsb] in X. apply orb_false_elim in X. destruct X as [_ ->]. reflexivity.
  - rewrite I1, I2. split; reflexivity.
Qed.
Lemma can_lay_retailed p (n m : node) : retailed sty p n m -> boxed n -> boxed m -> forall a, can_lay sty a m = can_lay sty a n.
Proof.
  induction 1 as [s i b b' ks ks' tl tl' Ds E1 (x0 & I0 & B0) Bt Hs|p s i b b' before before' k k' rest rest' E1 W IH E3]; intros Bn Bm;
    inversion Bn as [? ? ? ? Kn]; subst; inversion Bm as [? ? ? ? Km]; subst.
  - assert (F1 : Forall2 same_boxes ks ks') by (apply inputs_sames; [exact E1|intros; apply Kn, in_or_app; auto|intros; apply Km, in_or_app; auto]).
    assert (A : forall x, In x tl -> block_child sty x = false) by (intros x I; apply (Bt x), in_or_app; auto).
    assert (A' : forall x, In x tl' -> block_child sty x = false) by (intros x I; apply (Bt x), in_or_app; auto).
    destruct (first_tail ks tl A) as [T1 T2]. destruct (first_tail ks' tl' A') as [T1' T2']. destruct (same_first _ _ F1) as [G1 G2].
    assert (EX : existsb (block_child sty) ks = true) by (apply existsb_exists; exists x0; split; assumption).
    assert (KT : forall p l, (forall x, In x l -> block_child sty x = false) -> forallb (kid_ok p) l = true).
    { intros p l H. apply forallb_forall. intros x I. unfold kid_ok. rewrite (H x I). reflexivity. }
    apply can_lay_kids'; [exact Ds|congruence|congruence|congruence| |].
    + intros p. rewrite !forallb_app, (KT _ tl A), (KT _ tl' A'), !andb_true_r. apply same_kid_ok, F1.
    + intros Hh. destruct Hs as [Hs|Hs]; [contradiction|].
      destruct (list_eq_nil_dec_ tl) as [Et|Nt].
      * rewrite Et, (proj1 Hs Et), !app_nil_r. split; [apply same_last_boxed, F1|apply same_last_sized, F1].
      * assert (Nt' : tl' <> []) by (intros X; apply Nt, Hs, X). destruct (exists_last Nt) as (w & z & Z). destruct (exists_last Nt') as (w' & z' & Z'). rewrite Z, Z', !app_assoc.
        assert (Bz : boxed z) by (apply Kn; rewrite Z; apply in_or_app; right; apply in_or_app; right; left; reflexivity).
        assert (Bz' : boxed z') by (apply Km; rewrite Z'; apply in_or_app; right; apply in_or_app; right; left; reflexivity).
        split; [rewrite !boxed_last by assumption; reflexivity|]. unfold last_sized. rewrite !rev_app_distr. cbn [rev app].
        rewrite (A z), (A' z') by (rewrite ?Z, ?Z'; apply in_or_app; right; left; reflexivity). cbn [negb andb]. inversion Bz; inversion Bz'; reflexivity.
  - destruct (retailed_styles _ _ _ W) as [S1 S2].
    assert (F1 : Forall2 same_boxes before before') by (apply inputs_sames; [exact E1|intros; apply Kn, in_or_app; auto|intros; apply Km, in_or_app; auto]).
    assert (F3 : Forall2 same_boxes rest rest') by (apply inputs_sames; [exact E3|intros; apply Kn, in_or_app; right; right; assumption|intros; apply Km, in_or_app; right; right; assumption]).
    assert (Bk : boxed k) by (apply Kn, in_or_app; right; left; reflexivity). assert (Bk' : boxed k') by (apply Km, in_or_app; right; left; reflexivity).
    apply can_lay_above; [split; assumption|inversion Bk; inversion Bk'; reflexivity|apply IH; assumption|exact F1|exact F3].
Qed.
Theorem C176_succeeds : forall d h5 p (n m : node), boxed n -> boxed m -> history sty n -> history sty m -> retailed sty p n m ->
  ((exists n', layout sty d h5 n = (n', Ok tt)) <-> (exists m', layout sty d h5 m = (m', Ok tt))).
Proof.
  intros d h5 p n m Bn Bm Hn Hm W. rewrite (C123_exactly_when sty d h5 n Hn), (C123_exactly_when sty d h5 m Hm). unfold can_lay_out.
  rewrite (can_lay_retailed p n m W Bn Bm), (proj1 (retailed_styles p n m W)). inversion Bn; inversion Bm; reflexivity.
Qed.
End S.
Print Assumptions C174_succeeds.
Print Assumptions C175_succeeds.
Print Assumptions C176_succeeds.

(** ** Examples *)
(** The documents of the examples of C174, C175 and C176 meet the hypotheses. *)
Example C174_succeeds_example : boxed re_1 /\ boxed re_2 /\ history idsty re_1 /\ history idsty re_2 /\ reordered idsty [0; 1]%nat 3 re_1 re_2 /\ exists n', layout idsty screen false re_1 = (n', Ok tt).
Proof. destruct C174_example as (A & B & C & D & E & F & _). repeat (split; [assumption|]). eexists. exact F. Qed.
Example C175_succeeds_example : boxed sp_1 /\ boxed sp_2 /\ history idsty sp_1 /\ history idsty sp_2 /\ spaced idsty [0; 0]%nat sp_1 sp_2 /\ exists n', layout idsty screen false sp_1 = (n', Ok tt).
Proof. destruct C175_example as (A & B & C & D & E & F & _). repeat (split; [assumption|]). eexists. exact F. Qed.
Example C176_succeeds_example : boxed tail_1 /\ boxed tail_2 /\ history idsty tail_1 /\ history idsty tail_2 /\ retailed idsty [0%nat] tail_1 tail_2 /\ exists n', layout idsty screen false tail_1 = (n', Ok tt).
Proof. destruct C176_example as (A & B & C & D & E & F & _). repeat (split; [assumption|]). eexists. exact F. Qed.
