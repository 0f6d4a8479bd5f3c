(** * C207: inline children do not see each other *)
From Coq Require Import ZArith QArith Qcanon Qround Lia Lqa Bool List Permutation.
From Verif Require Import PyNum NumFacts Units BoxModel BoxSpec BoxFacts Engine EngineSpec EngineExamples
  RefLayout RefFacts RefProps OkSpec OkFacts HistSpec HistProps MoveSpec MoveProps LocalProps PushSpec PushProps PixelSpec OkProps SymProps DrawnSpec ReorderSpec ReorderProps RowSpec.
Import ListNotations.
Open Scope Qc_scope.

(** Trees with the same used values at the root. *)
Definition same_root (x y : utree) : Prop :=
  match x, y with UNode u _, UNode v _ => u = v | UHidden, UHidden | USkipped, USkipped => True | _, _ => False end.
Lemma last_same us x ws y : same_root x y -> last_kid (us ++ [x]) = last_kid (ws ++ [y]).
Proof. intros H. unfold last_kid. rewrite !rev_app_distr. cbn. destruct x, y; try contradiction; cbn in H; subst; reflexivity. Qed.
Lemma last_same_all us ws : Forall2 same_root us ws -> last_kid us = last_kid ws.
Proof.
  intros H. destruct us as [|x us] using rev_ind; [inversion H; reflexivity|]. apply Forall2_app_inv_l in H. destruct H as (l & r & _ & H2 & ->). inversion H2 as [|? y ? ? R H3]; subst. inversion H3; subst. apply last_same, R.
Qed.
Section T.
Context {S : Type} (sty : S -> style).
Notation node := (node S).
Notation kid d inner st := (MoveProps.laid_kid sty d inner st).
Notation mixed := (rows_mixed sty).
Notation result := (same_boxes_mixed (S := S)).
Lemma mixed_style (n m : node) : mixed n m -> n_style m = n_style n. Proof. intros []; reflexivity. Qed.
Lemma result_root (n : node) x m y : result n x m y -> same_root x y. Proof. intros []; cbn; auto. Qed.
Lemma result_down r (n : node) u us m v vs : result n (UNode u us) m (UNode v vs) -> result n (UNode (move_down r u) us) m (UNode (move_down r v) vs).
Proof. intros H. inversion H; subst. econstructor; eassumption. Qed.
Lemma mixed_exists (p : node -> bool) ks qs : (forall k q, n_style k = n_style q -> p k = p q) -> Forall2 mixed ks qs -> existsb p ks = existsb p qs.
Proof. intros P. induction 1 as [|k q ks qs H _ IH]; [reflexivity|]. cbn. rewrite IH, (P k q) by (symmetry; apply (mixed_style _ _ H)). reflexivity. Qed.
Lemma perm_exists (p : node -> bool) ks qs : Permutation ks qs -> existsb p ks = existsb p qs.
Proof. induction 1; cbn; try congruence; rewrite ?orb_assoc, 1?(orb_comm (p y)); congruence. Qed.
Lemma pairs_map (f : node -> utree) ks : combine ks (map f ks) = map (fun k => (k, f k)) ks.
Proof. induction ks as [|k ks IH]; [reflexivity|]. cbn. rewrite IH. reflexivity. Qed.
Lemma all4_map (f : node -> utree) ks qs : (forall k q, In k ks -> mixed k q -> result k (f k) q (f q)) -> Forall2 mixed ks qs -> all4 result ks (map f ks) qs (map f qs).
Proof. intros G H. induction H as [|k q ks qs H _ IH]; cbn; constructor; [apply G; [left; reflexivity|exact H]|apply IH; intros; apply G; [right|]; assumption]. Qed.
Lemma all4_stack (f : node -> utree) ks qs : (forall k q, In k ks -> mixed k q -> result k (f k) q (f q)) -> Forall2 mixed ks qs ->
  forall top p, all4 result ks (stack top p (map f ks)) qs (stack top p (map f qs)).
Proof.
  intros G H. induction H as [|k q ks qs H _ IH]; intros top p; cbn [map stack]; [constructor|]. pose proof (G k q (or_introl eq_refl) H) as R. pose proof (result_root _ _ _ _ R) as E.
  assert (J : forall top p, all4 result ks (stack top p (map f ks)) qs (stack top p (map f qs))) by (apply IH; intros; apply G; [right|]; assumption).
  destruct (f k) as [u us| |], (f q) as [v vs| |]; try contradiction; cbn [stack]; [|constructor; [exact R|apply J]..]. cbn in E. subst v. constructor; [apply result_down, R|apply J].
Qed.
Lemma all4_roots ks us qs ws : all4 result ks us qs ws -> Forall2 same_root us ws.
Proof. induction 1; constructor; [eapply result_root; eassumption|assumption]. Qed.
Lemma all4_length {A B C D} (R : A -> B -> C -> D -> Prop) la lb lc ld : all4 R la lb lc ld -> length lb = length la /\ length ld = length lc.
Proof. induction 1 as [|? ? ? ? ? ? ? ? _ _ [I J]]; cbn; split; congruence. Qed.
Lemma stacks_mixed dk s i ks (ks' : list node) b b' : st_display (sty s) = Some dk -> mixed (Node s i b ks) (Node s i b' ks') -> stacks_ sty dk ks' = stacks_ sty dk ks.
Proof.
  intros D H. inversion H as [? ? ? ? ? qs ? F O]; subst. unfold stacks_. assert (E : existsb (fun k => block_level (sty (n_style k))) ks' = existsb (fun k => block_level (sty (n_style k))) ks); [|destruct dk; try reflexivity; exact E].
  rewrite (mixed_exists (fun k => block_level (sty (n_style k))) ks qs ltac:(intros k q Q; cbv beta; rewrite Q; reflexivity) F). destruct O as [->|(_ & l & l' & z & -> & -> & P)]; [reflexivity|]. apply perm_exists, Permutation_app_tail. symmetry. exact P.
Qed.
Lemma format_mixed d (n : node) : forall m a, mixed n m -> result n (format sty d a n) m (format sty d a m).
Proof.
  induction n as [s i b ks IH] using node_ind'. intros m a H. pose proof H as H0. inversion H as [? ? ? b' ? qs ks' F O]; subst. rewrite !format_split. destruct (st_display (sty s)) as [dk|] eqn:D; [|constructor; reflexivity].
  rewrite (stacks_mixed dk s i ks ks' b b' D H0). set (st := stacks_ sty dk ks). set (inner := inner_of d a dk (sty s) i).
  assert (G : forall k q, In k ks -> mixed k q -> result k (kid d inner st k) q (kid d inner st q)).
  { intros k q I M. unfold MoveProps.laid_kid. rewrite (mixed_style _ _ M). destruct (st && _); [constructor; symmetry; apply (mixed_style _ _ M)|]. apply IH; assumption. }
  (* the children *)
  assert (K : exists ws, all4 result ks (kids_of sty d inner st ks) qs ws /\ Permutation (combine qs ws) (combine ks' (kids_of sty d inner st ks'))
    /\ length (kids_of sty d inner st ks') = length ks' /\ last_kid (kids_of sty d inner st ks') = last_kid (kids_of sty d inner st ks)
    /\ (if st then match kids_of sty d inner st ks' with UNode u _ :: _ => u_ct u | _ => 0%Z end else 0%Z) = (if st then match kids_of sty d inner st ks with UNode u _ :: _ => u_ct u | _ => 0%Z end else 0%Z)).
  { destruct O as [->|(Rw & l & l' & z & -> & -> & P)].
    - exists (kids_of sty d inner st ks').
      assert (A : all4 result ks (kids_of sty d inner st ks) ks' (kids_of sty d inner st ks')) by (unfold kids_of; destruct st; [apply all4_stack|apply all4_map]; assumption).
      split; [exact A|]. split; [reflexivity|]. split; [apply (all4_length _ _ _ _ _ A)|]. pose proof (all4_roots _ _ _ _ A) as Ro. split; [symmetry; apply last_same_all, Ro|].
      destruct st; [|reflexivity]. destruct Ro as [|x y r r' Hx _]; [reflexivity|]. destruct x, y; try contradiction; [cbn in Hx; subst|..]; reflexivity.
    - assert (St : st = false).
      { unfold st, stacks_. unfold row in Rw. rewrite D in Rw. destruct dk; try reflexivity; clear -Rw; (induction ks as [|k ks IHk]; [reflexivity|]; cbn; rewrite (Rw k (or_introl eq_refl)); apply IHk; intros x I; apply Rw; right; exact I). }
      clearbody st. subst st. unfold kids_of. exists (map (kid d inner false) (l ++ [z])). pose proof (all4_map (kid d inner false) ks (l ++ [z]) G F) as A. split; [exact A|]. split; [|split; [apply map_length|split; [|reflexivity]]].
      + rewrite !pairs_map. apply Permutation_map, Permutation_app_tail, P.
      + rewrite (last_same_all _ _ (all4_roots _ _ _ _ A)), !map_app. cbn [map]. apply last_same. destruct (kid d inner false z); cbn; auto. }
  destruct K as (ws & A & P & Le & La & Fi). unfold node_of. cbv zeta. rewrite La, Fi. econstructor; eassumption.
Qed.
(** C207.  The children of a row do not see each other: put in another order, where the last one stays the last, they and everything else keep their boxes. *)
Theorem C207_rows d h5 (n m n' m' : node) : history sty n -> history sty m -> rows_mixed sty n m ->
  layout sty d h5 n = (n', Ok tt) -> layout sty d h5 m = (m', Ok tt) -> exists t t', shows n' t /\ shows m' t' /\ same_boxes_mixed n t m t'.
Proof.
  intros Hn Hm H Ln Lm. exists (page sty d h5 n), (page sty d h5 m). split; [apply (C122_any_history sty); assumption|]. split; [apply (C122_any_history sty); assumption|].
  rewrite !page_draft. unfold draft. pose proof (format_mixed d n m (mkArea (Some (nval (disp_width d))) (Some (nval (disp_height d))) 0 0 None) H) as R. revert R.
  generalize (format sty d (mkArea (Some (nval (disp_width d))) (Some (nval (disp_height d))) 0 0 None) n), (format sty d (mkArea (Some (nval (disp_width d))) (Some (nval (disp_height d))) 0 0 None) m).
  intros x y R. inversion R; subst; cbn [finished]; econstructor; eassumption.
Qed.
Lemma place_any d : forall (n : node) a t k x, place n t k x -> t = format sty d a n -> forall u us, x = UNode u us ->
  exists a' t0 v, format sty d a' k = UNode v us /\ u = move_down t0 v.
Proof.
  assert (K : forall (n : node) t k x, place n t k x -> forall a t0, match format sty d a n with UNode v us => t = UNode (move_down t0 v) us | y => t = y end ->
    forall u us, x = UNode u us -> exists a' t1 v, format sty d a' k = UNode v us /\ u = move_down t1 v).
  { induction 1 as [n t|s i b ks u0 us0 j k0 x0 k x N1 N2 P IH]; intros a t0 F u us E.
    - destruct (format sty d a n) as [v vs| |] eqn:EF; rewrite E in F; try discriminate. injection F as -> ->. exists a, t0, v. auto.
    - rewrite format_split in F. destruct (st_display (sty s)) as [dk|]; [|discriminate]. unfold node_of in F. cbv zeta in F. injection F as _ ->.
      set (inner := inner_of d a dk (sty s) i) in *. set (st := stacks_ sty dk ks) in *.
      assert (X : exists t1, match format sty d inner k0 with UNode v us => x0 = UNode (move_down t1 v) us \/ x0 = USkipped | y => x0 = y \/ x0 = USkipped end).
      { assert (SK : forall l top prev j y, nth_error (stack top prev l) j = Some y -> exists t1 z, nth_error l j = Some z /\ match z with UNode v vs => y = UNode (move_down t1 v) vs | z => y = z end).
        { clear. induction l as [|z l IH]; intros top prev j y N; [destruct j; discriminate|]. destruct j as [|j].
          - destruct z as [v vs| |]; cbn [stack nth_error] in N; injection N as <-; [do 2 eexists|exists 0; eexists|exists 0; eexists]; (split; [reflexivity|]); reflexivity.
          - destruct z as [v vs| |]; cbn [stack nth_error] in *; eapply IH, N. }
        unfold kids_of in N2. destruct st.
        - apply SK in N2. destruct N2 as (t1 & z & Nz & Y). rewrite nth_error_map, N1 in Nz. cbn in Nz. injection Nz as <-. exists t1. unfold MoveProps.laid_kid in Y. destruct (_ && _).
          + destruct (format sty d inner k0); auto.
          + destruct (format sty d inner k0); auto.
        - rewrite nth_error_map, N1 in N2. cbn in N2. injection N2 as <-. exists 0. unfold MoveProps.laid_kid. cbn [andb]. destruct (format sty d inner k0) as [v vs| |]; auto. left. destruct v. cbn. do 2 f_equal. ring. }
      destruct X as (t1 & X). apply (IH inner t1); [|exact E].
      destruct (format sty d inner k0) as [v vs| |]; destruct X as [-> | ->]; try reflexivity; inversion P; subst; discriminate. }
  intros n a t k x P -> u us E. apply (K n _ k x P a 0) with (u := u) (us := us); [|exact E]. destruct (format sty d a n) as [v vs| |]; [|reflexivity..]. destruct v. cbn. do 2 f_equal. ring.
Qed.
(** Equal children of a row lie exactly on top of each other, with everything in them.  (The height of the root is changed afterwards in HTML5 mode.) *)
Theorem C207_overlap d h5 (n n' : node) : history sty n -> layout sty d h5 n = (n', Ok tt) ->
  exists x, shows n' (finished h5 d x)
    /\ forall k u us, place n x k (UNode u us) -> row sty (n_style k) (n_kids k) ->
       forall p q c c' t t', nth_error (n_kids k) p = Some c -> nth_error (n_kids k) q = Some c' -> inputs c = inputs c' ->
         nth_error us p = Some t -> nth_error us q = Some t' -> t = t'.
Proof.
  intros Hn Ln. exists (draft sty d n). rewrite <- page_draft. split; [apply (C122_any_history sty); assumption|].
  intros k u us P Rw p q c c' t t' Hp Hq E Tp Tq. destruct (place_any d n _ _ _ _ P eq_refl _ _ eq_refl) as (a & t0 & v & X & _). destruct k as [s i b ks]. cbn [n_style n_kids] in *. rewrite format_split in X. unfold row in Rw. destruct (st_display (sty s)) as [dk|] eqn:D; [|discriminate X].
  assert (St : stacks_ sty dk ks = false).
  { unfold stacks_. destruct dk; try reflexivity; clear -Rw; (induction ks as [|k ks IHk]; [reflexivity|]; cbn; rewrite (Rw k (or_introl eq_refl)); apply IHk; intros x I; apply Rw; right; exact I). }
  rewrite St in X. unfold node_of in X. cbv zeta in X. injection X as _ X. subst us. unfold kids_of in Tp, Tq. rewrite nth_error_map in Tp, Tq. rewrite Hp in Tp. rewrite Hq in Tq. cbn [option_map] in Tp, Tq. injection Tp as <-. injection Tq as <-.
  unfold MoveProps.laid_kid. cbn [andb]. apply format_inputs, E.
Qed.
(** Whether they can be laid out at all is the same. *)
Lemma mixed_intr (n m : node) : mixed n m -> n_intr m = n_intr n. Proof. intros []; reflexivity. Qed.
Lemma boxed_kid s i b (ks : list node) k : boxed (Node s i b ks) -> In k ks -> boxed k.
Proof. intros H I. inversion H; subst. auto. Qed.
Lemma perm_forall (p : node -> bool) ks qs : Permutation ks qs -> forallb p ks = forallb p qs.
Proof. induction 1; cbn; try congruence; rewrite ?andb_assoc, 1?(andb_comm (p y)); congruence. Qed.
Lemma mixed_last s i b b' (ks ks' : list node) : mixed (Node s i b ks) (Node s i b' ks') ->
  ks = [] /\ ks' = [] \/ exists l k l' k', ks = l ++ [k] /\ ks' = l' ++ [k'] /\ n_style k' = n_style k /\ n_intr k' = n_intr k.
Proof.
  intros H. inversion H as [? ? ? ? ? qs ? F O]; subst. destruct ks as [|k l _] using rev_ind.
  - inversion F; subst. left. split; [reflexivity|]. destruct O as [->|(_ & l & l' & z & E & _)]; [reflexivity|]. destruct l; discriminate.
  - right. apply Forall2_app_inv_l in F. destruct F as (l1 & r & _ & F2 & ->). inversion F2 as [|? q ? ? M F3]; subst. inversion F3; subst. exists l, k. destruct O as [<-|(_ & l2 & l' & z & E & -> & _)].
    + exists l1, q. repeat split; [apply (mixed_style _ _ M)|apply (mixed_intr _ _ M)].
    + apply app_inj_tail in E. destruct E as [_ <-]. exists l', q. repeat split; [apply (mixed_style _ _ M)|apply (mixed_intr _ _ M)].
Qed.
Lemma can_mixed (n : node) : forall m a, mixed n m -> boxed n -> boxed m -> can_lay sty a m = can_lay sty a n.
Proof.
  induction n as [s i b ks IH] using node_ind'. intros m a H Bn Bm. pose proof H as H0. inversion H as [? ? ? b' ? qs ks' F O]; subst. cbn [can_lay]. destruct (st_display (sty s)) as [dk|] eqn:D; [|reflexivity]. destruct (kind_of (sty s) i) as [kd|]; [|reflexivity].
  assert (Bc : forall k q : node, n_style k = n_style q -> block_child sty k = block_child sty q) by (intros k q E; unfold block_child; rewrite E; reflexivity).
  assert (Q : forall p : node -> bool, (forall k q, In k ks -> mixed k q -> boxed q -> p q = p k) -> (exists l l' z, qs = l ++ [z] /\ ks' = l' ++ [z] /\ Permutation l l') \/ qs = ks' -> forallb p ks' = forallb p ks).
  { intros p Hp O'. assert (Bq : forall q, In q qs -> boxed q).
    { intros q I. apply (boxed_kid _ _ _ _ q Bm). destruct O' as [(l & l' & z & -> & -> & P)| <-]; [|exact I]. apply in_app_iff. apply in_app_iff in I. destruct I as [I|I]; [left; apply (Permutation_in _ P I)|right; exact I]. }
    transitivity (forallb p qs).
    - destruct O' as [(l & l' & z & -> & -> & P)| ->]; [|reflexivity]. apply perm_forall, Permutation_app_tail. symmetry. exact P.
    - clear -F Hp Bq. induction F as [|k q ks qs M F IHf]; [reflexivity|]. cbn [forallb]. rewrite (Hp k q) by (try (left; reflexivity); try exact M; apply Bq; left; reflexivity). rewrite IHf; [reflexivity|..]; intros; [apply Hp; [right|..]; assumption|apply Bq; right; assumption]. }
  assert (St : existsb (block_child sty) ks' = existsb (block_child sty) ks).
  { rewrite (mixed_exists (block_child sty) ks qs Bc F). destruct O as [->|(_ & l & l' & z & -> & -> & P)]; [reflexivity|]. apply perm_exists, Permutation_app_tail. symmetry. exact P. }
  assert (Sk : (match dk with DBlock | DListItem => existsb (block_child sty) ks' | _ => false end) = (match dk with DBlock | DListItem => existsb (block_child sty) ks | _ => false end)) by (destruct dk; try reflexivity; exact St).
  rewrite Sk. set (stk := match dk with DBlock | DListItem => existsb (block_child sty) ks | _ => false end) in *.
  assert (L : last_boxed ks' = last_boxed ks /\ last_sized sty stk ks' = last_sized sty stk ks).
  { destruct (mixed_last _ _ _ _ _ _ H0) as [[-> ->]|(l & k & l' & k' & -> & -> & E1 & E2)]; [split; reflexivity|]. unfold last_boxed, last_sized. rewrite !rev_app_distr. cbn [rev app].
    assert (K1 : boxed k) by (apply (boxed_kid _ _ _ _ k Bn); apply in_app_iff; right; left; reflexivity). assert (K2 : boxed k') by (apply (boxed_kid _ _ _ _ k' Bm); apply in_app_iff; right; left; reflexivity).
    rewrite (boxed_some k K1), (boxed_some k' K2). split; [reflexivity|]. rewrite (Bc k' k E1), E1, E2. reflexivity. }
  destruct L as [-> ->]. set (inner := mkAround _ _ false _).
  assert (O' : (exists l l' z, qs = l ++ [z] /\ ks' = l' ++ [z] /\ Permutation l l') \/ qs = ks') by (destruct O as [O|(_ & O)]; auto).
  assert (C : forall k q, In k ks -> mixed k q -> boxed q -> can_lay sty inner q = can_lay sty inner k) by (intros k q I M B; apply (IH k I q inner M (boxed_kid _ _ _ _ k Bn I) B)).
  rewrite (Q (can_lay sty inner) C O').
  replace (if stk then blocks_first sty ks' && forallb (fun k => if block_child sty k then can_lay sty inner k else true) ks' else forallb (can_lay sty inner) ks)
    with (if stk then blocks_first sty ks && forallb (fun k => if block_child sty k then can_lay sty inner k else true) ks else forallb (can_lay sty inner) ks); [reflexivity|].
  destruct stk eqn:Es; [|reflexivity]. rewrite (Q (fun k => if block_child sty k then can_lay sty inner k else true)); [|intros k q I M B; rewrite (Bc q k (mixed_style _ _ M)), (C k q I M B); reflexivity|exact O']. f_equal.
  destruct O as [->|(Rw & _)].
  - clear -F Bc. induction F as [|k q ks qs M F IHf]; [reflexivity|]. cbn [blocks_first]. rewrite IHf, (Bc q k (mixed_style _ _ M)), (mixed_exists (block_child sty) ks qs Bc F). reflexivity.
  - exfalso. unfold stk in Es. unfold row in Rw. rewrite D in Rw. destruct dk; try discriminate Es; apply existsb_exists in Es; destruct Es as (k & I & X); specialize (Rw k I); unfold block_child in X; unfold block_level in Rw; congruence.
Qed.
Theorem C207_succeeds d d' h5 h5' (n m : node) : boxed n -> boxed m -> history sty n -> history sty m -> rows_mixed sty n m ->
  ((exists n', layout sty d h5 n = (n', Ok tt)) <-> (exists m', layout sty d' h5' m = (m', Ok tt))).
Proof.
  intros Bn Bm Hn Hm Z. rewrite (C123_exactly_when sty d h5 n Hn), (C123_exactly_when sty d' h5' m Hm). unfold can_lay_out. rewrite (can_mixed n m _ Z Bn Bm), !boxed_some by assumption. rewrite (mixed_style _ _ Z). reflexivity.
Qed.
End T.
Print Assumptions C207_rows.
Print Assumptions C207_overlap.
Print Assumptions C207_succeeds.

(** ** Example *)
Open Scope Z_scope.
Definition inline_style : style := DrawnSpec.with_display (Some DInline) block_style.
Definition a_word (w h : Z) : doc := Node inline_style (mkSize (Some (NI w)) (Some (NI h)) true true None false) (Some box0) [].
(** A block with four words, two of them the same; exchanged are the first and the third. *)
Definition line1 : list doc := [a_word 30 12; a_word 44 13; a_word 7 9; a_word 44 13].
Definition line2 : list doc := [a_word 7 9; a_word 44 13; a_word 30 12; a_word 44 13].
Definition rdoc (l : list doc) : doc := el block_style [el (s_padding (pxu 3) (pxu 2) (pxu 1) (pxu 4) (vmargin 5 6 block_style)) l; el (hpx 20 block_style) []].
Lemma same_word w h : rows_mixed idsty (a_word w h) (a_word w h).
Proof. apply (rows_node idsty inline_style _ (Some box0) (Some box0) [] [] []); [constructor|left; reflexivity]. Qed.
Example C207_example : boxed (rdoc line1) /\ boxed (rdoc line2) /\ history idsty (rdoc line1) /\ history idsty (rdoc line2)
  /\ layout idsty screen false (rdoc line1) = (out false (rdoc line1), Ok tt) /\ layout idsty screen false (rdoc line2) = (out false (rdoc line2), Ok tt)
  /\ rows_mixed idsty (rdoc line1) (rdoc line2)
  /\ exists k u us, place (rdoc line1) (draft idsty screen (rdoc line1)) k (UNode u us) /\ row idsty (n_style k) (n_kids k) /\ n_kids k = line1 /\ length us = 4%nat.
Proof.
  split; [solve_boxed|]. split; [solve_boxed|]. do 2 (split; [apply history_new; solve_new|]). do 2 (split; [apply ok_layout; vm_compute; reflexivity|]). split.
  - unfold rdoc, el. eapply rows_node; [|left; reflexivity]. constructor; [|constructor; [|constructor]].
    + apply (rows_node idsty _ _ _ _ line1 line1 line2).
      * unfold line1. repeat (constructor; [apply same_word|]). constructor.
      * right. split; [cbn; intros k I; repeat (destruct I as [<-|I]; [reflexivity|]); destruct I|]. exists [a_word 30 12; a_word 44 13; a_word 7 9], [a_word 7 9; a_word 44 13; a_word 30 12], (a_word 44 13).
        split; [reflexivity|]. split; [reflexivity|]. eapply perm_trans; [apply perm_skip, perm_swap|]. eapply perm_trans; [apply perm_swap|]. apply perm_skip, perm_swap.
    + eapply rows_node; [constructor|left; reflexivity].
  - destruct (draft idsty screen (rdoc line1)) as [v vs| |] eqn:E; [|exfalso; revert E; vm_compute; discriminate..].
    assert (X : match vs with UNode u us :: _ => length us = 4%nat | _ => False end).
    { replace vs with (match draft idsty screen (rdoc line1) with UNode _ l => l | _ => [] end) by (rewrite E; reflexivity). vm_compute. reflexivity. }
    destruct vs as [|[u us| |] vs]; try contradiction. do 3 eexists. split; [eapply (place_below _ _ _ _ _ _ 0); [reflexivity|reflexivity|apply place_here]|]. cbn [n_style n_kids el]. split; [cbn; intros k I; repeat (destruct I as [<-|I]; [reflexivity|]); destruct I|]. split; [reflexivity|exact X].
Qed.
