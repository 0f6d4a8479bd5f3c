(** * C141, C142: how a change moves what comes after it *)
From Coq Require Import ZArith QArith Qcanon Qround Lia Lqa Bool List.
From Verif Require Import PyNum NumFacts Units BoxModel BoxSpec BoxFacts Engine EnginePure EngineSpec EngineExamples EngineInv EngineTree EngineTotal EngineWidth
  RefLayout RefFacts RefProps HistSpec HistProps MoveSpec MoveProps EdgeSpec EdgeProps LocalSpec LocalProps PushSpec.
Import ListNotations.
Open Scope Qc_scope.

Lemma same_frame_refl u : same_frame u u. Proof. repeat split. Qed.
Lemma same_frame_down t u v : same_frame u v -> same_frame (move_down t u) (move_down t v).
Proof.
  intros (H1 & H2 & H3 & H4). destruct u, v. cbn in *. injection H1 as -> -> -> ->. injection H2 as -> -> -> ->. injection H3 as -> -> -> ->. injection H4 as -> -> ->. repeat split.
Qed.
Lemma same_frame_mt u v : same_frame u v -> u_mt v = u_mt u.
Proof. intros (H & _). injection H as -> _ _ _. reflexivity. Qed.
Lemma same_frame_bh u v t : same_frame u v -> or0 (u_h v) = or0 (u_h u) + t -> border_height v = border_height u + t /\ border_bottom v = border_bottom u + t.
Proof.
  intros (_ & H2 & H3 & H4) E. injection H2 as Eb _ Ed _. injection H3 as Ep _ Eq _. injection H4 as _ _ Et. unfold border_height, border_bottom. rewrite E, <- Eb, <- Ed, <- Ep, <- Eq, <- Et. split; ring.
Qed.
Lemma slide_move t x u us : slide t (UNode (move_down x u) us) = UNode (move_down (x + t) u) us.
Proof. destruct u. cbn. do 2 f_equal. ring. Qed.
(** What is stacked from [t] px lower is [t] px lower. *)
Lemma stack_slide t l : forall top prev, stack (top + t) prev l = map (slide t) (stack top prev l).
Proof.
  induction l as [|x l IH]; intros top prev; [reflexivity|]. destruct x as [u us| |]; cbn [stack map]; [|rewrite IH; reflexivity..].
  set (m := match prev with None => 0 | Some z => qc_maxi (Z2Qc z) (u_mt u) end). rewrite slide_move. replace (top + t + m) with (top + m + t) by ring.
  f_equal. rewrite <- IH. f_equal. ring.
Qed.
Lemma slide_0 l : map (slide 0) l = l.
Proof. rewrite <- (map_id l) at 2. apply map_ext. intros [u us| |]; try reflexivity. destruct u. cbn. do 2 f_equal. ring. Qed.
(** Wherever stacking starts and whatever precedes, one move. *)
Lemma stack_any l : forall top prev top' prev', exists t, stack top' prev' l = map (slide t) (stack top prev l).
Proof.
  induction l as [|x l IH]; intros top prev top' prev'; [exists 0; reflexivity|]. destruct x as [u us| |]; cbn [stack map].
  - set (m := match prev with None => 0 | Some z => qc_maxi (Z2Qc z) (u_mt u) end). set (m' := match prev' with None => 0 | Some z => qc_maxi (Z2Qc z) (u_mt u) end).
    exists (top' + m' - (top + m)). rewrite slide_move. replace (top + m + (top' + m' - (top + m))) with (top' + m') by ring. f_equal. rewrite <- stack_slide. f_equal. ring.
  - destruct (IH top prev top' prev') as [t ->]. exists t. reflexivity.
  - destruct (IH top prev top' prev') as [t ->]. exists t. reflexivity.
Qed.
Lemma stack_length l : forall top prev, length (stack top prev l) = length l.
Proof. induction l as [|[u us| |] l IH]; intros; cbn; rewrite ?IH; reflexivity. Qed.
Lemma node_frame d a dk s i st ks ks' : exists u v, node_of d a dk s i st ks = UNode u ks /\ node_of d a dk s i st ks' = UNode v ks' /\ same_frame u v.
Proof. unfold node_of. cbv zeta. do 2 eexists. split; [reflexivity|]. split; [reflexivity|]. repeat split. Qed.

Section L.
Context {S : Type} (sty : S -> style).
Notation node := (node S).
Notation laid_kid := (MoveProps.laid_kid sty).

(** ** C142 *)
Lemma edited_style p r (n m : node) : edited sty p r n m -> n_style m = n_style n.
Proof. intros H. inversion H; reflexivity. Qed.
Lemma slid_down p r u us v us' t : slid p r (UNode u us) (UNode v us') -> slid p r (UNode (move_down t u) us) (UNode (move_down t v) us').
Proof.
  intros H. inversion H as [? ? ? ? ? ? ? E|? ? ? ? ? ? ? ? ? E M|? ? ? E]; subst; [apply slid_here, same_frame_down, E|apply slid_below; [apply same_frame_down, E|exact M]|destruct E; discriminate].
Qed.
Lemma slid_mt p r u us v us' : slid p r (UNode u us) (UNode v us') -> u_mt v = u_mt u.
Proof. intros H. inversion H as [? ? ? ? ? ? ? E|? ? ? ? ? ? ? ? ? E M|? ? ? E]; subst; [apply same_frame_mt, E|apply same_frame_mt, E|destruct E; discriminate]. Qed.
Lemma has_block_swap (before before' rest rest' : list node) k k' : map inputs before = map inputs before' -> map inputs rest = map inputs rest' -> block_level (sty (n_style k')) = block_level (sty (n_style k)) ->
  has_block sty (before' ++ k' :: rest') = has_block sty (before ++ k :: rest).
Proof.
  intros E1 E2 E3. rewrite !(has_block_app sty), <- (has_block_inputs sty _ _ E1). f_equal. unfold has_block at 1 2. cbn [existsb]. rewrite E3. f_equal. symmetry. exact (has_block_inputs sty _ _ E2).
Qed.
Theorem format_edited p r n m : edited sty p r n m -> forall d a, slid p r (format sty d a n) (format sty d a m).
Proof.
  induction 1 as [s i b b' before before' old new rest rest' E1 E2 C|p r s i b b' before before' k k' rest rest' E1 L IH E2]; intros d a; rewrite !format_split;
    (destruct (st_display (sty s)) as [dk|] eqn:Dk; [|apply slid_away; auto]).
  - assert (St : stacks_ sty dk (before' ++ new ++ rest') = stacks_ sty dk (before ++ old ++ rest)) by (apply stacks_has; destruct dk; try exact I; symmetry; exact C).
    rewrite St. set (st := stacks_ sty dk (before ++ old ++ rest)). set (inner := inner_of d a dk (sty s) i).
    destruct (kids_app sty d inner st before before' E1) as (q & top & prev & Le & F1 & F2). rewrite F1, F2, <- Le. clear F1 F2.
    assert (K : exists o w z t, length z = length rest /\ (if st then stack top prev (map (laid_kid d inner st) (old ++ rest)) else map (laid_kid d inner st) (old ++ rest)) = o ++ z
      /\ (if st then stack top prev (map (laid_kid d inner st) (new ++ rest')) else map (laid_kid d inner st) (new ++ rest')) = w ++ map (slide t) z).
    { rewrite !map_app. rewrite <- (laid_kids_inputs sty d inner st _ _ E2). set (z := map (laid_kid d inner st) rest). destruct st.
      - destruct (stack_app (map (laid_kid d inner true) old) top prev) as (o & t1 & p1 & _ & F1). destruct (stack_app (map (laid_kid d inner true) new) top prev) as (w & t2 & p2 & _ & F2).
        destruct (stack_any z t1 p1 t2 p2) as [t Et]. exists o, w, (stack t1 p1 z), t. split; [rewrite stack_length; apply map_length|]. rewrite F1, F2, Et. split; reflexivity.
      - exists (map (laid_kid d inner false) old), (map (laid_kid d inner false) new), z, 0. split; [apply map_length|]. split; [reflexivity|]. rewrite slide_0. reflexivity. }
    destruct K as (o & w & z & t & Lz & -> & ->). rewrite <- Lz.
    destruct (node_frame d a dk (sty s) i st (q ++ o ++ z) (q ++ w ++ map (slide t) z)) as (u & v & -> & -> & Fr). apply slid_here, Fr.
  - pose proof (edited_style _ _ _ _ L) as Es.
    assert (St : stacks_ sty dk (before' ++ k' :: rest') = stacks_ sty dk (before ++ k :: rest)).
    { apply stacks_has. destruct dk; try exact I; apply has_block_swap; try assumption; rewrite Es; reflexivity. }
    rewrite St. set (st := stacks_ sty dk (before ++ k :: rest)). set (inner := inner_of d a dk (sty s) i).
    destruct (kids_app sty d inner st before before' E1) as (q & top & prev & Le & F1 & F2). rewrite F1, F2, <- Le. clear F1 F2. cbn [map].
    assert (Lk : slid p r (laid_kid d inner st k) (laid_kid d inner st k')).
    { unfold MoveProps.laid_kid. rewrite Es. destruct (_ && _); [apply slid_away; auto|apply IH]. }
    set (x := laid_kid d inner st k) in *. set (x' := laid_kid d inner st k') in *. rewrite <- (laid_kids_inputs sty d inner st _ _ E2). set (z := map (laid_kid d inner st) rest).
    assert (K : exists y y' w t, (if st then stack top prev (x :: z) else x :: z) = y :: w /\ (if st then stack top prev (x' :: z) else x' :: z) = y' :: map (slide t) w /\ slid p r y y').
    { destruct st; [|exists x, x', z, 0; rewrite slide_0; auto].
      destruct x as [u us| |], x' as [v us'| |]; try (inversion Lk; fail); cbn [stack].
      - rewrite (slid_mt _ _ _ _ _ _ Lk). destruct (stack_any z (top + match prev with None => 0 | Some z => qc_maxi (Z2Qc z) (u_mt u) end + border_height u) (Some (u_cb u)) (top + match prev with None => 0 | Some z => qc_maxi (Z2Qc z) (u_mt u) end + border_height v) (Some (u_cb v))) as [t ->].
        do 4 eexists. split; [reflexivity|]. split; [reflexivity|]. apply slid_down, Lk.
      - exists UHidden, UHidden, (stack top prev z), 0. rewrite slide_0. auto.
      - exists USkipped, USkipped, (stack top prev z), 0. rewrite slide_0. auto. }
    destruct K as (y & y' & w & t & -> & -> & Ky).
    destruct (node_frame d a dk (sty s) i st (q ++ y :: w) (q ++ y' :: map (slide t) w)) as (u & v & -> & -> & Fr). apply slid_below; assumption.
Qed.

(** ** C141 *)
Definition isnode (t : utree) : bool := match t with UNode _ _ => true | _ => false end.
Lemma stack_isnode l : forall top prev, map isnode (stack top prev l) = map isnode l.
Proof. induction l as [|[u us| |] l IH]; intros; cbn; rewrite ?IH; reflexivity. Qed.
Lemma resized_block p t (n m : node) : resized sty p t n m -> block_level (sty (n_style n)) = true /\ block_level (sty (n_style m)) = true.
Proof.
  intros H. inversion H as [s s' i i' b b' ks ks' h h' B _ _ E|q g s i b b' be be' k k' re re' D _ _ _]; subst; cbn [n_style].
  - rewrite E. split; exact B.
  - unfold block_level. destruct D as [-> | ->]; auto.
Qed.
Lemma block_display s : block_level s = true -> exists dk, st_display s = Some dk /\ isinl dk = false.
Proof. unfold block_level. destruct (st_display s) as [[]|]; try discriminate; intros _; eexists; split; reflexivity. Qed.
Lemma pushed_grown p t g n x x' : pushed sty p t g n x x' -> exists u v us us', x = UNode u us /\ x' = UNode v us' /\ grown g u v.
Proof. intros H. inversion H; subst; do 4 eexists; (split; [reflexivity|]); (split; [reflexivity|]); eassumption. Qed.
Lemma grown_down r t u v : grown t u v -> grown t (move_down r u) (move_down r v).
Proof. intros (H & E & F). split; [apply same_frame_down, H|]. destruct u, v. split; assumption. Qed.
Lemma pushed_down p t g n u us v us' r : pushed sty p t g n (UNode u us) (UNode v us') -> pushed sty p t g n (UNode (move_down r u) us) (UNode (move_down r v) us').
Proof.
  intros H. inversion H; subst; [apply pushed_here, grown_down; assumption|]. eapply pushed_below; try eassumption. apply grown_down. assumption.
Qed.
Lemma node_here d a dk s h h' i i' st st' ks ks' : isinl dk = false -> st_height s = Len (mkU KPx h) -> st_max_height s = None ->
  exists u v, node_of d a dk s i st ks = UNode u ks /\ node_of d a dk (set_height (Len (mkU KPx h')) s) i' st' ks' = UNode v ks' /\ grown (to_grid (amount h') - to_grid (amount h)) u v.
Proof.
  intros D H M. set (s' := set_height (Len (mkU KPx h')) s).
  assert (EW : wmargins d a dk s' i' = wmargins d a dk s i) by (unfold wmargins; rewrite D; reflexivity).
  assert (EL : lefts d a dk s' i' = lefts d a dk s i) by (unfold lefts; rewrite EW, D; reflexivity).
  assert (EB : bottoms d a dk s' i' = bottoms d a dk s i) by (unfold bottoms; rewrite D; reflexivity).
  assert (Hh : forall l l', exists x y, hgt d a dk s i l = Some x /\ hgt d a dk s' i' l' = Some y /\ y = x + (to_grid (amount h') - to_grid (amount h))).
  { intros l l'. unfold hgt. rewrite D. unfold used_block_height, spec_height. unfold s' at 1 2. cbn [set_height st_height st_max_height]. rewrite H, M.
    do 2 eexists. split; [reflexivity|]. split; [reflexivity|]. unfold len, exact_len. cbn [u_kind u_val]. ring. }
  destruct (Hh (last_kid ks) (last_kid ks')) as (x & y & Ex & Ey & E).
  unfold node_of. cbv zeta. rewrite EW, EL, EB, Ex, Ey. do 2 eexists. split; [reflexivity|]. split; [reflexivity|].
  split; [repeat split|]. cbn [u_h or0 u_cb]. split; [exact E|]. rewrite H. reflexivity.
Qed.
Lemma last_kid_app q x w : last_kid (q ++ x :: w) = last_kid (x :: w).
Proof. unfold last_kid. rewrite rev_app_distr. cbn [rev]. destruct (rev w); reflexivity. Qed.
Lemma border_bottom_down t u : border_bottom (move_down t u) = border_bottom u + t.
Proof. destruct u. unfold border_bottom. cbn. ring. Qed.
Lemma move_down_cb t u : u_cb (move_down t u) = u_cb u.
Proof. destruct u. reflexivity. Qed.
Lemma node_grown d a dk s0 i b (kn : list node) q x x' w g : isinl dk = false -> let n := Node s0 i b kn in
  (exists u v us us', x = UNode u us /\ x' = UNode v us' /\ grown g u v) -> map isnode (q ++ x :: w) = map (fun k => block_level (sty (n_style k))) kn ->
  exists u v, node_of d a dk (sty s0) i true (q ++ x :: w) = UNode u (q ++ x :: w) /\ node_of d a dk (sty s0) i true (q ++ x' :: map (slide g) w) = UNode v (q ++ x' :: map (slide g) w)
    /\ grown (if from_last sty n then g else 0) u v.
Proof.
  intros D n (u0 & v0 & us & us' & -> & -> & G) K.
  assert (L : exists l l', last_kid (q ++ UNode u0 us :: w) = Some l /\ last_kid (q ++ UNode v0 us' :: map (slide g) w) = Some l' /\ u_cb l' = u_cb l
    /\ (st_height (sty s0) = Auto -> border_bottom l' = border_bottom l + (if from_last sty n then g else 0))).
  { rewrite !last_kid_app. apply (f_equal (@rev _)) in K. rewrite <- !map_rev, rev_app_distr in K. unfold from_last, n. cbn [n_style n_kids].
    unfold last_kid. cbn [rev] in *. rewrite <- map_rev. destruct (rev w) as [|z w'].
    - cbn [app map] in *. destruct (rev kn) as [|k kn']; [discriminate|]. injection K as K _. cbn [isnode] in K. exists u0, v0. split; [reflexivity|]. split; [reflexivity|].
      destruct G as (Fr & Eh & Ec). split; [exact Ec|]. intros ->. rewrite <- K. apply same_frame_bh; assumption.
    - cbn [app map] in *. destruct (rev kn) as [|k kn']; [discriminate|]. injection K as K _. destruct z as [uz usz| |]; cbn [slide isnode] in *.
      + do 2 eexists. split; [reflexivity|]. split; [reflexivity|]. split; [apply move_down_cb|]. intros ->. rewrite <- K. apply border_bottom_down.
      + do 2 eexists. split; [reflexivity|]. split; [reflexivity|]. split; [reflexivity|]. intros ->. rewrite <- K. ring.
      + do 2 eexists. split; [reflexivity|]. split; [reflexivity|]. split; [reflexivity|]. intros ->. rewrite <- K. ring. }
  destruct L as (l & l' & L1 & L2 & Ec & Eb). unfold node_of. cbv zeta. do 2 eexists. split; [reflexivity|]. split; [reflexivity|]. rewrite L1, L2. split; [repeat split|].
  cbn [u_h u_cb]. split; [|rewrite Ec; reflexivity]. unfold hgt. rewrite D. cbn [or0]. unfold used_block_height, spec_height.
  destruct (st_height (sty s0)) as [|u] eqn:Hh; [apply Eb; reflexivity|]. unfold from_last, n. cbn [n_style]. rewrite Hh. ring.
Qed.
Theorem format_resized p t n m : resized sty p t n m -> forall d a, exists g, pushed sty p t g n (format sty d a n) (format sty d a m).
Proof.
  induction 1 as [s s' i i' b b' ks ks' h h' B Hh Mh E|p t s i b b' before before' k k' rest rest' D E1 R IH E2]; intros d a; rewrite !format_split.
  - destruct (block_display _ B) as (dk & Dk & Di). rewrite E. cbn [set_height st_display]. rewrite Dk.
    match goal with |- exists g, pushed _ _ _ _ _ (node_of _ _ _ _ _ ?st ?l) (node_of _ _ _ _ _ ?st' ?l') => destruct (node_here d a dk (sty s) h h' i i' st st' l l' Di Hh Mh) as (u & v & -> & -> & G) end.
    eexists. apply pushed_here, G.
  - destruct (resized_block _ _ _ _ R) as [B1 B2].
    assert (Bk : forall l l' (x : node), block_level (sty (n_style x)) = true -> has_block sty (l ++ x :: l') = true).
    { intros l l' x X. rewrite (has_block_app sty). unfold has_block at 2. cbn [existsb]. rewrite X, orb_true_r. reflexivity. }
    assert (St : exists dk, st_display (sty s) = Some dk /\ isinl dk = false /\ stacks_ sty dk (before ++ k :: rest) = true /\ stacks_ sty dk (before' ++ k' :: rest') = true).
    { destruct D as [-> | ->]; eexists; (split; [reflexivity|]); (split; [reflexivity|]); split; apply Bk; assumption. }
    destruct St as (dk & -> & Di & -> & ->). set (inner := inner_of d a dk (sty s) i).
    assert (IK : map isnode (kids_of sty d inner true (before ++ k :: rest)) = map (fun k => block_level (sty (n_style k))) (before ++ k :: rest)).
    { unfold kids_of. rewrite stack_isnode, map_map. apply map_ext. intros x. unfold MoveProps.laid_kid. cbn [andb]. destruct (block_level (sty (n_style x))) eqn:Bx; [|reflexivity]. cbn [negb].
      destruct x as [sx ix bx kx]. destruct (block_display _ Bx) as (dx & Dx & _). cbn [n_style] in Dx. rewrite format_split, Dx. reflexivity. }
    destruct (kids_app sty d inner true before before' E1) as (q & top & prev & Le & F1 & F2). rewrite F1, F2 in *. clear F1 F2. cbn [map] in *.
    assert (L1 : laid_kid d inner true k = format sty d inner k) by (unfold MoveProps.laid_kid; rewrite B1; reflexivity).
    assert (L2 : laid_kid d inner true k' = format sty d inner k') by (unfold MoveProps.laid_kid; rewrite B2; reflexivity).
    rewrite <- (laid_kids_inputs sty d inner true _ _ E2). rewrite L1, L2 in *. destruct (IH d inner) as [g G].
    destruct (pushed_grown _ _ _ _ _ _ G) as (u & v & us & us' & Ex & Ex' & Gr). rewrite Ex, Ex' in *. cbn [stack] in *.
    rewrite (same_frame_mt _ _ (proj1 Gr)). set (m := top + match prev with None => 0 | Some z => qc_maxi (Z2Qc z) (u_mt u) end) in *.
    destruct Gr as (Fr & Eh & Ec). rewrite Ec, (proj1 (same_frame_bh _ _ _ Fr Eh)). replace (m + (border_height u + g)) with (m + border_height u + g) by ring. rewrite (stack_slide g).
    set (w := stack (m + border_height u) (Some (u_cb u)) (map (laid_kid d inner true) rest)) in *.
    destruct (node_grown d a dk s i b (before ++ k :: rest) q (UNode (move_down m u) us) (UNode (move_down m v) us') w g Di) as (un & vn & -> & -> & Gn).
    { do 4 eexists. split; [reflexivity|]. split; [reflexivity|]. apply grown_down. repeat split; try assumption; apply Fr. }
    { exact IK. }
    eexists. rewrite <- Le. eapply pushed_below; [| |apply pushed_down, G|exact Gn].
    + cbn [n_kids]. rewrite Le, nth_error_app2, Nat.sub_diag by lia. reflexivity.
    + cbn [n_kids]. apply (f_equal (@length _)) in IK. rewrite !map_length in IK. symmetry. exact IK.
Qed.
(** ** C143 *)
Lemma refilled_style p (n m : node) : refilled sty p n m -> n_style m = n_style n.
Proof. intros H. inversion H; reflexivity. Qed.
Lemma outside_down t u v : same_outside u v -> same_outside (move_down t u) (move_down t v).
Proof. intros (F & H & C). split; [apply same_frame_down, F|]. destruct u, v. cbn in *. auto. Qed.
Lemma outside_bh u v : same_outside u v -> border_height v = border_height u /\ border_bottom v = border_bottom u.
Proof. intros (F & H & C). destruct (same_frame_bh u v 0 F) as [H1 H2]; [rewrite H; ring|]. rewrite H1, H2. split; ring. Qed.
Lemma but_same p u us v us' : same_but p (UNode u us) (UNode v us') -> same_outside u v.
Proof. intros H. inversion H as [? ? ? ? E|? ? ? ? ? ? ? E M|? ? E]; subst; [exact E|exact E|destruct E; discriminate]. Qed.
Lemma but_down p u us v us' t : same_but p (UNode u us) (UNode v us') -> same_but p (UNode (move_down t u) us) (UNode (move_down t v) us').
Proof.
  intros H. inversion H as [? ? ? ? E|? ? ? ? ? ? ? E M|? ? E]; subst; [apply but_here, outside_down, E|apply but_below; [apply outside_down, E|exact M]|destruct E; discriminate].
Qed.
Lemma node_outside d a dk s i st q x x' w p : same_but p x x' ->
  exists u v, node_of d a dk s i st (q ++ x :: w) = UNode u (q ++ x :: w) /\ node_of d a dk s i st (q ++ x' :: w) = UNode v (q ++ x' :: w) /\ same_outside u v.
Proof.
  intros B. assert (L : last_kid (q ++ x :: w) = last_kid (q ++ x' :: w) \/ exists l l', last_kid (q ++ x :: w) = Some l /\ last_kid (q ++ x' :: w) = Some l' /\ same_outside l l').
  { rewrite !last_kid_app. unfold last_kid. cbn [rev]. destruct (rev w) as [|z w']; [|left; reflexivity]. cbn [app].
    destruct x as [u us| |], x' as [v us'| |]; try (inversion B; fail); try (left; reflexivity). right. exists u, v. repeat (split; [reflexivity|]). exact (but_same _ _ _ _ _ B). }
  unfold node_of. cbv zeta. do 2 eexists. split; [reflexivity|]. split; [reflexivity|]. split; [repeat split|]. cbn [u_h u_cb].
  destruct L as [-> |(l & l' & -> & -> & E)]; [split; reflexivity|]. split; [|rewrite (proj2 (proj2 E)); reflexivity].
  unfold hgt. destruct (isinl dk); [reflexivity|]. f_equal. unfold used_block_height. destruct (spec_height _ _ _ _); [reflexivity|]. rewrite (proj2 (outside_bh _ _ E)). reflexivity.
Qed.
Theorem format_refilled p n m : refilled sty p n m -> forall d a, same_but p (format sty d a n) (format sty d a m).
Proof.
  induction 1 as [s i b b' ks ks' Hs|p s i b b' before before' k k' rest rest' E1 R IH E2]; intros d a; rewrite !format_split; (destruct (st_display (sty s)) as [dk|] eqn:Dk; [|apply but_away; auto]).
  - unfold node_of. cbv zeta. apply but_here. split; [repeat split|]. cbn [u_h u_cb]. unfold hgt. destruct (isinl dk) eqn:Di.
    + split; [reflexivity|]. destruct (st_height (sty s)); [|reflexivity]. destruct (last_kid _), (last_kid _); reflexivity.
    + destruct Hs as [Hs|Hs]; [|injection Hs as ->; discriminate]. unfold used_block_height, spec_height. destruct (st_height (sty s)); [contradiction|]. split; reflexivity.
  - pose proof (refilled_style _ _ _ R) as Es.
    assert (St : stacks_ sty dk (before' ++ k' :: rest') = stacks_ sty dk (before ++ k :: rest)).
    { apply stacks_has. destruct dk; try exact I; apply has_block_swap; try assumption; rewrite Es; reflexivity. }
    rewrite St. set (st := stacks_ sty dk (before ++ k :: rest)). set (inner := inner_of d a dk (sty s) i).
    destruct (kids_app sty d inner st before before' E1) as (q & top & prev & Le & F1 & F2). rewrite F1, F2, <- Le. clear F1 F2. cbn [map].
    assert (Lk : same_but p (laid_kid d inner st k) (laid_kid d inner st k')).
    { unfold MoveProps.laid_kid. rewrite Es. destruct (_ && _); [apply but_away; auto|apply IH]. }
    set (x := laid_kid d inner st k) in *. set (x' := laid_kid d inner st k') in *. rewrite <- (laid_kids_inputs sty d inner st _ _ E2). set (z := map (laid_kid d inner st) rest).
    assert (K : exists y y' w, (if st then stack top prev (x :: z) else x :: z) = y :: w /\ (if st then stack top prev (x' :: z) else x' :: z) = y' :: w /\ same_but p y y').
    { destruct st; [|exists x, x', z; auto].
      destruct x as [u us| |], x' as [v us'| |]; try (inversion Lk; fail); cbn [stack].
      - pose proof (but_same _ _ _ _ _ Lk) as Eo. rewrite (same_frame_mt _ _ (proj1 Eo)), (proj1 (outside_bh _ _ Eo)), <- (proj2 (proj2 Eo)).
        do 3 eexists. split; [reflexivity|]. split; [reflexivity|]. apply but_down, Lk.
      - exists UHidden, UHidden, (stack top prev z). auto.
      - exists USkipped, USkipped, (stack top prev z). auto. }
    destruct K as (y & y' & w & -> & -> & Ky).
    destruct (node_outside d a dk (sty s) i st q y y' w p Ky) as (u & v & -> & -> & Fr). apply but_below; assumption.
Qed.
(** The page before its root is finished. *)
Definition draft (d : display_t) (n : node) : utree := format sty d (mkArea (Some (nval (disp_width d))) (Some (nval (disp_height d))) 0 0 None) n.
Lemma page_draft d h5 n : page sty d h5 n = finished h5 d (draft d n).
Proof. unfold page, draft. destruct (format _ _ _ n) as [[]| |]; reflexivity. Qed.

(** C141. *)
Theorem C141_taller_block : forall d h5 p t (n m n' m' : node), history sty n -> history sty m -> resized sty p t n m ->
  layout sty d h5 n = (n', Ok tt) -> layout sty d h5 m = (m', Ok tt) ->
  exists x y g, shows n' (finished h5 d x) /\ shows m' (finished h5 d y) /\ pushed sty p t g n x y.
Proof.
  intros d h5 p t n m n' m' Hn Hm R Ln Lm. destruct (format_resized p t n m R d (mkArea (Some (nval (disp_width d))) (Some (nval (disp_height d))) 0 0 None)) as [g G].
  exists (draft d n), (draft d m), g. rewrite <- !page_draft. split; [apply (C122_any_history sty); assumption|]. split; [apply (C122_any_history sty); assumption|exact G].
Qed.
(** New documents: absolute positions too. *)
Theorem C141_absolute : forall d h5 p t (n m n' m' : node), boxed n -> boxed m -> resized sty p t n m ->
  layout sty d h5 n = (n', Ok tt) -> layout sty d h5 m = (m', Ok tt) ->
  exists x y g, laid_out_as 0 0 n' (finished h5 d x) /\ laid_out_as 0 0 m' (finished h5 d y) /\ pushed sty p t g n x y.
Proof.
  intros d h5 p t n m n' m' Hn Hm R Ln Lm. destruct (format_resized p t n m R d (mkArea (Some (nval (disp_width d))) (Some (nval (disp_height d))) 0 0 None)) as [g G].
  exists (draft d n), (draft d m), g. rewrite <- !page_draft.
  split; [apply (C112_every_layout_is_the_reference sty); [apply boxed_ready, Hn|left; exact Hn|exact Ln]|].
  split; [apply (C112_every_layout_is_the_reference sty); [apply boxed_ready, Hm|left; exact Hm|exact Lm]|exact G].
Qed.
(** C142. *)
Theorem C142_edit_moves : forall d h5 p r (n m n' m' : node), history sty n -> history sty m -> edited sty p r n m ->
  layout sty d h5 n = (n', Ok tt) -> layout sty d h5 m = (m', Ok tt) ->
  exists x y, shows n' (finished h5 d x) /\ shows m' (finished h5 d y) /\ slid p r x y.
Proof.
  intros d h5 p r n m n' m' Hn Hm R Ln Lm. exists (draft d n), (draft d m). rewrite <- !page_draft.
  split; [apply (C122_any_history sty); assumption|]. split; [apply (C122_any_history sty); assumption|apply format_edited, R].
Qed.
Theorem C142_absolute : forall d h5 p r (n m n' m' : node), boxed n -> boxed m -> edited sty p r n m ->
  layout sty d h5 n = (n', Ok tt) -> layout sty d h5 m = (m', Ok tt) ->
  exists x y, laid_out_as 0 0 n' (finished h5 d x) /\ laid_out_as 0 0 m' (finished h5 d y) /\ slid p r x y.
Proof.
  intros d h5 p r n m n' m' Hn Hm R Ln Lm. exists (draft d n), (draft d m). rewrite <- !page_draft.
  split; [apply (C112_every_layout_is_the_reference sty); [apply boxed_ready, Hn|left; exact Hn|exact Ln]|].
  split; [apply (C112_every_layout_is_the_reference sty); [apply boxed_ready, Hm|left; exact Hm|exact Lm]|apply format_edited, R].
Qed.
(** C143. *)
Theorem C143_own_height : forall d h5 p (n m n' m' : node), history sty n -> history sty m -> refilled sty p n m ->
  layout sty d h5 n = (n', Ok tt) -> layout sty d h5 m = (m', Ok tt) ->
  exists x y, shows n' (finished h5 d x) /\ shows m' (finished h5 d y) /\ same_but p x y.
Proof.
  intros d h5 p n m n' m' Hn Hm R Ln Lm. exists (draft d n), (draft d m). rewrite <- !page_draft.
  split; [apply (C122_any_history sty); assumption|]. split; [apply (C122_any_history sty); assumption|apply format_refilled, R].
Qed.
Theorem C143_absolute : forall d h5 p (n m n' m' : node), boxed n -> boxed m -> refilled sty p n m ->
  layout sty d h5 n = (n', Ok tt) -> layout sty d h5 m = (m', Ok tt) ->
  exists x y, laid_out_as 0 0 n' (finished h5 d x) /\ laid_out_as 0 0 m' (finished h5 d y) /\ same_but p x y.
Proof.
  intros d h5 p n m n' m' Hn Hm R Ln Lm. exists (draft d n), (draft d m). rewrite <- !page_draft.
  split; [apply (C112_every_layout_is_the_reference sty); [apply boxed_ready, Hn|left; exact Hn|exact Ln]|].
  split; [apply (C112_every_layout_is_the_reference sty); [apply boxed_ready, Hm|left; exact Hm|exact Lm]|apply format_refilled, R].
Qed.
End L.
Print Assumptions C143_own_height.
Print Assumptions C143_absolute.
Print Assumptions C141_taller_block.
Print Assumptions C141_absolute.
Print Assumptions C142_edit_moves.
Print Assumptions C142_absolute.

(** ** Examples *)
(** The middle block is 10px high, then 35px, with other children; it is the
    last child of an auto height block, which grows and pushes the last one. *)
Definition push_v (h : Z) (c : list doc) : doc :=
  el (vmargin 4 4 block_style) [el (hpx 6 block_style) []; el block_style [el (hpx 5 block_style) []; el (vmargin 3 2 (hpx h block_style)) c]; el (vmargin 9 9 (hpx 8 block_style)) []; el (hpx 7 block_style) []].
Definition push_1 : doc := push_v 10 [].
Definition push_2 : doc := push_v 35 [el (hpx 70 block_style) []; el block_style []].
Example C141_example : history idsty push_1 /\ history idsty push_2 /\ boxed push_1 /\ boxed push_2
  /\ resized idsty [1%nat; 1%nat] (to_grid (amount (PI 35)) - to_grid (amount (PI 10))) push_1 push_2
  /\ layout idsty screen false push_1 = (out false push_1, Ok tt) /\ layout idsty screen false push_2 = (out false push_2, Ok tt)
  /\ tops (out false push_1) = [0; 6; 33; 50]%Q /\ tops (out false push_2) = [0; 6; 58; 75]%Q.
Proof.
  split; [apply history_new; solve_new|]. split; [apply history_new; solve_new|]. split; [solve_boxed|]. split; [solve_boxed|]. split.
  { refine (resized_below idsty [1%nat] _ (vmargin 4 4 block_style) size0 (Some box0) (Some box0) [_] [_] _ _ [_; _] [_; _] (or_introl eq_refl) eq_refl _ eq_refl).
    refine (resized_below idsty [] _ block_style size0 (Some box0) (Some box0) [_] [_] _ _ [] [] (or_introl eq_refl) eq_refl _ eq_refl).
    apply resized_here; reflexivity. }
  split; [apply ok_layout; vm_compute; reflexivity|]. split; [apply ok_layout; vm_compute; reflexivity|]. split; vm_compute; reflexivity.
Qed.
(** Another text instead of a block in the middle: what follows moves as a whole. *)
Definition edit_1 : doc := el (vmargin 4 4 block_style) ([el (hpx 6 block_style) []] ++ [el (hpx 10 block_style) []] ++ [el (vmargin 9 9 (hpx 8 block_style)) []; el (hpx 7 block_style) []]).
Definition edit_2 : doc := el (vmargin 4 4 block_style) ([el (hpx 6 block_style) []] ++ [el (hpx 3 block_style) []; el (vmargin 20 2 (hpx 4 block_style)) []; el block_style [el (hpx 50 block_style) []]] ++ [el (vmargin 9 9 (hpx 8 block_style)) []; el (hpx 7 block_style) []]).
Example C142_example : history idsty edit_1 /\ history idsty edit_2 /\ boxed edit_1 /\ boxed edit_2 /\ edited idsty [1%nat] 2 edit_1 edit_2
  /\ layout idsty screen false edit_1 = (out false edit_1, Ok tt) /\ layout idsty screen false edit_2 = (out false edit_2, Ok tt)
  /\ tops (out false edit_1) = [0; 6; 25; 42]%Q /\ tops (out false edit_2) = [0; 6; 29; 35; 94; 111]%Q.
Proof.
  split; [apply history_new; solve_new|]. split; [apply history_new; solve_new|]. split; [solve_boxed|]. split; [solve_boxed|]. split.
  { apply (edited_here idsty (vmargin 4 4 block_style) size0 (Some box0) (Some box0) [_] [_] _ _ [_; _] [_; _]); reflexivity. }
  split; [apply ok_layout; vm_compute; reflexivity|]. split; [apply ok_layout; vm_compute; reflexivity|]. split; vm_compute; reflexivity.
Qed.
(** Any height but auto will do: here 2em. *)
Definition fill_v (c : list doc) : doc :=
  el (vmargin 4 4 block_style) [el (hpx 6 block_style) []; el block_style [el (hpx 5 block_style) []; el (vmargin 3 2 (s_size Auto (Len (emu 2)) block_style)) c]; el (vmargin 9 9 (hpx 8 block_style)) []; el (hpx 7 block_style) []].
Definition fill_1 : doc := fill_v [].
Definition fill_2 : doc := fill_v [el (vmargin 30 40 (hpx 70 block_style)) []; el block_style []].
Example C143_example : history idsty fill_1 /\ history idsty fill_2 /\ boxed fill_1 /\ boxed fill_2 /\ refilled idsty [1%nat; 1%nat] fill_1 fill_2
  /\ layout idsty screen false fill_1 = (out false fill_1, Ok tt) /\ layout idsty screen false fill_2 = (out false fill_2, Ok tt)
  /\ tops (out false fill_1) = tops (out false fill_2) /\ tops (out false fill_1) = [0; 6; 1301 # 64; 2389 # 64]%Q.
Proof.
  split; [apply history_new; solve_new|]. split; [apply history_new; solve_new|]. split; [solve_boxed|]. split; [solve_boxed|]. split.
  { refine (refilled_below idsty [1%nat] (vmargin 4 4 block_style) size0 (Some box0) (Some box0) [_] [_] _ _ [_; _] [_; _] eq_refl _ eq_refl).
    refine (refilled_below idsty [] block_style size0 (Some box0) (Some box0) [_] [_] _ _ [] [] eq_refl _ eq_refl).
    apply refilled_here. left. discriminate. }
  split; [apply ok_layout; vm_compute; reflexivity|]. split; [apply ok_layout; vm_compute; reflexivity|]. split; vm_compute; reflexivity.
Qed.
