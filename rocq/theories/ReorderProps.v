(** * C174: blocks without vertical margins in another order *)
From Coq Require Import ZArith QArith Qcanon Qround Lia Lqa Bool List Permutation.
From Verif Require Import PyNum NumFacts Units BoxModel BoxSpec BoxFacts Engine EnginePure EngineSpec EngineExamples EngineInv EngineTree EngineTotal EngineWidth
  RefLayout RefFacts RefProps HistSpec HistProps MoveSpec MoveProps EdgeSpec EdgeProps LocalSpec LocalProps PushSpec PushProps OkSpec OkProps WrapSpec WrapProps ReorderSpec.
Import ListNotations.
Open Scope Qc_scope.

(** Boxes that stack without gaps. *)
Definition tight (t : utree) : Prop := exists u us, t = UNode u us /\ upright u /\ u_mt u = 0 /\ u_ct u = 0%Z /\ u_cb u = 0%Z.
Lemma gap_0 : qc_maxi (Z2Qc 0) 0 = 0.
Proof. vm_compute. apply Qc_is_canon. reflexivity. Qed.
(** Stacking after a box without a lower extent. *)
Lemma stack_tight l : Forall tight l -> forall y, touching y (stack y (Some 0%Z) l) (y + heights l) /\ map unplaced (stack y (Some 0%Z) l) = map unplaced l
  /\ ends y (Some 0%Z) l = (y + heights l, Some 0%Z).
Proof.
  induction 1 as [|t l T F IH]; intros y.
  - cbn. replace (y + 0) with y by ring. repeat split; constructor.
  - destruct T as (u & us & -> & U & M & Ct & Cb). cbn [stack map heights ends]. unfold gap. rewrite M, gap_0, Cb. replace (y + 0) with y by ring.
    destruct (IH (y + border_height u)) as (A & B & C). replace (y + (border_height u + heights l)) with (y + border_height u + heights l) by ring. split; [|split].
    + apply touching_next; [unfold upright in U; destruct u; cbn in *; rewrite U; ring|]. replace (border_height (move_down y u)) with (border_height u) by (destruct u; reflexivity). exact A.
    + rewrite B. f_equal. destruct u. cbn. do 2 f_equal. ring.
    + exact C.
Qed.
Lemma tight_start l y prev : Forall tight l -> l <> [] -> (forall z, prev = Some z -> (0 <= z)%Z) ->
  exists t, (forall l', Forall tight l' -> l' <> [] -> touching t (stack y prev l') (t + heights l') /\ map unplaced (stack y prev l') = map unplaced l' /\ ends y prev l' = (t + heights l', Some 0%Z)).
Proof.
  intros _ _ P. exists (y + match prev with None => 0 | Some z => qc_maxi (Z2Qc z) 0 end). intros l' F N.
  assert (E : stack y prev l' = stack (y + match prev with None => 0 | Some z => qc_maxi (Z2Qc z) 0 end) (Some 0%Z) l' /\ ends y prev l' = ends (y + match prev with None => 0 | Some z => qc_maxi (Z2Qc z) 0 end) (Some 0%Z) l').
  { destruct l' as [|x l']; [contradiction|]. inversion F as [|? ? (u & us & -> & U & M & Ct & Cb) F']; subst. cbn [stack ends]. unfold gap. rewrite M, gap_0.
    set (g := match prev with None => 0 | Some z => qc_maxi (Z2Qc z) 0 end). replace (match prev with Some z => qc_maxi (Z2Qc z) 0 | None => 0 end) with g by (destruct prev; reflexivity).
    replace (y + g + 0) with (y + g) by ring. split; reflexivity. }
  destruct E as [-> ->]. apply stack_tight, F.
Qed.
Lemma heights_perm l l' : Permutation l l' -> heights l = heights l'.
Proof. induction 1 as [|x l l' P IH|x y l|l l' l'' P IH P' IH']; cbn; [reflexivity| | |congruence]; [destruct x; rewrite ?IH; reflexivity|destruct x, y; ring]. Qed.
Lemma rearranged_same p c u us v vs : rearranged p c (UNode u us) (UNode v vs) -> u = v.
Proof. intros H. inversion H; reflexivity. Qed.
Lemma rearranged_other p c u us u' us' : rearranged p c (UNode u us) (UNode u us') -> rearranged p c (UNode u' us) (UNode u' us').
Proof. intros H. inversion H as [? ? ? ? ? ? ? A B C|? ? ? ? ? ? ? M|? ? ? [E|E]]; subst; [eapply rearranged_here; eassumption|apply rearranged_below; assumption|discriminate..]. Qed.

Section O.
Context {S : Type} (sty : S -> style).
Notation node := (node S).
Notation laid_kid := (MoveProps.laid_kid sty).

Lemma stack_from l : forall top prev x, In x (stack top prev l) -> match x with UNode u us => exists u0 t, In (UNode u0 us) l /\ u = move_down t u0 | _ => True end.
Proof.
  induction l as [|y l IH]; intros top prev x I; [destruct I|]. destruct y as [u us| |]; cbn [stack] in I; destruct I as [<- |I]; try exact Logic.I.
  - exists u, (top + match prev with None => 0 | Some z => qc_maxi (Z2Qc z) (u_mt u) end). split; [left; reflexivity|reflexivity].
  - specialize (IH _ _ _ I). destruct x as [ux usx| |]; auto. destruct IH as (uy & t & J & E). exists uy, t. split; [right; exact J|exact E].
  - specialize (IH _ _ _ I). destruct x as [ux usx| |]; auto. destruct IH as (uy & t & J & E). exists uy, t. split; [right; exact J|exact E].
  - specialize (IH _ _ _ I). destruct x as [ux usx| |]; auto. destruct IH as (uy & t & J & E). exists uy, t. split; [right; exact J|exact E].
Qed.
(** The extents of a subtree without vertical margins. *)
Lemma marginless_extents d : forall (n : node) a u us, marginless sty n -> format sty d a n = UNode u us -> u_mt u = 0 /\ u_ct u = 0%Z /\ u_cb u = 0%Z.
Proof.
  intros n. induction n as [s i bx ks IH] using node_ind'. intros a u us M. inversion M as [? ? ? ? M1 M2 F]; subst. rewrite format_split. destruct (st_display (sty s)) as [dk|]; [|discriminate].
  set (st := stacks_ sty dk ks). set (inner := inner_of d a dk (sty s) i). set (K := kids_of sty d inner st ks).
  assert (KE : forall v vs, In (UNode v vs) K -> u_ct v = 0%Z /\ u_cb v = 0%Z).
  { intros v vs I. assert (L : forall w ws, In (UNode w ws) (map (laid_kid d inner st) ks) -> u_ct w = 0%Z /\ u_cb w = 0%Z).
    { intros w ws J. apply in_map_iff in J. destruct J as (k & E & J). unfold MoveProps.laid_kid in E. destruct (_ && _); [discriminate|]. rewrite Forall_forall in F.
      destruct (IH k J inner w ws (F k J) E) as (_ & X). exact X. }
    unfold K, kids_of in I. destruct st; [|exact (L v vs I)]. apply stack_from in I. destruct I as (u0 & t & J & ->). apply L in J. destruct u0. exact J. }
  unfold node_of. cbv zeta. intros E. injection E as <- _. cbn [u_mt u_ct u_cb].
  assert (B : or0 (bottoms d a dk (sty s) i) = 0) by (unfold bottoms; destruct (_ && _); [reflexivity|cbn [or0]; apply len0_nothing, M2]).
  rewrite (len0_nothing _ _ _ M1), B, whole_px_0. split; [reflexivity|]. split.
  - destruct st; [|reflexivity]. destruct K as [|[v vs| |] K'] eqn:EK; try reflexivity. rewrite (proj1 (KE v vs (or_introl eq_refl))). reflexivity.
  - destruct (st_height (sty s)); [|reflexivity]. destruct (last_kid K) as [v|] eqn:EL; [|reflexivity]. destruct (isinl dk); [reflexivity|].
    unfold last_kid in EL. destruct (rev K) as [|[w ws| |] r] eqn:ER; try discriminate; injection EL as <-; try reflexivity.
    rewrite (proj2 (KE w ws (proj2 (in_rev _ _) ltac:(rewrite ER; left; reflexivity)))). reflexivity.
Qed.
Lemma stackable_tight d inner k : stackable sty k -> tight (laid_kid d inner true k).
Proof.
  intros (B & P & M). unfold MoveProps.laid_kid. rewrite B. cbn [andb negb]. destruct (format_node sty d inner k B) as (u & us & E). exists u, us. split; [exact E|].
  split; [eapply format_upright; eassumption|]. eapply marginless_extents; eassumption.
Qed.
Lemma inputs_marginless (k : node) : forall k' : node, inputs k = inputs k' -> marginless sty k -> marginless sty k'.
Proof.
  induction k as [s i bx ks IH] using node_ind'. intros [s' i' bx' ks'] E M. cbn [inputs] in E. injection E as <- <- E. inversion M as [? ? ? ? M1 M2 F]; subst. constructor; [exact M1|exact M2|].
  clear -IH E F. revert ks' E. induction ks as [|k ks IHk]; intros [|k' ks'] E; try discriminate; [constructor|]. cbn [map] in E. injection E as E1 E2. inversion F; subst. constructor.
  - apply (IH k (or_introl eq_refl) k' E1). assumption.
  - apply IHk; [intros x I; apply IH; right; exact I|assumption|exact E2].
Qed.
Lemma inputs_stackable (k k' : node) : inputs k = inputs k' -> stackable sty k -> stackable sty k'.
Proof. intros E (B & P & M). unfold stackable. rewrite <- (inputs_style k k' E). split; [exact B|]. split; [exact P|]. exact (inputs_marginless k k' E M). Qed.
Lemma perm_inputs (g g' : list node) : Permutation (map inputs g) (map inputs g') -> exists h, Permutation g h /\ map inputs h = map inputs g'.
Proof. intros P. apply Permutation_sym in P. apply Permutation_map_inv in P. destruct P as (h & E & P). exists h. auto. Qed.

Lemma reordered_style p c (n m : node) : reordered sty p c n m -> n_style m = n_style n.
Proof. intros H. inversion H; reflexivity. Qed.
Lemma ends_nonneg xs : (forall u us, In (UNode u us) xs -> (0 <= u_cb u)%Z) -> forall y prev, (forall z, prev = Some z -> (0 <= z)%Z) -> forall z, snd (ends y prev xs) = Some z -> (0 <= z)%Z.
Proof.
  induction xs as [|[u us| |] xs IH]; intros A y prev P; cbn [ends snd]; [exact P| | |].
  - apply IH; [intros v vs I; apply (A v vs); right; exact I|]. intros z E. injection E as <-. apply (A u us). left. reflexivity.
  - apply IH; [intros v vs I; apply (A v vs); right; exact I|exact P].
  - apply IH; [intros v vs I; apply (A v vs); right; exact I|exact P].
Qed.
Lemma touching_length l : forall y z, touching y l z -> l <> [] -> exists u us r, l = UNode u us :: r.
Proof. intros y z T N. destruct T; [contradiction|eauto]. Qed.

Theorem format_reordered p c (n m : node) : reordered sty p c n m -> forall d a, rearranged p c (format sty d a n) (format sty d a m).
Proof.
  induction 1 as [s i b b' before before' group group' rest rest' E1 Pg E3 Ds Sk|p c s i b b' before before' k k' rest rest' E1 W IH E3]; intros d a; rewrite !format_split.
  - assert (Dd : exists dk, st_display (sty s) = Some dk /\ (dk = DBlock \/ dk = DListItem)) by (destruct Ds as [Ds|Ds]; rewrite Ds; eauto).
    destruct Dd as (dk & Dk & Dd). rewrite Dk. destruct (perm_inputs _ _ Pg) as (h & Ph & Eh).
    destruct group as [|g0 gs].
    { apply Permutation_nil in Ph. subst h. destruct group'; [|discriminate]. cbn [app length].
      assert (St : stacks_ sty dk (before' ++ rest') = stacks_ sty dk (before ++ rest)).
      { apply stacks_has. destruct dk; try exact I; rewrite !(has_block_app sty), (has_block_inputs sty _ _ E1), (has_block_inputs sty _ _ E3); reflexivity. }
      rewrite St. set (st := stacks_ sty dk (before ++ rest)). set (inner := inner_of d a dk (sty s) i).
      destruct (kids_app sty d inner st before before' E1) as (q & top & prev & Le & F1 & F2). rewrite F1, F2, <- (laid_kids_inputs sty d inner st _ _ E3). clear F1 F2. set (Z := if st then _ else _).
      rewrite <- Le. unfold node_of. cbv zeta. apply (rearranged_here _ q [] [] Z 0 0); constructor. }
    set (group := g0 :: gs) in *. assert (Ng : group <> []) by discriminate.
    assert (Sh : Forall (stackable sty) h) by (eapply Permutation_Forall; eassumption).
    assert (Sg' : Forall (stackable sty) group').
    { clear -Sh Eh. revert group' Eh. induction Sh as [|k l K F IH]; intros [|k' l'] E; try discriminate; [constructor|]. cbn [map] in E. injection E as E1 E2. constructor; [exact (inputs_stackable k k' E1 K)|apply IH, E2]. }
    assert (Bl : forall (x : list node) l l', x <> [] -> Forall (stackable sty) x -> stacks_ sty dk (l ++ x ++ l') = true).
    { intros x l l' N F. assert (X : existsb (fun k => block_level (sty (n_style k))) (l ++ x ++ l') = true); [|destruct Dd as [-> | ->]; exact X].
      destruct x as [|k x]; [contradiction|]. inversion F as [|? ? (B & _) _]; subst. apply existsb_exists. exists k. split; [apply in_or_app; right; left; reflexivity|exact B]. }
    assert (Ng' : group' <> []).
    { intros ->. destruct h; [|discriminate]. apply Permutation_sym, Permutation_nil in Ph. discriminate. }
    rewrite (Bl group before rest Ng Sk), (Bl group' before' rest' Ng' Sg'). set (inner := inner_of d a dk (sty s) i).
    set (lk := laid_kid d inner true). unfold kids_of. fold lk. rewrite !map_app. unfold lk. rewrite <- (laid_kids_inputs sty d inner true _ _ E1), <- (laid_kids_inputs sty d inner true _ _ E3), <- (laid_kids_inputs sty d inner true _ _ Eh). fold lk.
    set (B := map lk before). set (Rr := map lk rest). set (G := map lk group). set (G' := map lk h).
    assert (PG : Permutation G G') by (apply Permutation_map, Ph).
    assert (TG : Forall tight G) by (apply Forall_map; revert Sk; apply Forall_impl; intros k; apply stackable_tight).
    assert (TG' : Forall tight G') by (eapply Permutation_Forall; eassumption).
    assert (NG : G <> []) by discriminate.
    assert (NG' : G' <> []) by (intros X; rewrite X in PG; apply Permutation_sym, Permutation_nil in PG; discriminate).
    rewrite !(stack_ends B), !(stack_ends G), !(stack_ends G'). set (r := stack 0 None B). destruct (ends 0 None B) as [y prev] eqn:Ee. cbn [fst snd].
    assert (Pz : forall z, prev = Some z -> (0 <= z)%Z).
    { intros z Ez. apply (ends_nonneg B) with (y := 0) (prev := None); [|discriminate|rewrite Ee; exact Ez].
      intros u us I. apply in_map_iff in I. destruct I as (k & Ek & I). unfold lk, MoveProps.laid_kid in Ek. destruct (_ && _); [discriminate|]. apply (proj2 (format_extents sty _ _ _ _ _ Ek)). }
    destruct (tight_start G y prev TG NG Pz) as (t & TS). destruct (TS G TG NG) as (T1 & U1 & N1). destruct (TS G' TG' NG') as (T2 & U2 & N2).
    rewrite N1, N2, <- (heights_perm _ _ PG). cbn [fst snd]. rewrite <- (heights_perm _ _ PG) in T2. set (g := stack y prev G) in *. set (g' := stack y prev G') in *. set (z := stack _ _ Rr).
    assert (Ng1 : g <> []) by (intros X; apply (f_equal (@length _)) in X; unfold g in X; rewrite stack_length in X; unfold G, group in X; discriminate).
    assert (Ng2 : g' <> []) by (intros X; apply (f_equal (@length _)) in X; unfold g' in X; rewrite stack_length in X; destruct G'; [contradiction|discriminate]).
    assert (CT : forall l w, l <> [] -> Forall tight l -> match stack y prev l ++ w with UNode u _ :: _ => u_ct u | _ => 0%Z end = 0%Z).
    { intros l w N F. destruct l as [|x l]; [contradiction|]. inversion F as [|? ? (u & us & -> & _ & _ & C & _) _]; subst. cbn [stack app]. destruct u. exact C. }
    assert (LK : forall l, l <> [] -> Forall tight l -> exists k, last_kid (stack y prev l) = Some k /\ border_bottom k = fst (ends y prev l) /\ Some (u_cb k) = snd (ends y prev l)).
    { intros l N F. destruct (exists_last N) as (q & x & ->). apply Forall_app in F. destruct F as [_ F]. inversion F as [|? ? (u & us & -> & Up & _) _]; subst. apply stack_last, Up. }
    destruct (node_same d a dk (sty s) i true (r ++ g ++ z) (r ++ g' ++ z)) as (u & M1 & M2).
    + destruct r as [|x r']; [|reflexivity]. cbn [app]. unfold g, g'. rewrite (CT G z NG TG), (CT G' z NG' TG'). reflexivity.
    + destruct z as [|x z'].
      * rewrite !app_nil_r. destruct (LK G NG TG) as (k1 & L1 & B1 & C1). destruct (LK G' NG' TG') as (k2 & L2 & B2 & C2). fold g in L1. fold g' in L2. exists k1, k2.
        rewrite N1 in B1, C1. rewrite N2, <- (heights_perm _ _ PG) in B2. rewrite N2 in C2. cbn [fst snd] in *.
        assert (LA : forall q (l : list utree), l <> [] -> last_kid (q ++ l) = last_kid l) by (intros q [|x0 l0] X; [contradiction|apply last_kid_app]).
        rewrite !LA by assumption. split; [exact L1|]. split; [exact L2|]. split; congruence.
      * destruct (last_kid (x :: z')) as [kz|] eqn:Ez; [|unfold last_kid in Ez; cbn in Ez; destruct (rev z' ++ [x]) as [|[]] eqn:X; try discriminate; destruct (rev z'); discriminate].
        exists kz, kz. rewrite !app_assoc, !last_kid_app. auto.
    + rewrite M1, M2. assert (Lr : length r = length before) by (unfold r, B; rewrite stack_length, map_length; reflexivity).
      assert (Lg : length g = length group) by (unfold g, G; rewrite stack_length, map_length; reflexivity). rewrite <- Lr, <- Lg. apply (rearranged_here u r g g' z t (t + heights G)); [|exact T1|exact T2].
      rewrite U1, U2. apply Permutation_map, PG.
  - destruct (st_display (sty s)) as [dk|]; [|apply rearranged_away; auto]. pose proof (reordered_style _ _ _ _ W) as Es.
    assert (St : stacks_ sty dk (before' ++ k' :: rest') = stacks_ sty dk (before ++ k :: rest)).
    { apply stacks_has. destruct dk; try exact I; apply has_block_swap; auto; rewrite Es; reflexivity. }
    rewrite St. set (st := stacks_ sty dk (before ++ k :: rest)) in *. set (inner := inner_of d a dk (sty s) i).
    destruct (kids_app sty d inner st before before' E1) as (q & top & prev & Le & F1 & F2). rewrite F1, F2. clear F1 F2. cbn [map].
    assert (Lk : rearranged p c (laid_kid d inner st k) (laid_kid d inner st k')).
    { unfold MoveProps.laid_kid. rewrite Es. destruct (_ && _); [apply rearranged_away; auto|apply IH]. }
    set (x := laid_kid d inner st k) in *. set (x' := laid_kid d inner st k') in *. rewrite <- (laid_kids_inputs sty d inner st _ _ E3). set (z := map (laid_kid d inner st) rest).
    assert (K : exists y y' w, (if st then stack top prev (x :: z) else x :: z) = y :: w /\ (if st then stack top prev (x' :: z) else x' :: z) = y' :: w /\ rearranged p c y y').
    { destruct st; [|exists x, x', z; auto].
      destruct x as [u us| |], x' as [v us'| |]; try (inversion Lk; fail); cbn [stack].
      - pose proof (rearranged_same _ _ _ _ _ _ Lk) as <-. do 3 eexists. split; [reflexivity|]. split; [reflexivity|]. eapply rearranged_other, Lk.
      - exists UHidden, UHidden, (stack top prev z). auto.
      - exists USkipped, USkipped, (stack top prev z). auto. }
    destruct K as (y & y' & w & -> & -> & Ky).
    assert (Hy : (exists u us us', y = UNode u us /\ y' = UNode u us') \/ y = y').
    { inversion Ky; subst; [left; eauto|left; eauto|right; reflexivity]. }
    destruct (node_same d a dk (sty s) i st (q ++ y :: w) (q ++ y' :: w)) as (u & N1 & N2).
    + destruct q; [|reflexivity]. cbn [app]. destruct Hy as [(u & us & us' & -> & ->)| ->]; reflexivity.
    + rewrite !last_kid_app. destruct w as [|x0 w0].
      * destruct Hy as [(u & us & us' & -> & ->)| ->]; [exists u, u; auto|]. destruct y' as [u us| |]; cbn; [exists u, u|exists used0, used0|exists used0, used0]; auto.
      * change (y :: x0 :: w0) with ([y] ++ x0 :: w0). change (y' :: x0 :: w0) with ([y'] ++ x0 :: w0). rewrite !last_kid_app.
        destruct (last_kid (x0 :: w0)) as [kz|] eqn:Ez; [exists kz, kz; auto|]. unfold last_kid in Ez; cbn in Ez; destruct (rev w0 ++ [x0]) as [|[]] eqn:X; try discriminate; destruct (rev w0); discriminate.
    + rewrite N1, N2, <- Le. apply rearranged_below, Ky.
Qed.
Lemma page_reordered p c (n m : node) d h5 : reordered sty p c n m -> rearranged p c (page sty d h5 n) (page sty d h5 m).
Proof.
  intros W. unfold page. pose proof (format_reordered p c n m W d (mkArea (Some (nval (disp_width d))) (Some (nval (disp_height d))) 0 0 None)) as U.
  destruct (format sty d _ n) as [u us| |], (format sty d _ m) as [v us'| |]; try (inversion U; fail).
  - pose proof (rearranged_same _ _ _ _ _ _ U) as <-. destruct u. eapply rearranged_other, U.
  - apply rearranged_away. auto.
  - apply rearranged_away. auto.
Qed.
(** C174: new documents, with absolute positions. *)
Theorem C174_reorder : forall d h5 p c (n m n' m' : node), boxed n -> boxed m -> reordered sty p c n m ->
  layout sty d h5 n = (n', Ok tt) -> layout sty d h5 m = (m', Ok tt) ->
  exists t t', laid_out_as 0 0 n' t /\ laid_out_as 0 0 m' t' /\ rearranged p c t t'.
Proof.
  intros d h5 p c n m n' m' Bn Bm W Ln Lm. exists (page sty d h5 n), (page sty d h5 m).
  split; [apply (C112_every_layout_is_the_reference sty); [apply boxed_ready, Bn|left; exact Bn|exact Ln]|].
  split; [apply (C112_every_layout_is_the_reference sty); [apply boxed_ready, Bm|left; exact Bm|exact Lm]|]. apply page_reordered, W.
Qed.
(** After any history, for the positions relative to the parents. *)
Theorem C174_any_history : forall d h5 p c (n m n' m' : node), history sty n -> history sty m -> reordered sty p c n m ->
  layout sty d h5 n = (n', Ok tt) -> layout sty d h5 m = (m', Ok tt) ->
  exists t t', shows n' t /\ shows m' t' /\ rearranged p c t t'.
Proof.
  intros d h5 p c n m n' m' Hn Hm W Ln Lm. exists (page sty d h5 n), (page sty d h5 m).
  split; [apply (C122_any_history sty); assumption|]. split; [apply (C122_any_history sty); assumption|]. apply page_reordered, W.
Qed.

(** ** The sum of the heights *)
Lemma heights_stack l : Forall tight l -> heights (stack 0 None l) = heights l.
Proof.
  intros F. assert (G : forall y prev, heights (stack y prev l) = heights l); [|apply G].
  induction F as [|x l (u & us & -> & _) F IH]; intros y prev; [reflexivity|]. cbn [stack heights]. rewrite IH. destruct u. reflexivity.
Qed.
Lemma pile_height d a (n : node) u us : pile sty n -> format sty d a n = UNode u us -> u_h u = Some (heights us) /\ touching 0 us (heights us).
Proof.
  intros (Ds & Hh & Nk & Sk). destruct n as [s i b ks]. cbn [n_style n_kids] in *. rewrite format_split.
  assert (Dd : exists dk, st_display (sty s) = Some dk /\ (dk = DBlock \/ dk = DListItem)) by (destruct Ds as [Ds|Ds]; rewrite Ds; eauto).
  destruct Dd as (dk & Dk & Dd). rewrite Dk.
  assert (St : stacks_ sty dk ks = true).
  { assert (X : existsb (fun k => block_level (sty (n_style k))) ks = true); [|destruct Dd as [-> | ->]; exact X].
    destruct ks as [|k ks']; [contradiction|]. inversion Sk as [|? ? (B & _) _]; subst. cbn [existsb]. rewrite B. reflexivity. }
  rewrite St. set (inner := inner_of d a dk (sty s) i). unfold kids_of. set (G := map (laid_kid d inner true) ks).
  assert (TG : Forall tight G) by (apply Forall_map; revert Sk; apply Forall_impl; intros k; apply stackable_tight).
  assert (NG : G <> []) by (unfold G; destruct ks; [contradiction|discriminate]).
  unfold node_of. cbv zeta. intros E. injection E as <- <-. cbn [u_h]. rewrite heights_stack by exact TG.
  destruct (tight_start G 0 None TG NG) as (t & TS); [discriminate|]. destruct (TS G TG NG) as (T1 & U1 & N1).
  assert (T0 : t = 0).
  { destruct G as [|x G']; [contradiction|]. inversion TG as [|? ? (u & us & -> & Up & _) _]; subst. cbn [stack] in T1. inversion T1; subst. unfold upright in Up. destruct u. cbn in *. rewrite Up. ring. }
  subst t. replace (0 + heights G) with (heights G) in * by ring. split; [|exact T1].
  destruct (exists_last NG) as (q & x & EG). assert (F := TG). rewrite EG in F. apply Forall_app in F. destruct F as [_ F]. inversion F as [|? ? (ul & usl & -> & Up & _) _]; subst.
  destruct (stack_last q 0 None ul usl Up) as (k & L & B & _). rewrite <- EG in L, B. rewrite L. unfold hgt. assert (I : isinl dk = false) by (destruct Dd as [-> | ->]; reflexivity). rewrite I.
  unfold used_block_height, spec_height. rewrite Hh, B, N1. reflexivity.
Qed.
Lemma place_format d : forall (n : node) a t k x, place n t k x -> t = format sty d a n -> forall u us, x = UNode u us -> block_level (sty (n_style k)) = true ->
  exists a' t0 v, format sty d a' k = UNode v us /\ u = move_down t0 v.
Proof.
  assert (K : forall (n : node) t k x, place n t k x -> forall a t0, match format sty d a n with UNode v us => t = UNode (move_down t0 v) us | y => t = y end ->
    forall u us, x = UNode u us -> exists a' t1 v, format sty d a' k = UNode v us /\ u = move_down t1 v).
  { induction 1 as [n t|s i b ks u0 us0 j k0 x0 k x N1 N2 P IH]; intros a t0 F u us E.
    - destruct (format sty d a n) as [v vs| |] eqn:EF; rewrite E in F; try discriminate. injection F as -> ->. exists a, t0, v. auto.
    - rewrite format_split in F. destruct (st_display (sty s)) as [dk|]; [|discriminate]. unfold node_of in F. cbv zeta in F. injection F as _ ->.
      set (inner := inner_of d a dk (sty s) i) in *. set (st := stacks_ sty dk ks) in *.
      assert (X : exists t1, match format sty d inner k0 with UNode v us => x0 = UNode (move_down t1 v) us \/ x0 = USkipped | y => x0 = y \/ x0 = USkipped end).
      { assert (SK : forall l top prev j y, nth_error (stack top prev l) j = Some y -> exists t1 z, nth_error l j = Some z /\ match z with UNode v vs => y = UNode (move_down t1 v) vs | z => y = z end).
        { clear. induction l as [|z l IH]; intros top prev j y N; [destruct j; discriminate|]. destruct j as [|j].
          - destruct z as [v vs| |]; cbn [stack nth_error] in N; injection N as <-; [do 2 eexists|exists 0; eexists|exists 0; eexists]; (split; [reflexivity|]); reflexivity.
          - destruct z as [v vs| |]; cbn [stack nth_error] in *; eapply IH, N. }
        unfold kids_of in N2. destruct st.
        - apply SK in N2. destruct N2 as (t1 & z & Nz & Y). rewrite nth_error_map, N1 in Nz. cbn in Nz. injection Nz as <-. exists t1. unfold MoveProps.laid_kid in Y. destruct (_ && _).
          + destruct (format sty d inner k0); auto.
          + destruct (format sty d inner k0); auto.
        - rewrite nth_error_map, N1 in N2. cbn in N2. injection N2 as <-. exists 0. unfold MoveProps.laid_kid. cbn [andb]. destruct (format sty d inner k0) as [v vs| |]; auto. left. destruct v. cbn. do 2 f_equal. ring. }
      destruct X as (t1 & X). apply (IH inner t1); [|exact E].
      destruct (format sty d inner k0) as [v vs| |]; destruct X as [-> | ->]; try reflexivity; inversion P; subst; discriminate. }
  intros n a t k x P -> u us E _. apply (K n _ k x P a 0) with (u := u) (us := us); [|exact E]. destruct (format sty d a n) as [v vs| |]; [|reflexivity..]. destruct v. cbn. do 2 f_equal. ring.
Qed.
(** C174: the height of a block of automatic height that contains such blocks only
    is the sum of their heights, and they fill it from its top.  (The height of the
    root is changed afterwards in HTML5 mode.) *)
Theorem C174_sum : forall d h5 (n n' : node), history sty n -> layout sty d h5 n = (n', Ok tt) ->
  exists t, shows n' (finished h5 d t)
    /\ forall k u us, place n t k (UNode u us) -> pile sty k -> u_h u = Some (heights us) /\ touching 0 us (heights us).
Proof.
  intros d h5 n n' Hn Ln. exists (draft sty d n). rewrite <- page_draft. split; [apply (C122_any_history sty); assumption|]. intros k u us P Pk.
  assert (B : block_level (sty (n_style k)) = true) by (unfold block_level; destruct Pk as ([-> | ->] & _); reflexivity).
  destruct (place_format d n _ _ k _ P eq_refl u us eq_refl B) as (a' & t0 & v & F & ->). destruct (pile_height d a' k v us Pk F) as [H T]. split; [destruct v; exact H|exact T].
Qed.
End O.
Print Assumptions C174_reorder.
Print Assumptions C174_any_history.
Print Assumptions C174_sum.

(** ** Examples *)
(** Three blocks in another order, one level down, between a block with margins
    and another block; the blocks have borders, padding or contents. *)
Definition re_a : doc := el (vmargin 2 5 (hpx 10 block_style)) [].
Definition re_b : doc := el block_style [el (hpx 5 block_style) []].
Definition re_c : doc := el block_style [el (hpx 4 block_style) []; el (hpx 2 block_style) []].
Definition re_d : doc := el (hpx 8 block_style) [].
Definition re_e : doc := el (vmargin 8 8 (hpx 6 block_style)) [].
Definition re_1 : doc := el (vmargin 4 4 block_style) [el block_style ([re_a] ++ [re_b; re_c; re_d] ++ [re_e]); re_e].
Definition re_2 : doc := el (vmargin 4 4 block_style) [el block_style ([re_a] ++ [re_d; re_b; re_c] ++ [re_e]); re_e].
Ltac solve_marginless := constructor; [vm_compute; reflexivity|vm_compute; reflexivity|repeat (constructor; [solve_marginless|]); constructor].
Ltac solve_stackable := split; [vm_compute; reflexivity|]; split; [discriminate|solve_marginless].
Example C174_example : boxed re_1 /\ boxed re_2 /\ history idsty re_1 /\ history idsty re_2 /\ reordered idsty [0; 1]%nat 3 re_1 re_2
  /\ layout idsty screen false re_1 = (out false re_1, Ok tt) /\ layout idsty screen false re_2 = (out false re_2, Ok tt)
  /\ map (fun u => this (u_top u)) (drawn 0 0 (page idsty screen false re_1)) = [4; 4; 4; 19; 19; 24; 24; 28; 30; 46; 60]%Q
  /\ map (fun u => this (u_top u)) (drawn 0 0 (page idsty screen false re_2)) = [4; 4; 4; 19; 27; 27; 32; 32; 36; 46; 60]%Q.
Proof.
  split; [solve_boxed|]. split; [solve_boxed|]. split; [apply history_new; solve_new|]. split; [apply history_new; solve_new|]. split.
  { refine (reordered_below idsty [1%nat] 3 _ _ (Some box0) (Some box0) [] [] _ _ [_] [_] eq_refl _ eq_refl).
    refine (reordered_here idsty block_style size0 (Some box0) (Some box0) [_] [_] [_; _; _] [_; _; _] [_] [_] eq_refl _ eq_refl (or_introl eq_refl) _).
    - cbn [map]. etransitivity; [apply perm_skip, perm_swap|apply perm_swap].
    - repeat (constructor; [solve_stackable|]). constructor. }
  split; [apply ok_layout; vm_compute; reflexivity|]. split; [apply ok_layout; vm_compute; reflexivity|]. repeat split; vm_compute; reflexivity.
Qed.
(** A block that is a pile, inside a document: its height is 5 + (4 + 2) + 8. *)
Definition re_p : doc := el block_style [re_b; re_c; re_d].
Definition re_3 : doc := el (vmargin 4 4 block_style) [re_a; re_p].
Example C174_example_sum : history idsty re_3 /\ layout idsty screen false re_3 = (out false re_3, Ok tt) /\ pile idsty re_p
  /\ exists u us, place re_3 (draft idsty screen re_3) re_p (UNode u us) /\ (match u_h u with Some h => Some (this h) | None => None end, this (heights us)) = (Some 19%Q, 19%Q).
Proof.
  split; [apply history_new; solve_new|]. split; [apply ok_layout; vm_compute; reflexivity|]. split.
  - split; [left; reflexivity|]. split; [reflexivity|]. split; [discriminate|]. repeat (constructor; [solve_stackable|]). constructor.
  - destruct (draft idsty screen re_3) as [v vs| |] eqn:E; [|exfalso; revert E; vm_compute; discriminate..].
    assert (X : match vs with _ :: UNode u us :: _ => (match u_h u with Some h => Some (this h) | None => None end, this (heights us)) = (Some 19%Q, 19%Q) | _ => False end).
    { replace vs with (match draft idsty screen re_3 with UNode _ l => l | _ => [] end) by (rewrite E; reflexivity). vm_compute. reflexivity. }
    destruct vs as [|x [|[u us| |] vs]]; try contradiction. exists u, us. split; [|exact X].
    apply (place_below _ _ _ _ _ _ 1 re_p (UNode u us)); [reflexivity|reflexivity|apply place_here].
Qed.
