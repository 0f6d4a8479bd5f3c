(** * C176: text after the last block *)
From Coq Require Import ZArith QArith Qcanon Qround Lia Lqa Bool List.
From Verif Require Import PyNum NumFacts Units BoxModel BoxSpec BoxFacts Engine EnginePure EngineSpec EngineExamples EngineInv EngineTree EngineTotal EngineWidth
  RefLayout RefFacts RefProps HistSpec HistProps MoveSpec MoveProps EdgeSpec EdgeProps LocalSpec LocalProps PushSpec PushProps OkSpec OkProps WrapSpec WrapProps ReorderSpec ReorderProps TailSpec.
Import ListNotations.
Open Scope Qc_scope.

Lemma retailed_same p u us v vs : retailed_at p (UNode u us) (UNode v vs) -> u = v.
Proof. intros H. inversion H; reflexivity. Qed.
Lemma retailed_other p u us u' us' : retailed_at p (UNode u us) (UNode u us') -> retailed_at p (UNode u' us) (UNode u' us').
Proof. intros H. inversion H as [? ? ? ? A|? ? ? ? ? ? M|? ? [E|E]]; subst; [apply retailed_here, A|apply retailed_below; assumption|discriminate..]. Qed.
Lemma stack_skipped l : (forall x, In x l -> x = USkipped) -> forall y prev, stack y prev l = l.
Proof. induction l as [|x l IH]; intros A y prev; [reflexivity|]. rewrite (A x (or_introl eq_refl)). cbn [stack]. rewrite IH; [reflexivity|]. intros z I. apply A. right. exact I. Qed.
Lemma last_skipped q l : l <> [] -> (forall x, In x l -> x = USkipped) -> last_kid (q ++ l) = Some used0.
Proof. intros N A. destruct (exists_last N) as (z & x & E). rewrite E in A |- *. rewrite (A x) by (apply in_or_app; right; left; reflexivity). rewrite app_assoc, last_kid_app. reflexivity. Qed.

Section T.
Context {S : Type} (sty : S -> style).
Notation node := (node S).
Notation laid_kid := (MoveProps.laid_kid sty).

Lemma laid_tail d inner (tl : list node) : (forall x, In x tl -> block_level (sty (n_style x)) = false) -> forall x, In x (map (laid_kid d inner true) tl) -> x = USkipped.
Proof. intros A x I. apply in_map_iff in I. destruct I as (k & <- & I). unfold MoveProps.laid_kid. rewrite (A k I). reflexivity. Qed.
Lemma retailed_style p (n m : node) : retailed sty p n m -> n_style m = n_style n.
Proof. intros H. inversion H; reflexivity. Qed.
Lemma node_same_h d a dk s i st K K' : isinl dk = false -> st_height s <> Auto ->
  match K with UNode u _ :: _ => u_ct u | _ => 0%Z end = match K' with UNode u _ :: _ => u_ct u | _ => 0%Z end ->
  exists u, node_of d a dk s i st K = UNode u K /\ node_of d a dk s i st K' = UNode u K'.
Proof.
  intros D Hs Ect. unfold node_of. cbv zeta. eexists. split; [reflexivity|]. rewrite <- Ect.
  assert (Eh : hgt d a dk s i (last_kid K') = hgt d a dk s i (last_kid K)) by (unfold hgt, used_block_height, spec_height; rewrite D; destruct (st_height s); [contradiction|reflexivity]).
  rewrite Eh. destruct (st_height s); [contradiction|]. reflexivity.
Qed.
Theorem format_retailed p (n m : node) : retailed sty p n m -> forall d a, retailed_at p (format sty d a n) (format sty d a m).
Proof.
  induction 1 as [s i b b' ks ks' tl tl' Ds E1 (x0 & I0 & B0) Bt Hs|p s i b b' before before' k k' rest rest' E1 W IH E3]; intros d a; rewrite !format_split.
  - assert (Dd : exists dk, st_display (sty s) = Some dk /\ (dk = DBlock \/ dk = DListItem)) by (destruct Ds as [Ds|Ds]; rewrite Ds; eauto).
    destruct Dd as (dk & Dk & Dd). rewrite Dk.
    assert (Hb : has_block sty ks = true) by (apply existsb_exists; eauto).
    assert (Hb' : has_block sty ks' = true) by (rewrite <- (has_block_inputs sty _ _ E1); exact Hb).
    assert (St : stacks_ sty dk (ks ++ tl) = true /\ stacks_ sty dk (ks' ++ tl') = true).
    { split; destruct Dd as [-> | ->]; unfold stacks_; fold (has_block sty (ks ++ tl)); fold (has_block sty (ks' ++ tl')); rewrite (has_block_app sty), ?Hb, ?Hb'; reflexivity. }
    destruct St as [-> ->]. set (inner := inner_of d a dk (sty s) i). unfold kids_of. rewrite !map_app, <- (laid_kids_inputs sty d inner true _ _ E1).
    set (K := map (laid_kid d inner true) ks). set (T := map (laid_kid d inner true) tl). set (T' := map (laid_kid d inner true) tl').
    assert (A : forall x, In x T -> x = USkipped) by (apply laid_tail; intros x I; apply Bt, in_or_app; auto).
    assert (A' : forall x, In x T' -> x = USkipped) by (apply laid_tail; intros x I; apply Bt, in_or_app; auto).
    rewrite !stack_ends, (stack_skipped T A), (stack_skipped T' A'). set (r := stack 0 None K).
    assert (Nr : r <> []).
    { intros X. apply (f_equal (@length _)) in X. unfold r, K in X. rewrite stack_length, map_length in X. destruct ks; [destruct I0|discriminate]. }
    assert (Ect : match r ++ T with UNode u _ :: _ => u_ct u | _ => 0%Z end = match r ++ T' with UNode u _ :: _ => u_ct u | _ => 0%Z end) by (destruct r; [contradiction|reflexivity]).
    assert (Di : isinl dk = false) by (destruct Dd as [-> | ->]; reflexivity).
    assert (N : exists u, node_of d a dk (sty s) i true (r ++ T) = UNode u (r ++ T) /\ node_of d a dk (sty s) i true (r ++ T') = UNode u (r ++ T')).
    { destruct Hs as [Hs|Hs]; [apply node_same_h; assumption|]. destruct tl as [|t0 tl].
      - assert (X : T' = []) by (unfold T'; rewrite (proj1 Hs eq_refl); reflexivity). rewrite X. unfold T. cbn [map]. unfold node_of. cbv zeta. eauto.
      - destruct tl' as [|t0' tl']; [exfalso; destruct Hs as [_ Hs]; discriminate (Hs eq_refl)|]. apply node_same; [exact Ect|]. exists used0, used0. rewrite !last_skipped by (assumption || discriminate). auto. }
    destruct N as (u & -> & ->). apply retailed_here. intros x I. apply in_app_or in I. destruct I; auto.
  - destruct (st_display (sty s)) as [dk|]; [|apply retailed_away; auto]. pose proof (retailed_style _ _ _ W) as Es.
    assert (St : stacks_ sty dk (before' ++ k' :: rest') = stacks_ sty dk (before ++ k :: rest)).
    { apply stacks_has. destruct dk; try exact I; apply has_block_swap; auto; rewrite Es; reflexivity. }
    rewrite St. set (st := stacks_ sty dk (before ++ k :: rest)) in *. set (inner := inner_of d a dk (sty s) i).
    destruct (kids_app sty d inner st before before' E1) as (q & top & prev & Le & F1 & F2). rewrite F1, F2. clear F1 F2. cbn [map].
    assert (Lk : retailed_at p (laid_kid d inner st k) (laid_kid d inner st k')).
    { unfold MoveProps.laid_kid. rewrite Es. destruct (_ && _); [apply retailed_away; auto|apply IH]. }
    set (x := laid_kid d inner st k) in *. set (x' := laid_kid d inner st k') in *. rewrite <- (laid_kids_inputs sty d inner st _ _ E3). set (z := map (laid_kid d inner st) rest).
    assert (K : exists y y' w, (if st then stack top prev (x :: z) else x :: z) = y :: w /\ (if st then stack top prev (x' :: z) else x' :: z) = y' :: w /\ retailed_at p y y').
    { destruct st; [|exists x, x', z; auto].
      destruct x as [u us| |], x' as [v us'| |]; try (inversion Lk; fail); cbn [stack].
      - pose proof (retailed_same _ _ _ _ _ Lk) as <-. do 3 eexists. split; [reflexivity|]. split; [reflexivity|]. eapply retailed_other, Lk.
      - exists UHidden, UHidden, (stack top prev z). auto.
      - exists USkipped, USkipped, (stack top prev z). auto. }
    destruct K as (y & y' & w & -> & -> & Ky).
    assert (Hy : (exists u us us', y = UNode u us /\ y' = UNode u us') \/ y = y').
    { inversion Ky; subst; [left; eauto|left; eauto|right; reflexivity]. }
    destruct (node_same d a dk (sty s) i st (q ++ y :: w) (q ++ y' :: w)) as (u & N1 & N2).
    + destruct q; [|reflexivity]. cbn [app]. destruct Hy as [(u & us & us' & -> & ->)| ->]; reflexivity.
    + rewrite !last_kid_app. destruct w as [|x0 w0].
      * destruct Hy as [(u & us & us' & -> & ->)| ->]; [exists u, u; auto|]. destruct y' as [u us| |]; cbn; [exists u, u|exists used0, used0|exists used0, used0]; auto.
      * change (y :: x0 :: w0) with ([y] ++ x0 :: w0). change (y' :: x0 :: w0) with ([y'] ++ x0 :: w0). rewrite !last_kid_app.
        destruct (last_kid (x0 :: w0)) as [kz|] eqn:Ez; [exists kz, kz; auto|]. unfold last_kid in Ez; cbn in Ez; destruct (rev w0 ++ [x0]) as [|[]] eqn:X; try discriminate; destruct (rev w0); discriminate.
    + rewrite N1, N2, <- Le. apply retailed_below, Ky.
Qed.
Lemma page_retailed p (n m : node) d h5 : retailed sty p n m -> retailed_at p (page sty d h5 n) (page sty d h5 m).
Proof.
  intros W. unfold page. pose proof (format_retailed p n m W d (mkArea (Some (nval (disp_width d))) (Some (nval (disp_height d))) 0 0 None)) as U.
  destruct (format sty d _ n) as [u us| |], (format sty d _ m) as [v us'| |]; try (inversion U; fail).
  - pose proof (retailed_same _ _ _ _ _ U) as <-. destruct u. eapply retailed_other, U.
  - apply retailed_away. auto.
  - apply retailed_away. auto.
Qed.
(** C176: new documents, with absolute positions. *)
Theorem C176_tail : forall d h5 p (n m n' m' : node), boxed n -> boxed m -> retailed sty p n m ->
  layout sty d h5 n = (n', Ok tt) -> layout sty d h5 m = (m', Ok tt) ->
  exists t t', laid_out_as 0 0 n' t /\ laid_out_as 0 0 m' t' /\ retailed_at p t t'.
Proof.
  intros d h5 p n m n' m' Bn Bm W Ln Lm. exists (page sty d h5 n), (page sty d h5 m).
  split; [apply (C112_every_layout_is_the_reference sty); [apply boxed_ready, Bn|left; exact Bn|exact Ln]|].
  split; [apply (C112_every_layout_is_the_reference sty); [apply boxed_ready, Bm|left; exact Bm|exact Lm]|]. apply page_retailed, W.
Qed.
(** After any history, for the positions relative to the parents. *)
Theorem C176_any_history : forall d h5 p (n m n' m' : node), history sty n -> history sty m -> retailed sty p n m ->
  layout sty d h5 n = (n', Ok tt) -> layout sty d h5 m = (m', Ok tt) ->
  exists t t', shows n' t /\ shows m' t' /\ retailed_at p t t'.
Proof.
  intros d h5 p n m n' m' Hn Hm W Ln Lm. exists (page sty d h5 n), (page sty d h5 m).
  split; [apply (C122_any_history sty); assumption|]. split; [apply (C122_any_history sty); assumption|]. apply page_retailed, W.
Qed.
(** The height is 0, whatever the blocks in it. *)
Theorem C176_collapses : forall d h5 (n n' : node), history sty n -> layout sty d h5 n = (n', Ok tt) ->
  exists t, shows n' (finished h5 d t) /\ forall k u us, place n t k (UNode u us) -> trailing sty k -> u_h u = Some 0.
Proof.
  intros d h5 n n' Hn Ln. exists (draft sty d n). rewrite <- page_draft. split; [apply (C122_any_history sty); assumption|]. intros k u us P (Ds & Hh & ks & x & Ek & Bx & b & Ib & Bb).
  assert (B : block_level (sty (n_style k)) = true) by (unfold block_level; destruct Ds as [-> | ->]; reflexivity).
  destruct (place_format sty d n _ _ k _ P eq_refl u us eq_refl B) as (a' & t0 & v & F & ->). replace (u_h (move_down t0 v)) with (u_h v) by (destruct v; reflexivity).
  destruct k as [s i bx kk]. cbn [n_style n_kids] in *. subst kk. rewrite format_split in F.
  assert (Dd : exists dk, st_display (sty s) = Some dk /\ (dk = DBlock \/ dk = DListItem)) by (destruct Ds as [Ds|Ds]; rewrite Ds; eauto).
  destruct Dd as (dk & Dk & Dd). rewrite Dk in F.
  assert (St : stacks_ sty dk (ks ++ [x]) = true).
  { assert (Hb : has_block sty (ks ++ [x]) = true) by (apply existsb_exists; exists b; split; [apply in_or_app; auto|exact Bb]). destruct Dd as [-> | ->]; exact Hb. }
  rewrite St in F. unfold node_of in F. cbv zeta in F. injection F as <- <-. cbn [u_h]. unfold kids_of. rewrite map_app. cbn [map].
  unfold MoveProps.laid_kid at 2. rewrite Bx. cbn [negb andb]. rewrite stack_ends. cbn [stack]. rewrite last_kid_app. cbn [last_kid rev app].
  unfold hgt. assert (Di : isinl dk = false) by (destruct Dd as [-> | ->]; reflexivity). rewrite Di. unfold used_block_height, spec_height. rewrite Hh. reflexivity.
Qed.
End T.
Print Assumptions C176_tail.
Print Assumptions C176_any_history.
Print Assumptions C176_collapses.

(** ** Example *)
(** A block of 50 px followed by text in a block: the block around them has the
    height 0, and the next block is drawn over the first one. *)
Definition tail_x : doc := el (hpx 50 block_style) [].
Definition tail_t : doc := el (s_display (Some DInline) block_style) [].
Definition tail_1 : doc := el block_style [el block_style ([tail_x] ++ [tail_t]); tail_x].
Definition tail_2 : doc := el block_style [el block_style ([tail_x] ++ [tail_t; el (s_display (Some DInline) block_style) [tail_x]]); tail_x].
Example C176_example : history idsty tail_1 /\ history idsty tail_2 /\ boxed tail_1 /\ boxed tail_2 /\ retailed idsty [0%nat] tail_1 tail_2
  /\ layout idsty screen false tail_1 = (out false tail_1, Ok tt) /\ layout idsty screen false tail_2 = (out false tail_2, Ok tt)
  /\ trailing idsty (el block_style [tail_x; tail_t])
  /\ map (fun u => this (u_top u)) (drawn 0 0 (page idsty screen false tail_1)) = [0; 0; 0; 0]%Q.
Proof.
  split; [apply history_new; solve_new|]. split; [apply history_new; solve_new|]. split; [solve_boxed|]. split; [solve_boxed|]. split.
  { refine (tail_below idsty [] block_style size0 (Some box0) (Some box0) [] [] _ _ [_] [_] eq_refl _ eq_refl).
    refine (tail_here idsty block_style size0 (Some box0) (Some box0) [_] [_] [_] [_; _] (or_introl eq_refl) eq_refl _ _ _).
    - eexists. split; [left; reflexivity|reflexivity].
    - intros x [<- |[<- |[<- |[]]]]; reflexivity.
    - right. split; discriminate. }
  split; [apply ok_layout; vm_compute; reflexivity|]. split; [apply ok_layout; vm_compute; reflexivity|]. split.
  - split; [left; reflexivity|]. split; [reflexivity|]. exists [tail_x], tail_t. split; [reflexivity|]. split; [reflexivity|]. exists tail_x. split; [left; reflexivity|reflexivity].
  - vm_compute. reflexivity.
Qed.
