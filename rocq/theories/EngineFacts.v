(** * Lemmas about single boxes and single nodes during layout *)
From Coq Require Import ZArith QArith Qcanon Qround Lqa Lia Bool List.
From Verif Require Import PyNum NumFacts Units BoxModel BoxSpec BoxFacts Engine EnginePure.
Import ListNotations.
Open Scope Z_scope.

(** ** Margin setters in unconditional form *)
Definition lset (v old : lval) : lval := if leqb v old then old else v.
Definition cset (v old : lval) (k : Z) : Z := if leqb v old then k else grow v k.
Lemma set_margin_top_eq v b : set_margin_top v b =
  upd_margin_top (lset v (margin_top b)) (upd_collapse_top (cset v (margin_top b) (collapse_top b)) b).
Proof. destruct b. unfold set_margin_top, lset, cset. cbn. destruct (leqb v margin_top); reflexivity. Qed.
Lemma set_margin_right_eq v b : set_margin_right v b =
  upd_margin_right (lset v (margin_right b)) (upd_collapse_right (cset v (margin_right b) (collapse_right b)) b).
Proof. destruct b. unfold set_margin_right, lset, cset. cbn. destruct (leqb v margin_right); reflexivity. Qed.
Lemma set_margin_bottom_eq v b : set_margin_bottom v b =
  upd_margin_bottom (lset v (margin_bottom b)) (upd_collapse_bottom (cset v (margin_bottom b) (collapse_bottom b)) b).
Proof. destruct b. unfold set_margin_bottom, lset, cset. cbn. destruct (leqb v margin_bottom); reflexivity. Qed.
Lemma set_margin_left_eq v b : set_margin_left v b =
  upd_margin_left (lset v (margin_left b)) (upd_collapse_left (cset v (margin_left b) (collapse_left b)) b).
Proof. destruct b. unfold set_margin_left, lset, cset. cbn. destruct (leqb v margin_left); reflexivity. Qed.

(** Equality of layout values up to int/float. *)
Definition veq (a b : lval) : Prop :=
  match a, b with
  | LNum x, LNum y => nval x = nval y
  | LAuto, LAuto | LNone, LNone => True
  | _, _ => False
  end.
Lemma veq_refl a : veq a a. Proof. destruct a; cbn; trivial. Qed.
Lemma leqb_veq a b : leqb a b = true <-> veq a b.
Proof.
  destruct a as [x| |], b as [y| |]; cbn; try (split; [discriminate|tauto]); try (split; [tauto|reflexivity]).
  destruct (neqb_spec x y); split; intros; congruence.
Qed.
Lemma lset_veq v old : veq (lset v old) v.
Proof.
  unfold lset. destruct (leqb v old) eqn:E; [|apply veq_refl]. apply leqb_veq in E.
  destruct v, old; cbn in *; auto.
Qed.
Lemma lset_num n old : exists m, lset (LNum n) old = LNum m /\ nval m = nval n.
Proof. pose proof (lset_veq (LNum n) old) as H. destruct (lset _ _); cbn in H; try tauto. eauto. Qed.
Lemma lset_auto old : lset LAuto old = LAuto.
Proof. unfold lset. destruct old; reflexivity. Qed.
Lemma setn_val v old : nval (setn v old) = nval v.
Proof. unfold setn. destruct (neqb_spec v old); congruence. Qed.

(** ** Sequencing *)
Lemma run_ret {A} (a : A) b : run (bret a) b = Ok (b, a). Proof. reflexivity. Qed.
Lemma run_bind {A B} (m : BM A) (f : A -> BM B) b :
  run (bbind m f) b = (p <-r run m b ;; run (f (snd p)) (fst p)).
Proof. unfold run, bbind. destruct (m b) as [b' [a|e]]; reflexivity. Qed.
Lemma run_lift {A} (r : res A) b : run (blift r) b = (a <-r r ;; Ok (b, a)).
Proof. destruct r; reflexivity. Qed.
Lemma run_mod f b : run (bmod f) b = Ok (f b, tt). Proof. reflexivity. Qed.
Lemma run_get {A} (f : box -> A) b : run (bget f) b = Ok (b, f b). Proof. reflexivity. Qed.
Lemma run_num f b : run (bnum f) b = (n <-r as_num (f b) ;; Ok (b, n)).
Proof. unfold run, bnum. destruct (as_num (f b)); reflexivity. Qed.
Lemma run_fail {A} e b : run (@bfail A e) b = Err e. Proof. reflexivity. Qed.

Ltac inv_ok := repeat match goal with
  | H : Ok _ = Ok _ |- _ => apply Ok_inj in H
  | H : Err _ = Ok _ |- _ => discriminate H
  | H : bindr _ _ = Ok _ |- _ => apply bindr_ok in H; let x := fresh "x" in let Hx := fresh "Hx" in destruct H as (x & Hx & H)
  | H : (_, _) = (_, _) |- _ => injection H as ? ?; subst
  end.

(** ** Copying margins, borders and paddings *)
Definition with_edges (b : box) mt mr mb ml kt kr kb kl bt br bb bl pt pr pb pl : box :=
  mkBox (content_width b) (content_height b) (content_top b) (content_left b) (origin_top b) (origin_left b)
    mt mr mb ml kt kr kb kl bt br bb bl pt pr pb pl (dirty b).

Lemma copy_edges_run s hz vt b b' u : run (copy_edges s hz vt) b = Ok (b', u) ->
  exists mt mr mb ml bt br bb bl pt pr pb pl,
    calc_margin vt (st_margin_top s) = Ok mt /\ calc_margin hz (st_margin_right s) = Ok mr
    /\ calc_margin vt (st_margin_bottom s) = Ok mb /\ calc_margin hz (st_margin_left s) = Ok ml
    /\ calc_border hz (st_border_top s) = Ok bt /\ calc_border vt (st_border_right s) = Ok br
    /\ calc_border hz (st_border_bottom s) = Ok bb /\ calc_border vt (st_border_left s) = Ok bl
    /\ calc_len hz (st_padding_top s) = Ok pt /\ calc_len vt (st_padding_right s) = Ok pr
    /\ calc_len hz (st_padding_bottom s) = Ok pb /\ calc_len vt (st_padding_left s) = Ok pl
    /\ b' = with_edges b (lset mt (margin_top b)) (lset mr (margin_right b)) (lset mb (margin_bottom b))
         (lset ml (margin_left b))
         (cset mt (margin_top b) (collapse_top b)) (cset mr (margin_right b) (collapse_right b))
         (cset mb (margin_bottom b) (collapse_bottom b)) (cset ml (margin_left b) (collapse_left b))
         bt br bb bl pt pr pb pl.
Proof.
  unfold copy_edges. intros H.
  repeat (rewrite run_bind in H || rewrite run_lift in H || rewrite run_mod in H).
  destruct (calc_margin vt (st_margin_top s)) as [mt|] eqn:E1; cbn [bindr fst snd] in H; [|discriminate].
  repeat (rewrite run_bind in H || rewrite run_lift in H || rewrite run_mod in H; cbn [bindr fst snd] in H).
  destruct (calc_margin hz (st_margin_right s)) as [mr|] eqn:E2; cbn [bindr fst snd] in H; [|discriminate].
  repeat (rewrite run_bind in H || rewrite run_lift in H || rewrite run_mod in H; cbn [bindr fst snd] in H).
  destruct (calc_margin vt (st_margin_bottom s)) as [mb|] eqn:E3; cbn [bindr fst snd] in H; [|discriminate].
  repeat (rewrite run_bind in H || rewrite run_lift in H || rewrite run_mod in H; cbn [bindr fst snd] in H).
  destruct (calc_margin hz (st_margin_left s)) as [ml|] eqn:E4; cbn [bindr fst snd] in H; [|discriminate].
  repeat (rewrite run_bind in H || rewrite run_lift in H || rewrite run_mod in H; cbn [bindr fst snd] in H).
  destruct (calc_border hz (st_border_top s)) as [bt|] eqn:E5; cbn [bindr fst snd] in H; [|discriminate].
  repeat (rewrite run_bind in H || rewrite run_lift in H || rewrite run_mod in H; cbn [bindr fst snd] in H).
  destruct (calc_border vt (st_border_right s)) as [br|] eqn:E6; cbn [bindr fst snd] in H; [|discriminate].
  repeat (rewrite run_bind in H || rewrite run_lift in H || rewrite run_mod in H; cbn [bindr fst snd] in H).
  destruct (calc_border hz (st_border_bottom s)) as [bb|] eqn:E7; cbn [bindr fst snd] in H; [|discriminate].
  repeat (rewrite run_bind in H || rewrite run_lift in H || rewrite run_mod in H; cbn [bindr fst snd] in H).
  destruct (calc_border vt (st_border_left s)) as [bl|] eqn:E8; cbn [bindr fst snd] in H; [|discriminate].
  repeat (rewrite run_bind in H || rewrite run_lift in H || rewrite run_mod in H; cbn [bindr fst snd] in H).
  destruct (calc_len hz (st_padding_top s)) as [pt|] eqn:E9; cbn [bindr fst snd] in H; [|discriminate].
  repeat (rewrite run_bind in H || rewrite run_lift in H || rewrite run_mod in H; cbn [bindr fst snd] in H).
  destruct (calc_len vt (st_padding_right s)) as [pr|] eqn:E10; cbn [bindr fst snd] in H; [|discriminate].
  repeat (rewrite run_bind in H || rewrite run_lift in H || rewrite run_mod in H; cbn [bindr fst snd] in H).
  destruct (calc_len hz (st_padding_bottom s)) as [pb|] eqn:E11; cbn [bindr fst snd] in H; [|discriminate].
  repeat (rewrite run_bind in H || rewrite run_lift in H || rewrite run_mod in H; cbn [bindr fst snd] in H).
  destruct (calc_len vt (st_padding_left s)) as [pl|] eqn:E12; cbn [bindr fst snd] in H; [|discriminate].
  apply Ok_inj in H. injection H as H _.
  exists mt, mr, mb, ml, bt, br, bb, bl, pt, pr, pb, pl.
  do 12 (split; [first [reflexivity|assumption]|]).
  rewrite <- H, set_margin_top_eq, set_margin_right_eq, set_margin_bottom_eq, set_margin_left_eq.
  destruct b; reflexivity.
Qed.

(** ** 10.3.3: block-level, non-replaced elements in normal flow *)
Open Scope Qc_scope.
Definition optv (v : lval) : option Qc := match v with LNum n => Some (nval n) | _ => None end.
Definition dflt (o : option Qc) : Qc := match o with Some q => q | None => 0 end.
(** floor of half *)
Definition hfloor (q : Qc) : Qc := Z2Qc (Qfloor (this (q / Z2Qc 2))).

Definition hsolve (dir : direction_k) (W e : Qc) (w ml mr : option Qc) : Qc * Qc * Qc :=
  match w with
  | None => (W - e - dflt ml - dflt mr, dflt ml, dflt mr)
  | Some cw =>
      let over := qc_ltb W (e + cw + dflt ml + dflt mr) in
      let ml1 := if over then Some (dflt ml) else ml in
      let mr1 := if over then Some (dflt mr) else mr in
      match ml1, mr1 with
      | Some a, Some b =>
          match dir with
          | LTR => (cw, a, W - e - cw - a)
          | RTL => (cw, W - e - cw - b, b)
          end
      | None, Some b => (cw, W - e - cw - b, b)
      | Some a, None => (cw, a, W - e - cw - a)
      | None, None => (cw, hfloor (W - e - cw), hfloor (W - e - cw))
      end
  end.

Lemma nval_half a : nval (nhalf a) = hfloor (nval a).
Proof.
  destruct a as [x|q]; [|reflexivity]. cbn [nhalf nval]. unfold hfloor. f_equal. symmetry.
  apply Qfloor_unique. rewrite this_div, !this_Z2Qc.
  assert (H : (inject_Z x == inject_Z (x / 2) * 2 + inject_Z (x mod 2))%Q).
  { change 2%Q with (inject_Z 2). rewrite <- inject_Z_mult, <- inject_Z_plus. apply inject_Z_injective.
    rewrite Z.mul_comm. apply Z.div_mod. lia. }
  pose proof (Z.mod_pos_bound x 2 ltac:(lia)) as [B1 B2].
  assert (C1 : (0 <= inject_Z (x mod 2))%Q) by (change 0%Q with (inject_Z 0); rewrite <- Zle_Qle; lia).
  assert (C2 : (inject_Z (x mod 2) <= 1)%Q) by (change 1%Q with (inject_Z 1); rewrite <- Zle_Qle; lia).
  change (inject_Z 2) with 2%Q. unfold Qdiv. change (/ 2)%Q with (1#2)%Q. lra.
Qed.

Ltac run_simpl H :=
  repeat (first [rewrite run_bind in H | rewrite run_lift in H | rewrite run_mod in H | rewrite run_get in H
                | rewrite run_num in H | rewrite run_ret in H]; cbn [bindr fst snd] in H).

Lemma avail_width_run c b r : run (avail_width c) b = Ok r ->
  exists sz ml mr, c_size c = LNum sz /\ margin_left b = LNum ml /\ margin_right b = LNum mr
    /\ fst r = b /\ nval (snd r) = nval sz - nval ml - nval (border_left_width b) - nval (padding_left b)
        - nval (padding_right b) - nval (border_right_width b) - nval mr.
Proof.
  unfold avail_width. intros H. run_simpl H.
  destruct (c_size c) as [sz| |]; try discriminate. cbn [as_num bindr fst snd] in H. run_simpl H.
  destruct (margin_left b) as [ml| |]; try discriminate. cbn [as_num bindr fst snd] in H. run_simpl H.
  destruct (margin_right b) as [mr| |]; try discriminate. cbn [as_num bindr fst snd] in H. run_simpl H.
  apply Ok_inj in H. subst r. exists sz, ml, mr. do 4 (split; [reflexivity|]).
  cbn [snd]. rewrite !nval_sub. reflexivity.
Qed.

Lemma left_edge_run b r : run left_edge b = Ok r ->
  exists ml, margin_left b = LNum ml /\ fst r = b
    /\ nval (snd r) = nval ml + nval (border_left_width b) + nval (padding_left b).
Proof.
  unfold left_edge. intros H. run_simpl H.
  destruct (margin_left b) as [ml| |]; try discriminate. cbn [as_num bindr fst snd] in H. run_simpl H.
  apply Ok_inj in H. subst r. exists ml. do 2 (split; [reflexivity|]). cbn [snd]. rewrite !nval_add. reflexivity.
Qed.

Definition set_hm (b : box) (ml mr : lval) (kl kr : Z) : box :=
  upd_margin_left ml (upd_margin_right mr (upd_collapse_left kl (upd_collapse_right kr b))).
Lemma set_hm_id b : b = set_hm b (margin_left b) (margin_right b) (collapse_left b) (collapse_right b).
Proof. destruct b; reflexivity. Qed.
Lemma set_hm_fields b ml mr kl kr : let b' := set_hm b ml mr kl kr in
  margin_left b' = ml /\ margin_right b' = mr /\ collapse_left b' = kl /\ collapse_right b' = kr
  /\ border_left_width b' = border_left_width b /\ border_right_width b' = border_right_width b
  /\ padding_left b' = padding_left b /\ padding_right b' = padding_right b.
Proof. destruct b; repeat split. Qed.
Lemma set_hm_twice b ml mr kl kr ml' mr' kl' kr' :
  set_hm (set_hm b ml mr kl kr) ml' mr' kl' kr' = set_hm b ml' mr' kl' kr'.
Proof. destruct b; reflexivity. Qed.

Lemma set_hm_left v k b :
  upd_margin_left v (upd_collapse_left k b) = set_hm b v (margin_right b) k (collapse_right b).
Proof. destruct b; reflexivity. Qed.
Lemma set_hm_right v k b :
  upd_margin_right v (upd_collapse_right k b) = set_hm b (margin_left b) v (collapse_left b) k.
Proof. destruct b; reflexivity. Qed.

(** Zeroing auto margins. *)
Definition zero_auto (v : lval) : lval := if is_auto v then l0 else v.
Lemma zero_autos_run b : exists kl kr,
  run (bbind auto_left0 (fun _ => auto_right0)) b
  = Ok (set_hm b (zero_auto (margin_left b)) (zero_auto (margin_right b)) kl kr, tt).
Proof.
  unfold run, bbind, auto_left0, auto_right0, bmod, zero_auto. destruct b; cbn.
  destruct margin_left; cbn; destruct margin_right; cbn; do 2 eexists; reflexivity.
Qed.

Lemma zero_auto_num v n : zero_auto v = LNum n -> nval n = dflt (optv v).
Proof.
  unfold zero_auto. destruct v; cbn; [intros [= ->]; reflexivity| |discriminate].
  intros [= <-]. apply Z2Qc_0.
Qed.

Lemma drop_auto_run cw c b r : run (drop_auto_margins cw c) b = Ok r ->
  margin_left b <> LNone -> margin_right b <> LNone ->
  exists sz kl kr, c_size c = LNum sz /\
    let e := nval (border_left_width b) + nval (padding_left b) + nval (padding_right b) + nval (border_right_width b) in
    let over := qc_ltb (nval sz) (e + nval cw + dflt (optv (margin_left b)) + dflt (optv (margin_right b))) in
    fst r = if over then set_hm b (zero_auto (margin_left b)) (zero_auto (margin_right b)) kl kr else b.
Proof.
  intros H Nl Nr. unfold drop_auto_margins in H. run_simpl H.
  assert (A : forall acc g, g b <> LNone -> exists x, run (add_unless_auto acc g) b = Ok (b, x)
     /\ nval x = nval acc + dflt (optv (g b))).
  { intros acc g Hg. unfold run, add_unless_auto. destruct (g b) as [m| |]; cbn.
    - eexists. split; [reflexivity|]. apply nval_add.
    - eexists. split; [reflexivity|]. ring.
    - congruence. }
  match type of H with context[run (add_unless_auto ?a margin_left) b] => destruct (A a margin_left Nl) as (x & E & Ex) end.
  rewrite E in H; cbn [bindr fst snd] in H. run_simpl H.
  match type of H with context[run (add_unless_auto ?a margin_right) b] => destruct (A a margin_right Nr) as (y & F & Ey) end.
  rewrite F in H; cbn [bindr fst snd] in H. run_simpl H.
  destruct (c_size c) as [sz| |] eqn:Es; try discriminate. cbn [as_num bindr fst snd] in H. run_simpl H.
  destruct (zero_autos_run b) as (kl & kr & Z0).
  exists sz, kl, kr. split; [reflexivity|]. cbn zeta.
  assert (V : nval y = nval (border_left_width b) + nval (padding_left b) + nval (padding_right b)
      + nval (border_right_width b) + nval cw + dflt (optv (margin_left b)) + dflt (optv (margin_right b))).
  { rewrite Ey, Ex, !nval_add. ring. }
  rewrite <- V. fold (nltb sz y). destruct (nltb sz y).
  - rewrite Z0 in H. apply Ok_inj in H. subst r. reflexivity.
  - run_simpl H. apply Ok_inj in H. subst r. reflexivity.
Qed.

Lemma solve_right_run cw c b r : run (solve_right cw c) b = Ok r ->
  exists sz ml mr kr, c_size c = LNum sz /\ margin_left b = LNum ml
    /\ fst r = set_hm b (LNum ml) (LNum mr) (collapse_left b) kr
    /\ nval mr = nval sz - (nval (border_left_width b) + nval (padding_left b) + nval (padding_right b) + nval (border_right_width b))
         - nval cw - nval ml.
Proof.
  unfold solve_right. intros H. run_simpl H.
  destruct (c_size c) as [sz| |]; try discriminate. cbn [as_num bindr fst snd] in H. run_simpl H.
  destruct (margin_left b) as [ml| |] eqn:El; try discriminate. cbn [as_num bindr fst snd] in H. run_simpl H.
  apply Ok_inj in H. subst r. cbn [fst]. rewrite set_margin_right_eq, set_hm_right, El.
  match goal with |- context[lset (LNum ?n) ?o] => destruct (lset_num n o) as (mr & -> & Hm) end.
  do 4 eexists. split; [reflexivity|]. split; [reflexivity|]. split.
  - reflexivity.
  - rewrite Hm, !nval_sub. ring.
Qed.
Lemma solve_left_run cw c b r : run (solve_left cw c) b = Ok r ->
  exists sz ml mr kl, c_size c = LNum sz /\ margin_right b = LNum mr
    /\ fst r = set_hm b (LNum ml) (LNum mr) kl (collapse_right b)
    /\ nval ml = nval sz - (nval (border_left_width b) + nval (padding_left b) + nval (padding_right b) + nval (border_right_width b))
         - nval cw - nval mr.
Proof.
  unfold solve_left. intros H. run_simpl H.
  destruct (c_size c) as [sz| |]; try discriminate. cbn [as_num bindr fst snd] in H. run_simpl H.
  destruct (margin_right b) as [mr| |] eqn:El; try discriminate. cbn [as_num bindr fst snd] in H. run_simpl H.
  apply Ok_inj in H. subst r. cbn [fst]. rewrite set_margin_left_eq, set_hm_left, El.
  match goal with |- context[lset (LNum ?n) ?o] => destruct (lset_num n o) as (ml & -> & Hm) end.
  do 4 eexists. split; [reflexivity|]. split; [reflexivity|]. split.
  - reflexivity.
  - rewrite Hm, !nval_sub. ring.
Qed.
Lemma split_margins_run cw c b r : run (split_margins cw c) b = Ok r ->
  exists sz ml mr kl kr, c_size c = LNum sz
    /\ fst r = set_hm b (LNum ml) (LNum mr) kl kr
    /\ nval ml = hfloor (nval sz - (nval (border_left_width b) + nval (padding_left b) + nval (padding_right b) + nval (border_right_width b)) - nval cw)
    /\ nval mr = nval ml.
Proof.
  unfold split_margins. intros H. run_simpl H.
  destruct (c_size c) as [sz| |]; try discriminate. cbn [as_num bindr fst snd] in H. run_simpl H.
  apply Ok_inj in H. subst r. cbn [fst].
  set (av := nsub _ _) in *.
  assert (Hav : nval av = nval sz - (nval (border_left_width b) + nval (padding_left b) + nval (padding_right b) + nval (border_right_width b)) - nval cw).
  { unfold av. rewrite !nval_sub. ring. }
  rewrite set_margin_right_eq, set_margin_left_eq, set_hm_right, set_hm_left, set_hm_twice.
  destruct (lset_num (nhalf av) (margin_left b)) as (ml & -> & Hm).
  match goal with |- context[lset (LNum ?n) ?o] => destruct (lset_num n o) as (mr & -> & Hr) end.
  pose proof (set_hm_fields b (LNum ml)) as F. cbn zeta in F. do 5 eexists. split; [reflexivity|]. split; [f_equal; apply F|].
  rewrite Hm, Hr, nval_half, Hav. split; reflexivity.
Qed.

Lemma block_width_run s c b b' ol : run (block_non_replaced_width s c) b = Ok (b', ol) ->
  margin_left b <> LNone -> margin_right b <> LNone ->
  exists W ml mr cw l w0 kl kr,
    c_size c = LNum W
    /\ b' = upd_content_width (LNum cw) (set_hm b (LNum ml) (LNum mr) kl kr)
    /\ ol = Some l /\ nval l = nval ml + nval (border_left_width b) + nval (padding_left b)
    /\ match st_width s with
       | Auto => w0 = None
       | Len u => exists x, clamped_width s u c = Ok x /\ w0 = Some (nval x)
       end
    /\ (nval cw, nval ml, nval mr)
       = hsolve (st_direction s) (nval W)
           (nval (border_left_width b) + nval (padding_left b) + nval (padding_right b) + nval (border_right_width b))
           w0 (optv (margin_left b)) (optv (margin_right b)).
Proof.
  intros H Nl Nr. unfold block_non_replaced_width in H. rewrite run_bind in H.
  set (e := nval (border_left_width b) + nval (padding_left b) + nval (padding_right b) + nval (border_right_width b)) in *.
  (* the common tail *)
  assert (T : forall (m : BM num) b0, run (bbind m (fun cw => bbind (bmod (upd_content_width (LNum cw)))
        (fun _ => bbind left_edge (fun l => bret (Some l))))) b0 = Ok (b', ol) ->
      exists bm cw ml l, run m b0 = Ok (bm, cw) /\ b' = upd_content_width (LNum cw) bm
        /\ margin_left bm = LNum ml /\ ol = Some l
        /\ nval l = nval ml + nval (border_left_width bm) + nval (padding_left bm)).
  { intros m b0 R. rewrite run_bind in R. destruct (run m b0) as [[bm cw]|] eqn:Em; [|discriminate].
    cbn [bindr fst snd] in R. run_simpl R.
    destruct (run left_edge _) as [[b2 l]|] eqn:El; [|discriminate]. apply left_edge_run in El.
    cbn [bindr fst snd] in R. run_simpl R. apply Ok_inj in R. injection R as <- <-.
    destruct El as (ml & E1 & E2 & E3). cbn [fst snd] in *. subst b2. exists bm, cw, ml, l.
    split; [reflexivity|]. split; [reflexivity|]. destruct bm. cbn in *. auto. }
  assert (B : forall b0, (exists ml mr kl kr, b0 = set_hm b ml mr kl kr) ->
     border_left_width b0 = border_left_width b /\ border_right_width b0 = border_right_width b
     /\ padding_left b0 = padding_left b /\ padding_right b0 = padding_right b).
  { intros b0 (? & ? & ? & ? & ->). pose proof (set_hm_fields b x x0 x1 x2) as F. cbn zeta in F. tauto. }
  assert (Fin : forall bm cw ml0 l w0 W, (exists kl kr mr, bm = set_hm b (LNum ml0) (LNum mr) kl kr
        /\ (nval cw, nval ml0, nval mr) = hsolve (st_direction s) (nval W) e w0 (optv (margin_left b)) (optv (margin_right b))) ->
      c_size c = LNum W -> b' = upd_content_width (LNum cw) bm -> ol = Some l ->
      nval l = nval ml0 + nval (border_left_width bm) + nval (padding_left bm) ->
      match st_width s with Auto => w0 = None | Len u => exists x, clamped_width s u c = Ok x /\ w0 = Some (nval x) end ->
      exists W ml mr cw l w0 kl kr, c_size c = LNum W
    /\ b' = upd_content_width (LNum cw) (set_hm b (LNum ml) (LNum mr) kl kr)
    /\ ol = Some l /\ nval l = nval ml + nval (border_left_width b) + nval (padding_left b)
    /\ match st_width s with
       | Auto => w0 = None
       | Len u => exists x, clamped_width s u c = Ok x /\ w0 = Some (nval x)
       end
    /\ (nval cw, nval ml, nval mr) = hsolve (st_direction s) (nval W) e w0 (optv (margin_left b)) (optv (margin_right b))).
  { intros bm cw ml0 l w0 W (kl & kr & mr & -> & Hs) Hc Hb Ho Hl Hw.
    destruct (B (set_hm b (LNum ml0) (LNum mr) kl kr) ltac:(do 4 eexists; reflexivity)) as (B1 & _ & B3 & _).
    rewrite B1, B3 in Hl. exists W, ml0, mr, cw, l, w0, kl, kr. auto 10. }
  destruct (st_width s) as [|u] eqn:Ew.
  - (* width auto *)
    rewrite run_ret in H. cbn [bindr fst snd] in H. rewrite run_bind, run_get in H. cbn [bindr fst snd] in H.
    rewrite run_bind, run_get in H. cbn [bindr fst snd] in H.
    assert (H' : exists kl kr b1, b1 = set_hm b (zero_auto (margin_left b)) (zero_auto (margin_right b)) kl kr
       /\ run (bbind (avail_width c) (fun cw => bbind (bmod (upd_content_width (LNum cw)))
        (fun _ => bbind left_edge (fun l => bret (Some l))))) b1 = Ok (b', ol)).
    { destruct (is_auto (margin_left b)) eqn:Al; [|destruct (is_auto (margin_right b)) eqn:Ar].
      - destruct (zero_autos_run b) as (kl & kr & Z0). exists kl, kr; eexists; split; [reflexivity|].
        unfold bbind, run in *. destruct (auto_left0 b) as [b1 [[]|]]; [|discriminate].
        destruct (auto_right0 b1) as [b2 [[]|]]; [|discriminate]. apply Ok_inj in Z0. injection Z0 as <-. exact H.
      - destruct (zero_autos_run b) as (kl & kr & Z0). exists kl, kr; eexists; split; [reflexivity|].
        unfold bbind, run in *. destruct (auto_left0 b) as [b1 [[]|]]; [|discriminate].
        destruct (auto_right0 b1) as [b2 [[]|]]; [|discriminate]. apply Ok_inj in Z0. injection Z0 as <-. exact H.
      - exists (collapse_left b), (collapse_right b), b. split; [|exact H].
        unfold zero_auto. rewrite Al, Ar. apply set_hm_id. }
    destruct H' as (kl & kr & b1 & Hb1 & H'). apply T in H'. destruct H' as (bm & cw & ml & l & E1 & E2 & E3 & E4 & E5).
    apply avail_width_run in E1. destruct E1 as (W & ml1 & mr1 & A1 & A2 & A3 & A4 & A5). cbn [fst snd] in *. subst bm.
    rewrite A2 in E3. injection E3 as <-.
    pose proof (B b1 ltac:(eauto)) as (B1 & B2 & B3 & B4). rewrite B1, B2, B3, B4 in A5.
    assert (ZL : zero_auto (margin_left b) = LNum ml1).
    { rewrite <- A2, Hb1. pose proof (set_hm_fields b (zero_auto (margin_left b)) (zero_auto (margin_right b)) kl kr) as F. cbn zeta in F. symmetry. apply F. }
    assert (ZR : zero_auto (margin_right b) = LNum mr1).
    { rewrite <- A3, Hb1. pose proof (set_hm_fields b (zero_auto (margin_left b)) (zero_auto (margin_right b)) kl kr) as F. cbn zeta in F. symmetry. apply F. }
    eapply Fin; [|exact A1|exact E2|exact E4|exact E5|reflexivity].
    exists kl, kr, mr1. split; [rewrite Hb1, ZL, ZR; reflexivity|].
    cbn [hsolve]. rewrite A5, <- (zero_auto_num _ _ ZL), <- (zero_auto_num _ _ ZR). unfold e.
    f_equal. f_equal. ring.
  - (* explicit width *)
    rewrite run_bind, run_lift in H. destruct (clamped_width s u c) as [cw0|] eqn:Ecw; [|discriminate].
    cbn [bindr fst snd] in H. rewrite run_bind in H.
    destruct (run (drop_auto_margins cw0 c) b) as [r|] eqn:Ed; [|discriminate]. cbn [bindr fst snd] in H.
    apply drop_auto_run in Ed; [|assumption|assumption]. destruct Ed as (W & kl & kr & Hc & Ed). cbn zeta in Ed.
    fold e in Ed. rewrite run_ret in H. cbn [bindr fst snd] in H. rewrite run_bind, run_get in H. cbn [bindr fst snd] in H.
    rewrite run_bind, run_get in H. cbn [bindr fst snd] in H.
    set (over := qc_ltb (nval W) (e + nval cw0 + dflt (optv (margin_left b)) + dflt (optv (margin_right b)))) in *.
    remember (fst r) as b1 eqn:Er. clear r Er.
    (* margins after dropping autos *)
    assert (M1 : exists ml1 mr1 kl1 kr1, b1 = set_hm b ml1 mr1 kl1 kr1 /\ ml1 <> LNone /\ mr1 <> LNone
       /\ optv ml1 = (if over then Some (dflt (optv (margin_left b))) else optv (margin_left b))
       /\ optv mr1 = (if over then Some (dflt (optv (margin_right b))) else optv (margin_right b))).
    { destruct over; rewrite Ed.
      - do 4 eexists. split; [reflexivity|]. unfold zero_auto.
        destruct (margin_left b); destruct (margin_right b); cbn; try congruence; repeat split; try discriminate.
      - do 4 eexists. split; [apply set_hm_id|]. auto. }
    destruct M1 as (ml1 & mr1 & kl1 & kr1 & Hb1 & N1 & N2 & O1 & O2).
    pose proof (B b1 ltac:(eauto)) as (B1 & B2 & B3 & B4).
    pose proof (set_hm_fields b ml1 mr1 kl1 kr1) as F. cbn zeta in F. rewrite <- Hb1 in F. destruct F as (F1 & F2 & _).
    rewrite F1, F2 in H.
    assert (HS : hsolve (st_direction s) (nval W) e (Some (nval cw0)) (optv (margin_left b)) (optv (margin_right b))
       = match optv ml1, optv mr1 with
      | Some a, Some b =>
          match st_direction s with
          | LTR => (nval cw0, a, nval W - e - nval cw0 - a)
          | RTL => (nval cw0, nval W - e - nval cw0 - b, b)
          end
      | None, Some b => (nval cw0, nval W - e - nval cw0 - b, b)
      | Some a, None => (nval cw0, a, nval W - e - nval cw0 - a)
      | None, None => (nval cw0, hfloor (nval W - e - nval cw0), hfloor (nval W - e - nval cw0))
      end).
    { unfold hsolve. fold over. rewrite O1, O2. reflexivity. }
    assert (Ret : forall (m : BM unit) b0 bm x, run (bbind m (fun _ => bret cw0)) b0 = Ok (bm, x) ->
        exists r, run m b0 = Ok r /\ bm = fst r /\ x = cw0).
    { intros m b0 bm x R. rewrite run_bind in R. destruct (run m b0) as [r|]; [|discriminate].
      cbn [bindr] in R. rewrite run_ret in R. apply Ok_inj in R. injection R as <- <-. eauto. }
    assert (SR : forall ml0 bm, run (bbind (solve_right cw0 c) (fun _ => bret cw0)) b1 = Ok bm -> ml1 = LNum ml0 ->
        exists mr kr2, fst bm = set_hm b ml1 (LNum mr) kl1 kr2 /\ snd bm = cw0 /\ nval mr = nval W - e - nval cw0 - nval ml0).
    { intros ml0 [bm x] R Hl. apply Ret in R. destruct R as (r & R & -> & ->). apply solve_right_run in R.
      destruct R as (W' & ml' & mr & kr' & Q1 & Q2 & Q3 & Q4). rewrite Hc in Q1. injection Q1 as <-.
      rewrite F1, Hl in Q2. injection Q2 as <-. exists mr, kr'. cbn [fst snd]. rewrite Q3, Hb1, set_hm_twice, Hl.
      split; [f_equal; destruct b; reflexivity|]. split; [reflexivity|]. rewrite Q4, B1, B2, B3, B4. fold e. ring. }
    assert (SL : forall mr0 bm, run (bbind (solve_left cw0 c) (fun _ => bret cw0)) b1 = Ok bm -> mr1 = LNum mr0 ->
        exists ml kl2, fst bm = set_hm b (LNum ml) mr1 kl2 kr1 /\ snd bm = cw0 /\ nval ml = nval W - e - nval cw0 - nval mr0).
    { intros mr0 [bm x] R Hl. apply Ret in R. destruct R as (r & R & -> & ->). apply solve_left_run in R.
      destruct R as (W' & ml & mr' & kl' & Q1 & Q2 & Q3 & Q4). rewrite Hc in Q1. injection Q1 as <-.
      rewrite F2, Hl in Q2. injection Q2 as <-. exists ml, kl'. cbn [fst snd]. rewrite Q3, Hb1, set_hm_twice, Hl.
      split; [f_equal; destruct b; reflexivity|]. split; [reflexivity|]. rewrite Q4, B1, B2, B3, B4. fold e. ring. }
    assert (Wd : exists x, clamped_width s u c = Ok x /\ Some (nval cw0) = Some (nval x)) by eauto.
    assert (ML : forall b2 ml mr kl kr, b2 = set_hm b ml mr kl kr -> margin_left b2 = ml)
      by (intros ? ? ? ? ? ->; destruct b; reflexivity).
    destruct ml1 as [ml0| |]; [| |congruence]; destruct mr1 as [mr0| |]; try congruence; cbn [is_auto optv] in *.
    + (* over-constrained *)
      destruct (st_direction s) eqn:Edir; apply T in H; destruct H as (bm & cw & ml & l & E1 & E2 & E3 & E4 & E5).
      * destruct (SR ml0 _ E1 eq_refl) as (mr & kr2 & Q1 & Q2 & Q3). cbn [fst snd] in *. subst cw.
        rewrite (ML _ _ _ _ _ Q1) in E3. injection E3 as <-.
        eapply (Fin bm cw0 ml0 l (Some (nval cw0)) W); [|exact Hc|exact E2|exact E4|exact E5|first [exact Wd | exists cw0; split; reflexivity]].
        do 3 eexists. split; [exact Q1|]. rewrite HS, Q3. reflexivity.
      * destruct (SL mr0 _ E1 eq_refl) as (ml2 & kl2 & Q1 & Q2 & Q3). cbn [fst snd] in *. subst cw.
        rewrite (ML _ _ _ _ _ Q1) in E3. injection E3 as <-.
        eapply (Fin bm cw0 ml2 l (Some (nval cw0)) W); [|exact Hc|exact E2|exact E4|exact E5|first [exact Wd | exists cw0; split; reflexivity]].
        do 3 eexists. split; [exact Q1|]. rewrite HS, Q3. reflexivity.
    + apply T in H; destruct H as (bm & cw & ml & l & E1 & E2 & E3 & E4 & E5).
      destruct (SR ml0 _ E1 eq_refl) as (mr & kr2 & Q1 & Q2 & Q3). cbn [fst snd] in *. subst cw.
      rewrite (ML _ _ _ _ _ Q1) in E3. injection E3 as <-.
      eapply (Fin bm cw0 ml0 l (Some (nval cw0)) W); [|exact Hc|exact E2|exact E4|exact E5|first [exact Wd | exists cw0; split; reflexivity]].
      do 3 eexists. split; [exact Q1|]. rewrite HS, Q3. reflexivity.
    + apply T in H; destruct H as (bm & cw & ml & l & E1 & E2 & E3 & E4 & E5).
      destruct (SL mr0 _ E1 eq_refl) as (ml2 & kl2 & Q1 & Q2 & Q3). cbn [fst snd] in *. subst cw.
      rewrite (ML _ _ _ _ _ Q1) in E3. injection E3 as <-.
      eapply (Fin bm cw0 ml2 l (Some (nval cw0)) W); [|exact Hc|exact E2|exact E4|exact E5|first [exact Wd | exists cw0; split; reflexivity]].
      do 3 eexists. split; [exact Q1|]. rewrite HS, Q3. reflexivity.
    + apply T in H; destruct H as (bm & cw & ml & l & E1 & E2 & E3 & E4 & E5).
      apply Ret in E1. destruct E1 as (r & R & -> & ->). apply split_margins_run in R.
      destruct R as (W' & ml2 & mr2 & kl2 & kr2 & Q1 & Q2 & Q3 & Q4). rewrite Hc in Q1. injection Q1 as <-.
      rewrite Hb1, set_hm_twice in Q2. rewrite (ML _ _ _ _ _ Q2) in E3. injection E3 as <-.
      eapply (Fin (fst r) cw0 ml2 l (Some (nval cw0)) W); [|exact Hc|exact E2|exact E4|exact E5|first [exact Wd | exists cw0; split; reflexivity]].
      do 3 eexists. split; [exact Q2|]. rewrite HS, Q4, Q3, B1, B2, B3, B4. fold e.
      reflexivity.
Qed.

Lemma optv_veq a b : veq a b -> optv a = optv b.
Proof. destruct a, b; cbn; try tauto. intros ->. reflexivity. Qed.
Lemma lset_none v old : v <> LNone -> lset v old <> LNone.
Proof. pose proof (lset_veq v old). destruct v; destruct (lset _ _); cbn in *; try tauto; congruence. Qed.
Lemma calc_margin_none c v r : calc_margin c v = Ok r -> r <> LNone.
Proof. destruct v; cbn; [intros [= <-]; discriminate|]. intros H. inv_ok. subst r. discriminate. Qed.

(** Everything the width phase does to a block-level box. *)
Lemma wphase_block s i hz vt b b' : wphase s i hz vt b = Ok b' -> is_block_level s = true ->
  is_float s = false /\ is_abspos s = false /\ s_replaced i = false /\
  exists W ml mr cw w0 mts mrs mbs mls,
    c_size hz = LNum W
    /\ calc_margin vt (st_margin_top s) = Ok mts /\ calc_margin hz (st_margin_right s) = Ok mrs
    /\ calc_margin vt (st_margin_bottom s) = Ok mbs /\ calc_margin hz (st_margin_left s) = Ok mls
    /\ calc_border hz (st_border_top s) = Ok (border_top_width b')
    /\ calc_border vt (st_border_right s) = Ok (border_right_width b')
    /\ calc_border hz (st_border_bottom s) = Ok (border_bottom_width b')
    /\ calc_border vt (st_border_left s) = Ok (border_left_width b')
    /\ calc_len hz (st_padding_top s) = Ok (padding_top b')
    /\ calc_len vt (st_padding_right s) = Ok (padding_right b')
    /\ calc_len hz (st_padding_bottom s) = Ok (padding_bottom b')
    /\ calc_len vt (st_padding_left s) = Ok (padding_left b')
    /\ margin_left b' = LNum ml /\ margin_right b' = LNum mr /\ content_width b' = LNum cw
    /\ nval (content_left b') = nval ml + nval (border_left_width b') + nval (padding_left b')
    /\ match st_width s with
       | Auto => w0 = None
       | Len u => exists x, clamped_width s u hz = Ok x /\ w0 = Some (nval x)
       end
    /\ (nval cw, nval ml, nval mr)
       = hsolve (st_direction s) (nval W)
           (nval (border_left_width b') + nval (padding_left b') + nval (padding_right b') + nval (border_right_width b'))
           w0 (optv mls) (optv mrs)
    /\ margin_top b' = lset mts (margin_top b) /\ margin_bottom b' = lset mbs (margin_bottom b)
    /\ collapse_top b' = cset mts (margin_top b) (collapse_top b)
    /\ collapse_bottom b' = cset mbs (margin_bottom b) (collapse_bottom b)
    /\ content_top b' = content_top b /\ content_height b' = content_height b /\ dirty b' = dirty b.
Proof.
  intros H Hb. unfold wphase in H.
  destruct (run (copy_edges s hz vt) b) as [[b1 u]|] eqn:E1; [|discriminate]. cbn [bindr fst] in H.
  destruct (run (calculate_width s i hz) b1) as [[b2 ol]|] eqn:E2; [|discriminate]. cbn [bindr fst snd] in H.
  apply Ok_inj in H. unfold calculate_width in E2.
  destruct (is_float s); [discriminate|]. destruct (is_abspos s); [discriminate|].
  assert (Hi : is_inline s = false).
  { unfold is_block_level, is_inline in *. destruct (st_display s) as [[]|]; congruence. }
  rewrite Hi, Hb in E2. destruct (s_replaced i); [discriminate|].
  do 3 (split; [reflexivity|]).
  apply copy_edges_run in E1.
  destruct E1 as (mt & mr & mb & ml & bt & br & bb & bl & pt & pr & pb & pl & C1 & C2 & C3 & C4 & C5 & C6 & C7 & C8 & C9 & C10 & C11 & C12 & Hb1).
  apply block_width_run in E2.
  - destruct E2 as (W & ml2 & mr2 & cw & l & w0 & kl & kr & D1 & D2 & D3 & D4 & D5 & D6).
    subst b1. cbn [with_edges border_left_width border_right_width padding_left padding_right margin_left margin_right] in D4, D6.
    rewrite (optv_veq _ _ (lset_veq ml (margin_left b))), (optv_veq _ _ (lset_veq mr (margin_right b))) in D6.
    subst ol. subst b2. subst b'.
    exists W, ml2, mr2, cw, w0, mt, mr, mb, ml. unfold with_edges, set_hm, move_left. cbn.
    rewrite setn_val, D4. repeat (split; [first [assumption|reflexivity]|]). reflexivity.
  - subst b1. cbn [with_edges margin_left]. eapply lset_none, calc_margin_none, C4.
  - subst b1. cbn [with_edges margin_right]. eapply lset_none, calc_margin_none, C2.
Qed.

(** ** 10.6.3: heights of block-level boxes *)
Definition set_vm (b : box) (mt mb : lval) (kt kb : Z) : box :=
  upd_margin_top mt (upd_margin_bottom mb (upd_collapse_top kt (upd_collapse_bottom kb b))).

(** the height of a block, before it is stored *)
Inductive block_height (s : style) (ph : option unit_) (last : option (option box)) (c : ctx) : num -> Prop :=
| bh_last lb h : st_height s = Auto -> last = Some (Some lb) -> border_box_bottom lb = Ok h ->
    block_height s ph last c h
| bh_zero : st_height s = Auto -> last = None -> st_min_height s = Auto -> block_height s ph last c n0
| bh_min u h : st_height s = Auto -> last = None -> st_min_height s = Len u -> px c u = Ok h ->
    block_height s ph last c h
| bh_fixed u h0 h : st_height s = Len u ->
    (match ph with
     | Some pu => p <-r px c pu ;; px (mkCtx (c_disp c) (c_font c) (LNum p)) u
     | None => px c u
     end) = Ok h0 ->
    match st_max_height s with
    | None => h = h0
    | Some m => exists mx, px c m = Ok mx /\ h = if nltb mx h0 then mx else h0
    end -> block_height s ph last c h.

Definition last_extent (s : style) (last : option (option box)) (k : Z) : Z :=
  match st_height s, last with
  | Auto, Some (Some lb) => grow (LNum (NI (collapse_bottom lb))) k
  | _, _ => k
  end.

Lemma block_content_height_run s ph last c b r : run (block_content_height s ph last c) b = Ok r ->
  block_height s ph last c (snd r) /\ fst r = upd_collapse_bottom (last_extent s last (collapse_bottom b)) b.
Proof.
  unfold block_content_height, last_extent. intros H.
  assert (Same : upd_collapse_bottom (collapse_bottom b) b = b) by (destruct b; reflexivity).
  destruct (st_height s) as [|u] eqn:Eh.
  - destruct last as [[lb|]|].
    + run_simpl H. destruct (border_box_bottom lb) as [h|] eqn:El; [|discriminate]. cbn [bindr fst snd] in H.
      run_simpl H. apply Ok_inj in H. subst r. cbn [fst snd]. split; [|reflexivity]. eapply bh_last; eauto.
    + discriminate.
    + destruct (st_min_height s) as [|m] eqn:Em.
      * run_simpl H. apply Ok_inj in H. subst r. cbn [fst snd]. rewrite Same. split; [|reflexivity].
        apply bh_zero; auto.
      * run_simpl H. destruct (px c m) eqn:Ep; [|discriminate]. apply Ok_inj in H. subst r. cbn [fst snd].
        rewrite Same. split; [|reflexivity]. eapply bh_min; eauto.
  - rewrite run_bind in H.
    set (m := match ph with Some pu => _ | None => _ end) in *.
    assert (Hm : run m b = (x <-r match ph with
       | Some pu => p <-r px c pu ;; px (mkCtx (c_disp c) (c_font c) (LNum p)) u
       | None => px c u end ;; Ok (b, x))).
    { unfold m. destruct ph as [pu|].
      - rewrite run_bind, run_lift. destruct (px c pu); [|reflexivity]. cbn [bindr fst snd]. rewrite run_lift. reflexivity.
      - rewrite run_lift. reflexivity. }
    rewrite Hm in H. destruct (match ph with Some pu => _ | None => _ end) as [h0|] eqn:E0; [|discriminate].
    cbn [bindr fst snd] in H. rewrite Same.
    destruct (st_max_height s) as [mm|] eqn:Emx.
    + run_simpl H. destruct (px c mm) as [mx|] eqn:Ep; [|discriminate]. cbn [bindr fst snd] in H. run_simpl H.
      apply Ok_inj in H. subst r. cbn [fst snd]. split; [|reflexivity]. eapply bh_fixed; eauto. rewrite Emx. eauto.
    + run_simpl H. apply Ok_inj in H. subst r. cbn [fst snd]. split; [|reflexivity]. eapply bh_fixed; eauto.
      rewrite Emx. reflexivity.
Qed.

Lemma zero_auto_v_run b : exists kt kb,
  run (bbind auto_top0 (fun _ => auto_bottom0)) b
  = Ok (set_vm b (zero_auto (margin_top b)) (zero_auto (margin_bottom b)) kt kb, tt)
  /\ (0 <= collapse_top b -> kt = collapse_top b)%Z /\ (0 <= collapse_bottom b -> kb = collapse_bottom b)%Z.
Proof.
  unfold run, bbind, auto_top0, auto_bottom0, bmod, zero_auto. destruct b; cbn.
  destruct margin_top; cbn; destruct margin_bottom; cbn; do 2 eexists; (split; [reflexivity|]); split; intros; trivial;
  match goal with |- (if ?x then _ else _) = _ => destruct x eqn:E; [apply Z.ltb_lt in E; lia|reflexivity] end.
Qed.

Lemma hphase_block s i ph last vt b b' : hphase s i ph last vt b = Ok b' -> is_block_level s = true ->
  exists h kt kb t,
    block_height s ph last vt h
    /\ b' = upd_content_top t (upd_content_height (LNum h)
              (set_vm b (zero_auto (margin_top b)) (zero_auto (margin_bottom b)) kt kb))
    /\ nval t = nval (content_top b) + nval (border_top_width b) + nval (padding_top b)
    /\ ((0 <= collapse_top b)%Z -> kt = collapse_top b)
    /\ ((0 <= collapse_bottom b)%Z -> kb = last_extent s last (collapse_bottom b)).
Proof.
  intros H Hb. unfold hphase in H.
  destruct (run (calculate_height s i ph last vt) b) as [[b1 dt]|] eqn:E; [|discriminate].
  cbn [bindr fst snd] in H. apply Ok_inj in H. unfold calculate_height in E.
  destruct (is_float s); [discriminate|]. destruct (is_abspos s); [discriminate|].
  assert (Hi : is_inline s = false).
  { unfold is_block_level, is_inline in *. destruct (st_display s) as [[]|]; congruence. }
  rewrite Hi, Hb in E. destruct (s_replaced i); [discriminate|].
  unfold block_non_replaced_height in E.
  destruct (zero_auto_v_run b) as (kt & kb & Z0 & K1 & K2).
  assert (E' : exists b2, b2 = set_vm b (zero_auto (margin_top b)) (zero_auto (margin_bottom b)) kt kb /\
     run (bbind (block_content_height s ph last vt) (fun h => bbind (bmod (upd_content_height (LNum h)))
        (fun _ => bbind (bget border_top_width) (fun bt => bbind (bget padding_top) (fun pt => bret (nadd bt pt)))))) b2 = Ok (b1, dt)).
  { eexists. split; [reflexivity|]. rewrite run_bind in E. rewrite run_bind in Z0.
    destruct (run auto_top0 b) as [[b2 []]|]; [|discriminate]. cbn [bindr fst snd] in E, Z0.
    rewrite run_bind, Z0 in E. exact E. }
  destruct E' as (b2 & Hb2 & E'). rewrite run_bind in E'.
  destruct (run (block_content_height s ph last vt) b2) as [[b3 h]|] eqn:Eh; [|discriminate].
  apply block_content_height_run in Eh. cbn [fst snd] in Eh. destruct Eh as [Eh1 Eh2].
  cbn [bindr fst snd] in E'. run_simpl E'. apply Ok_inj in E'. injection E' as <- <-.
  exists h, kt, (last_extent s last kb), (setn (nadd (content_top b3) (nadd (border_top_width b3) (padding_top b3))) (content_top b3)).
  split; [exact Eh1|]. subst b3 b2 b'. split; [|split; [|split]].
  - unfold move_top. destruct b; reflexivity.
  - rewrite setn_val, !nval_add. unfold set_vm. destruct b; cbn. ring.
  - exact K1.
  - intros Hk. rewrite <- (K2 Hk). destruct b; reflexivity.
Qed.
