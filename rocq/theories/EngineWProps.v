(** * Properties C43-C46, C63, C65, C66, C71-: horizontal geometry *)
From Coq Require Import ZArith QArith Qcanon Qround Lqa Lia Bool List.
From Verif Require Import PyNum NumFacts Units UnitsFacts BoxModel BoxSpec BoxFacts Engine EnginePure EngineFacts
  EngineSpec EngineTree EngineWidth EngineExamples.
Import ListNotations.
Open Scope Qc_scope.

Section Props.
Context {S : Type} (sty : S -> style).
Notation node := (node S).

(** C71 (and the true part of C43).  The seven horizontal lengths of every
    block-level node add up to the width of its containing block; only a block
    with explicit width between two auto margins may fall short, by less than
    two pixels. *)
Theorem C71_horizontal_equation : forall d h5 (n n' : node) op k,
  layout sty d h5 n = (n', Ok tt) -> laid sty n' op k -> is_block_level (sty (n_style k)) = true ->
  exists b W t, n_box k = Some b /\ containing_width d op = LNum W /\ total_width b t
    /\ (t = nval W
        \/ (st_margin_left (sty (n_style k)) = Auto /\ st_margin_right (sty (n_style k)) = Auto
            /\ st_width (sty (n_style k)) <> Auto /\ 0 < nval W - t /\ nval W - t < Z2Qc 2)).
Proof.
  intros d h5 n n' op k H L Hb. destruct (laid_width sty _ _ _ _ _ _ H L Hb) as (_ & b & cb & Eb & _ & WF).
  destruct WF as [_ (W & ml & mr & cw & w0 & mrs & mls & D1 & D2 & D3 & D4 & D5 & D6 & D7 & D8 & _) _].
  exists b, W. eexists. split; [exact Eb|]. split; [exact D1|]. split; [econstructor; eassumption|].
  set (s := sty (n_style k)) in *.
  apply calc_margin_spec in D2. destruct D2 as [_ D2]. apply calc_margin_spec in D3. destruct D3 as [_ D3].
  unfold h_edges, hsolve in D8. destruct w0 as [w0|].
  2:{ injection D8 as -> -> ->. left. ring. }
  destruct (qc_ltb (nval W) _) eqn:Ov.
  - destruct (st_direction s); injection D8 as -> -> ->; left; ring.
  - destruct (optv mls) as [a|] eqn:Ea, (optv mrs) as [c|] eqn:Ec; try (injection D8 as -> -> ->; left; ring).
    + destruct (st_direction s); injection D8 as -> -> ->; left; ring.
    + injection D8 as -> -> ->.
      set (av := nval W - (nval (border_left_width b) + nval (padding_left b) + nval (padding_right b) + nval (border_right_width b)) - w0).
      destruct (hfloor_bounds av) as [B1 B2].
      replace (nval W - _) with (av - (hfloor av + hfloor av)) by (unfold av; ring).
      destruct (Qc_eq_dec (av - (hfloor av + hfloor av)) 0) as [E|E].
      * left. unfold av in *. qclra.
      * right. split; [apply D3; reflexivity|]. split; [apply D2; reflexivity|].
        split; [destruct (st_width s); discriminate|]. split; [|exact B2].
        apply Qcle_lt_or_eq in B1. destruct B1 as [B1|B1]; [exact B1|congruence].
Qed.

(** C43.  The equation itself, for every block that is not centred between two
    auto margins.  Missing: blocks with explicit width between two auto margins
    (see the refutation below and C71). *)
Theorem C43_width_equation_partial : forall d h5 (n n' : node) op k,
  layout sty d h5 n = (n', Ok tt) -> laid sty n' op k -> is_block_level (sty (n_style k)) = true ->
  ~ (st_margin_left (sty (n_style k)) = Auto /\ st_margin_right (sty (n_style k)) = Auto
     /\ st_width (sty (n_style k)) <> Auto) ->
  exists b W, n_box k = Some b /\ containing_width d op = LNum W /\ total_width b (nval W).
Proof.
  intros d h5 n n' op k H L Hb Hn. destruct (C71_horizontal_equation _ _ _ _ _ _ H L Hb) as (b & W & t & H1 & H2 & H3 & H4).
  exists b, W. split; [exact H1|]. split; [exact H2|]. destruct H4 as [<-|H4]; [exact H3|tauto].
Qed.

(** ** Auto margins *)

(** C72 (and the true part of C44).  [e] are the paddings and borders, [w] the
    used width, [l] and [r] the specified margins (auto counting as 0). *)
Theorem C72_auto_margins : forall d h5 (n n' : node) op k,
  layout sty d h5 n = (n', Ok tt) -> laid sty n' op k -> is_block_level (sty (n_style k)) = true ->
  exists b W ml w mr l r, n_box k = Some b /\ containing_width d op = LNum W /\ horizontal b ml w mr
    /\ specified (width_ctx d op) (st_margin_left (sty (n_style k))) l
    /\ specified (width_ctx d op) (st_margin_right (sty (n_style k))) r
    /\ (* width auto: auto margins are zero *)
    (st_width (sty (n_style k)) = Auto -> ml = l /\ mr = r)
    /\ (* explicit width that fits *)
    (st_width (sty (n_style k)) <> Auto -> l + h_edges b + w + r <= nval W ->
      (* two auto margins: equal, and less than two pixels are lost *)
      (st_margin_left (sty (n_style k)) = Auto -> st_margin_right (sty (n_style k)) = Auto ->
         ml = mr /\ 0 <= ml
         /\ 0 <= nval W - (ml + h_edges b + w + mr) /\ nval W - (ml + h_edges b + w + mr) < Z2Qc 2)
      (* one auto margin takes the rest *)
      /\ (st_margin_left (sty (n_style k)) = Auto -> st_margin_right (sty (n_style k)) <> Auto ->
         mr = r /\ ml + h_edges b + w + mr = nval W)
      /\ (st_margin_left (sty (n_style k)) <> Auto -> st_margin_right (sty (n_style k)) = Auto ->
         ml = l /\ ml + h_edges b + w + mr = nval W))
    /\ (* explicit width that does not fit: the start margin is kept (auto: zero),
          the end margin is the negative rest *)
    (st_width (sty (n_style k)) <> Auto -> nval W < l + h_edges b + w + r ->
      ml + h_edges b + w + mr = nval W
      /\ (st_direction (sty (n_style k)) = LTR -> ml = l /\ mr < r)
      /\ (st_direction (sty (n_style k)) = RTL -> mr = r /\ ml < l)).
Proof.
  intros d h5 n n' op k H L Hb. destruct (laid_width sty _ _ _ _ _ _ H L Hb) as (_ & b & cb & Eb & _ & WF).
  destruct WF as [_ (W & ml & mr & cw & w0 & mrs & mls & D1 & D2 & D3 & D4 & D5 & D6 & D7 & D8 & _) _].
  set (s := sty (n_style k)) in *.
  apply calc_margin_spec in D2. destruct D2 as [R1 R2]. apply calc_margin_spec in D3. destruct D3 as [L1 L2].
  exists b, W, (nval ml), (nval cw), (nval mr), (dflt (optv mls)), (dflt (optv mrs)).
  split; [exact Eb|]. split; [exact D1|]. split; [constructor; assumption|]. split; [exact L1|]. split; [exact R1|].
  unfold hsolve in D8. destruct (st_width s) as [|u] eqn:Ew.
  { subst w0. injection D8 as -> -> ->. split; [auto|]. split; intros; congruence. }
  destruct D7 as (x & D7 & ->). split; [discriminate|].
  destruct (qc_ltb_spec (nval W) (h_edges b + nval x + dflt (optv mls) + dflt (optv mrs))) as [Ov|Ov].
  - assert (Ecw : nval cw = nval x) by (destruct (st_direction s); injection D8 as -> _ _; reflexivity).
    rewrite Ecw. split.
    { intros _ Fit. exfalso. qclra. }
    intros _ _. destruct (st_direction s); injection D8 as _ -> ->; (split; [ring|]); split; intros; try discriminate;
      (split; [reflexivity|]); qclra.
  - assert (Ecw : nval cw = nval x).
    { destruct (optv mls), (optv mrs); destruct (st_direction s); injection D8 as -> _ _; reflexivity. }
    rewrite Ecw. split.
    2:{ intros _ Fit. exfalso. apply Ov. qclra. }
    intros _ Fit. destruct (optv mls) as [a|] eqn:Ea, (optv mrs) as [c|] eqn:Ec; cbn [dflt] in *.
    + assert (st_margin_left s <> Auto) by (intros Q; apply L2 in Q; discriminate).
      assert (st_margin_right s <> Auto) by (intros Q; apply R2 in Q; discriminate).
      split; [intros; contradiction|]. split; intros; contradiction.
    + assert (st_margin_left s <> Auto) by (intros Q; apply L2 in Q; discriminate).
      split; [intros; contradiction|]. split; [intros; contradiction|]. intros _ _. injection D8 as _ -> ->. split; ring.
    + assert (st_margin_right s <> Auto) by (intros Q; apply R2 in Q; discriminate).
      split; [intros; contradiction|]. split; [|intros; contradiction]. intros _ _. injection D8 as _ -> ->. split; ring.
    + split; [|split; intros Q1 Q2; [elim Q2; apply R2|elim Q1; apply L2]; reflexivity]. intros _ _.
      injection D8 as _ -> ->. split; [reflexivity|].
      set (av := nval W - h_edges b - nval x) in *.
      destruct (hfloor_bounds av) as [B1 B2]. split.
      * unfold hfloor. rewrite <- Z2Qc_0. apply Z2Qc_le.
        change 0%Z with (Qfloor 0). apply Qfloor_resp_le. rewrite this_div.
        assert (P : (0 <= this av)%Q) by (unfold av; clear B1 B2 R1 L1; qc_push; unfold Qcle in Fit; qc_push; lra).
        rewrite this_Z2Qc. unfold Qdiv. apply Qmult_le_0_compat; [exact P|]. cbn. discriminate.
      * replace (nval W - _) with (av - (hfloor av + hfloor av)) by (unfold av; ring). auto.
Qed.

(** C44.  Missing: centring is only up to a pixel on each side, and on overflow
    only the start-side auto margin is zero (refuted below). *)
Theorem C44_auto_margins_partial : forall d h5 (n n' : node) op k,
  layout sty d h5 n = (n', Ok tt) -> laid sty n' op k -> is_block_level (sty (n_style k)) = true ->
  exists b W ml w mr l r, n_box k = Some b /\ containing_width d op = LNum W /\ horizontal b ml w mr
    /\ specified (width_ctx d op) (st_margin_left (sty (n_style k))) l
    /\ specified (width_ctx d op) (st_margin_right (sty (n_style k))) r
    /\ (st_margin_left (sty (n_style k)) = Auto -> st_margin_right (sty (n_style k)) = Auto ->
        st_width (sty (n_style k)) <> Auto -> h_edges b + w <= nval W -> ml = mr)
    /\ (st_width (sty (n_style k)) <> Auto -> l + h_edges b + w + r <= nval W ->
        st_margin_left (sty (n_style k)) = Auto -> st_margin_right (sty (n_style k)) <> Auto ->
        ml + h_edges b + w + mr = nval W /\ mr = r)
    /\ (st_width (sty (n_style k)) <> Auto -> l + h_edges b + w + r <= nval W ->
        st_margin_left (sty (n_style k)) <> Auto -> st_margin_right (sty (n_style k)) = Auto ->
        ml + h_edges b + w + mr = nval W /\ ml = l)
    /\ (st_width (sty (n_style k)) = Auto ->
        (st_margin_left (sty (n_style k)) = Auto -> ml = 0)
        /\ (st_margin_right (sty (n_style k)) = Auto -> mr = 0))
    /\ (st_width (sty (n_style k)) <> Auto -> nval W < l + h_edges b + w + r ->
        st_direction (sty (n_style k)) = LTR -> st_margin_left (sty (n_style k)) = Auto -> ml = 0)
    /\ (st_width (sty (n_style k)) <> Auto -> nval W < l + h_edges b + w + r ->
        st_direction (sty (n_style k)) = RTL -> st_margin_right (sty (n_style k)) = Auto -> mr = 0).
Proof.
  intros d h5 n n' op k H L Hb.
  destruct (C72_auto_margins _ _ _ _ _ _ H L Hb) as (b & W & ml & w & mr & l & r & H1 & H2 & H3 & H4 & H5 & H6 & H7 & H8).
  exists b, W, ml, w, mr, l, r. do 5 (split; [assumption|]).
  assert (Zl : st_margin_left (sty (n_style k)) = Auto -> l = 0) by (intros E; rewrite E in H4; inversion H4; reflexivity).
  assert (Zr : st_margin_right (sty (n_style k)) = Auto -> r = 0) by (intros E; rewrite E in H5; inversion H5; reflexivity).
  split; [|split; [|split; [|split; [|split]]]].
  - intros A1 A2 A3 A4. apply H7; try assumption. rewrite (Zl A1), (Zr A2). qclra.
  - intros A1 A2 A3 A4. destruct (H7 A1 A2) as (_ & G & _). destruct (G A3 A4). auto.
  - intros A1 A2 A3 A4. destruct (H7 A1 A2) as (_ & _ & G). destruct (G A3 A4). auto.
  - intros A1. destruct (H6 A1) as [-> ->]. auto.
  - intros A1 A2 A3 A4. destruct (H8 A1 A2) as (_ & G & _). destruct (G A3) as [-> _]. auto.
  - intros A1 A2 A3 A4. destruct (H8 A1 A2) as (_ & _ & G). destruct (G A3) as [-> _]. auto.
Qed.

(** ** Minimum and maximum width *)
(** C73 (and the true part of C45).  The used width of a block with explicit
    width is that width, limited by max-width, then by min-width. *)
Theorem C73_explicit_width_clamped : forall d h5 (n n' : node) op k u,
  layout sty d h5 n = (n', Ok tt) -> laid sty n' op k -> is_block_level (sty (n_style k)) = true ->
  st_width (sty (n_style k)) = Len u ->
  exists b w x mn mx, n_box k = Some b /\ content_width b = LNum w
    /\ length_is (width_ctx d op) u x
    /\ match st_min_width (sty (n_style k)), mn with
       | Auto, None => True | Len m, Some y => length_is (width_ctx d op) m y | _, _ => False end
    /\ match st_max_width (sty (n_style k)), mx with
       | None, None => True | Some m, Some y => length_is (width_ctx d op) m y | _, _ => False end
    /\ nval w = at_least mn (at_most mx x)
    /\ (forall y, mn = Some y -> y <= nval w)
    /\ (forall y, mx = Some y -> nval w <= y \/ exists z, mn = Some z /\ y < z /\ nval w = z).
Proof.
  intros d h5 n n' op k u H L Hb Eu. destruct (laid_width sty _ _ _ _ _ _ H L Hb) as (_ & b & cb & Eb & _ & WF).
  destruct WF as [_ (W & ml & mr & cw & w0 & mrs & mls & D1 & D2 & D3 & D4 & D5 & D6 & D7 & D8 & _) _].
  set (s := sty (n_style k)) in *. rewrite Eu in D7. destruct D7 as (x & D7 & ->).
  assert (Ecw : nval cw = nval x).
  { unfold hsolve in D8. destruct (qc_ltb _ _).
    - destruct (st_direction s); injection D8 as -> _ _; reflexivity.
    - destruct (optv mls), (optv mrs); destruct (st_direction s); injection D8 as -> _ _; reflexivity. }
  unfold clamped_width in D7. apply bindr_ok in D7. destruct D7 as (wu & U1 & D7).
  apply bindr_ok in D7. destruct D7 as (w1 & U2 & D7).
  assert (M : exists mx, match st_max_width s, mx with
       | None, None => True | Some m, Some y => length_is (width_ctx d op) m y | _, _ => False end
       /\ nval w1 = at_most mx (nval wu)).
  { destruct (st_max_width s) as [m|].
    - apply bindr_ok in U2. destruct U2 as (y & U2 & U3). apply Ok_inj in U3. subst w1.
      exists (Some (nval y)). split; [exists y; auto|]. cbn [at_most].
      destruct (nltb_spec y wu), (qc_ltb_spec (nval y) (nval wu)); tauto.
    - apply Ok_inj in U2. subst. exists None. auto. }
  assert (N : exists mn, match st_min_width s, mn with
       | Auto, None => True | Len m, Some y => length_is (width_ctx d op) m y | _, _ => False end
       /\ nval x = at_least mn (nval w1)).
  { destruct (st_min_width s) as [|m].
    - apply Ok_inj in D7. subst. exists None. auto.
    - apply bindr_ok in D7. destruct D7 as (y & U3 & U4). apply Ok_inj in U4. subst x.
      exists (Some (nval y)). split; [exists y; auto|]. cbn [at_least].
      destruct (nltb_spec w1 y), (qc_ltb_spec (nval w1) (nval y)); tauto. }
  destruct M as (mx & M1 & M2). destruct N as (mn & N1 & N2).
  exists b, cw, (nval wu), mn, mx. split; [exact Eb|]. split; [exact D6|]. split; [exists wu; auto|].
  split; [exact N1|]. split; [exact M1|]. rewrite Ecw, N2, M2. split; [reflexivity|]. clear M1 N1 U2 D7 D8.
  split.
  - intros y ->. cbn [at_least]. destruct (qc_ltb_spec (at_most mx (nval wu)) y); [apply Qcle_refl|].
    apply Qcnot_lt_le. assumption.
  - intros y ->. cbn [at_most].
    assert (Q : (if qc_ltb y (nval wu) then y else nval wu) <= y).
    { destruct (qc_ltb_spec y (nval wu)); [apply Qcle_refl|apply Qcnot_lt_le; assumption]. }
    destruct mn as [z|]; cbn [at_least]; [|left; exact Q].
    destruct (qc_ltb_spec (if qc_ltb y (nval wu) then y else nval wu) z) as [B|B]; [|left; exact Q].
    destruct (Qclt_le_dec y z) as [C|C]; [right; eauto|left; exact C].
Qed.

(** C45.  Missing: blocks whose width is auto (refuted below). *)
Theorem C45_width_limits_partial : forall d h5 (n n' : node) op k u,
  layout sty d h5 n = (n', Ok tt) -> laid sty n' op k -> is_block_level (sty (n_style k)) = true ->
  st_width (sty (n_style k)) = Len u ->
  exists b w, n_box k = Some b /\ content_width b = LNum w
    /\ (forall m y, st_min_width (sty (n_style k)) = Len m -> length_is (width_ctx d op) m y -> y <= nval w)
    /\ (forall m y, st_max_width (sty (n_style k)) = Some m -> length_is (width_ctx d op) m y ->
          nval w <= y \/ exists m' z, st_min_width (sty (n_style k)) = Len m'
             /\ length_is (width_ctx d op) m' z /\ y < z /\ nval w = z).
Proof.
  intros d h5 n n' op k u H L Hb Eu.
  destruct (C73_explicit_width_clamped _ _ _ _ _ _ _ H L Hb Eu) as (b & w & x & mn & mx & H1 & H2 & _ & H4 & H5 & _ & H7 & H8).
  assert (U : forall m y z, length_is (width_ctx d op) m y -> length_is (width_ctx d op) m z -> y = z).
  { intros m y z (p & P1 & P2) (q & Q1 & Q2). congruence. }
  exists b, w. split; [exact H1|]. split; [exact H2|]. split.
  - intros m y E Ly. rewrite E in H4. destruct mn as [z|]; [|tauto]. rewrite (U _ _ _ Ly H4). apply H7. reflexivity.
  - intros m y E Ly. rewrite E in H5. destruct mx as [z|]; [|tauto]. rewrite (U _ _ _ Ly H5).
    destruct (H8 z eq_refl) as [Q|(z' & -> & Q1 & Q2)]; [left; exact Q|]. right.
    destruct (st_min_width (sty (n_style k))) as [|m'] eqn:Em; [tauto|]. exists m', z'. auto.
Qed.

(** ** Over-constrained blocks *)
(** C46.  With explicit width and margins, the start-side margin is used as
    specified and the end-side margin is what the equation leaves. *)
Theorem C46_over_constrained : forall d h5 (n n' : node) op k u ul ur,
  layout sty d h5 n = (n', Ok tt) -> laid sty n' op k -> is_block_level (sty (n_style k)) = true ->
  st_width (sty (n_style k)) = Len u ->
  st_margin_left (sty (n_style k)) = Len ul -> st_margin_right (sty (n_style k)) = Len ur ->
  exists b W ml w mr, n_box k = Some b /\ containing_width d op = LNum W /\ horizontal b ml w mr
    /\ match st_direction (sty (n_style k)) with
       | LTR => length_is (width_ctx d op) ul ml /\ mr = nval W - (ml + h_edges b + w)
       | RTL => length_is (width_ctx d op) ur mr /\ ml = nval W - (h_edges b + w + mr)
       end.
Proof.
  intros d h5 n n' op k u ul ur H L Hb Eu El Er. destruct (laid_width sty _ _ _ _ _ _ H L Hb) as (_ & b & cb & Eb & _ & WF).
  destruct WF as [_ (W & ml & mr & cw & w0 & mrs & mls & D1 & D2 & D3 & D4 & D5 & D6 & D7 & D8 & _) _].
  rewrite Eu in D7. destruct D7 as (x & D7 & ->). rewrite El in D3. rewrite Er in D2.
  set (s := sty (n_style k)) in *. apply calc_margin_spec in D2, D3. destruct D2 as [R1 R2], D3 as [L1 L2].
  exists b, W, (nval ml), (nval cw), (nval mr). split; [exact Eb|]. split; [exact D1|]. split; [constructor; assumption|].
  destruct (optv mls) as [a|] eqn:Ea; [|assert (Len ul = Auto) by (apply L2; reflexivity); discriminate].
  destruct (optv mrs) as [c|] eqn:Ec; [|assert (Len ur = Auto) by (apply R2; reflexivity); discriminate].
  cbn [dflt] in *. inversion L1 as [|u0 q L1' E1 E2]; subst. inversion R1 as [|u0' q' R1' E1' E2']; subst.
  unfold hsolve in D8.
  destruct (st_direction s); destruct (qc_ltb _ _); injection D8 as -> -> ->; (split; [assumption|ring]).
Qed.

(** Left-right mirror images of styles. *)
Definition mirror_dir (x : direction_k) : direction_k := match x with LTR => RTL | RTL => LTR end.
Record mirrored (s t : style) : Prop := {
  mi_dir : st_direction t = mirror_dir (st_direction s);
  mi_ml : st_margin_left t = st_margin_right s; mi_mr : st_margin_right t = st_margin_left s;
  mi_pl : st_padding_left t = st_padding_right s; mi_pr : st_padding_right t = st_padding_left s;
  mi_bl : st_border_left t = st_border_right s; mi_br : st_border_right t = st_border_left s;
  mi_w : st_width t = st_width s; mi_mn : st_min_width t = st_min_width s; mi_mx : st_max_width t = st_max_width s }.
(** No percentages in horizontal paddings and borders. *)
Definition no_pct (u : unit_) : Prop := u_kind u <> KPct.
Definition edges_absolute (s : style) : Prop :=
  no_pct (st_padding_left s) /\ no_pct (st_padding_right s)
  /\ (forall u, st_border_left s = BLen u -> no_pct u) /\ (forall u, st_border_right s = BLen u -> no_pct u).
End Props.

Lemma px_no_pct c1 c2 u : no_pct u -> c_disp c1 = c_disp c2 -> c_font c1 = c_font c2 -> px c1 u = px c2 u.
Proof.
  intros H E1 E2. unfold px, lu. rewrite E1, E2. unfold no_pct in H. destruct (u_kind u); try reflexivity. congruence.
Qed.
Lemma border_no_pct c1 c2 v : (forall u, v = BLen u -> no_pct u) -> c_disp c1 = c_disp c2 -> c_font c1 = c_font c2 ->
  calc_border c1 v = calc_border c2 v.
Proof.
  intros H E1 E2. destruct v as [k|u]; cbn; [rewrite E1; reflexivity|]. rewrite !calc_len_px. apply px_no_pct; auto.
Qed.
Lemma hsolve_mirror dir W e w ml mr cw a b : hsolve dir W e w ml mr = (cw, a, b) ->
  hsolve (mirror_dir dir) W e w mr ml = (cw, b, a).
Proof.
  unfold hsolve. destruct w as [w|].
  - replace (e + w + dflt mr + dflt ml) with (e + w + dflt ml + dflt mr) by ring.
    destruct (qc_ltb _ _).
    + destruct dir; cbn [mirror_dir]; intros [= <- <- <-]; reflexivity.
    + destruct ml, mr; destruct dir; cbn [mirror_dir]; intros [= <- <- <-]; reflexivity.
  - intros [= <- <- <-]. f_equal. f_equal. ring.
Qed.
Lemma clamped_same s t c u : st_min_width t = st_min_width s -> st_max_width t = st_max_width s ->
  clamped_width t u c = clamped_width s u c.
Proof. unfold clamped_width. intros -> ->. reflexivity. Qed.

(** C46, mirror: a block and its mirror image (opposite direction, sides
    exchanged), in containing blocks of equal width, get mirrored margins and
    equal widths -- over-constrained or not.  The two documents may differ. *)
Theorem C46_mirror : forall S (sty : S -> style) S' (sty' : S' -> style) d h5 h5' (n n' : node S) op k (m m' : node S') oq j,
  layout sty d h5 n = (n', Ok tt) -> laid sty n' op k -> is_block_level (sty (n_style k)) = true ->
  layout sty' d h5' m = (m', Ok tt) -> laid sty' m' oq j -> is_block_level (sty' (n_style j)) = true ->
  mirrored (sty (n_style k)) (sty' (n_style j)) -> edges_absolute (sty (n_style k)) ->
  containing_width d op = containing_width d oq ->
  exists b c ml w mr, n_box k = Some b /\ n_box j = Some c /\ horizontal b ml w mr /\ horizontal c mr w ml
    /\ nval (padding_left b) = nval (padding_right c) /\ nval (padding_right b) = nval (padding_left c)
    /\ nval (border_left_width b) = nval (border_right_width c) /\ nval (border_right_width b) = nval (border_left_width c).
Proof.
  intros S sty S' sty' d h5 h5' n n' op k m m' oq j H L Hb H' L' Hb' M E C.
  destruct (laid_width sty _ _ _ _ _ _ H L Hb) as (_ & b & cb & Eb & Cb & WF).
  destruct (laid_width sty' _ _ _ _ _ _ H' L' Hb') as (_ & c & cb' & Ec & Cb' & WF').
  destruct WF as [_ (W & ml & mr & cw & w0 & mrs & mls & D1 & D2 & D3 & D4 & D5 & D6 & D7 & D8 & _) (B1 & B2 & B3 & B4 & P1 & P2 & P3 & P4)].
  destruct WF' as [_ (W' & ml' & mr' & cw' & w0' & mrs' & mls' & D1' & D2' & D3' & D4' & D5' & D6' & D7' & D8' & _) (B1' & B2' & B3' & B4' & P1' & P2' & P3' & P4')].
  destruct M as [M1 M2 M3 M4 M5 M6 M7 M8 M9 M10]. destruct E as (E1 & E2 & E3 & E4).
  assert (Cx : width_ctx d oq = width_ctx d op) by (unfold width_ctx; rewrite C; reflexivity).
  rewrite Cx in *. rewrite <- C, D1 in D1'. injection D1' as <-.
  rewrite M2 in D3'. rewrite M3 in D2'. rewrite D2 in D3'. rewrite D3 in D2'. apply Ok_inj in D2', D3'. subst mrs' mls'.
  rewrite M8 in D7'.
  assert (Ew : w0' = w0).
  { destruct (st_width (sty (n_style k))); [congruence|]. destruct D7 as (x & D7 & ->), D7' as (x' & D7' & ->).
    rewrite (clamped_same _ _ _ _ M9 M10), D7 in D7'. apply Ok_inj in D7'. congruence. }
  subst w0'. rewrite M1 in D8'.
  rewrite M4, calc_len_px in P4'. rewrite M5, calc_len_px in P2'. rewrite M6 in B4'. rewrite M7 in B2'.
  rewrite calc_len_px in P2, P4.
  rewrite (px_no_pct (vctx d dummy_font cb') (vctx d dummy_font cb) _ E2 eq_refl eq_refl), P2 in P4'. apply Ok_inj in P4'.
  rewrite (px_no_pct (vctx d dummy_font cb') (vctx d dummy_font cb) _ E1 eq_refl eq_refl), P4 in P2'. apply Ok_inj in P2'.
  rewrite (border_no_pct (vctx d dummy_font cb') (vctx d dummy_font cb) _ E4 eq_refl eq_refl), B2 in B4'. apply Ok_inj in B4'.
  rewrite (border_no_pct (vctx d dummy_font cb') (vctx d dummy_font cb) _ E3 eq_refl eq_refl), B4 in B2'. apply Ok_inj in B2'.
  symmetry in D8. apply hsolve_mirror in D8.
  replace (h_edges c) with (h_edges b) in D8'.
  2:{ unfold h_edges. rewrite <- P2', <- P4', <- B2', <- B4'. ring. }
  rewrite D8 in D8'. injection D8' as Q1 Q2 Q3.
  exists b, c, (nval ml), (nval cw), (nval mr). split; [exact Eb|]. split; [exact Ec|]. split; [constructor; assumption|].
  split; [rewrite <- Q1, <- Q2, <- Q3; constructor; assumption|].
  rewrite <- P2', <- P4', <- B2', <- B4'. auto.
Qed.

(** ** Locality of the horizontal geometry *)
(** C74 (and the true part of C65).  In ready documents, the horizontal geometry
    of a static block is determined by its own style, the display, the width of
    its containing block and the height percentages refer to: two blocks, in
    any two documents, that agree on these agree on all used values. *)
Definition same_horizontal (b c : box) : Prop :=
  border_left_width b = border_left_width c /\ border_right_width b = border_right_width c
  /\ padding_left b = padding_left c /\ padding_right b = padding_right c
  /\ (exists ml w mr, horizontal b ml w mr /\ horizontal c ml w mr)
  /\ nval (content_left b) = nval (content_left c).

Lemma width_facts_det S S' d (op : option (node S)) (oq : option (node S')) s b c vt :
  width_facts d op s b vt -> width_facts d oq s c vt -> containing_width d op = containing_width d oq ->
  is_relative s = false -> same_horizontal b c.
Proof.
  intros WF WF' C R.
  destruct WF as [_ (W & ml & mr & cw & w0 & mrs & mls & D1 & D2 & D3 & D4 & D5 & D6 & D7 & D8 & D9) (B1 & B2 & B3 & B4 & P1 & P2 & P3 & P4)].
  destruct WF' as [_ (W' & ml' & mr' & cw' & w0' & mrs' & mls' & D1' & D2' & D3' & D4' & D5' & D6' & D7' & D8' & D9') (B1' & B2' & B3' & B4' & P1' & P2' & P3' & P4')].
  assert (Cx : width_ctx d oq = width_ctx d op) by (unfold width_ctx; rewrite C; reflexivity).
  rewrite Cx in *. rewrite <- C, D1 in D1'. injection D1' as <-.
  rewrite B2 in B2'. rewrite B4 in B4'. rewrite P2 in P2'. rewrite P4 in P4'. rewrite D2 in D2'. rewrite D3 in D3'.
  apply Ok_inj in B2', B4', P2', P4', D2', D3'. subst mrs' mls'.
  assert (w0' = w0).
  { destruct (st_width s); [congruence|]. destruct D7 as (x & D7 & ->), D7' as (x' & D7' & ->). congruence. }
  subst w0'. unfold h_edges in *. rewrite <- B2', <- B4', <- P2', <- P4', <- D8 in D8'. injection D8' as Q1 Q2 Q3.
  unfold same_horizontal. do 4 (split; [assumption|]). split.
  - exists (nval ml), (nval cw), (nval mr). split; [constructor; assumption|].
    rewrite <- Q1, <- Q2, <- Q3. constructor; assumption.
  - rewrite (D9 R), (D9' R), Q2, B4', P4'. reflexivity.
Qed.

Theorem C74_horizontal_locality : forall S (sty : S -> style) S' (sty' : S' -> style) d h5 h5'
    (n n' : node S) op p k (m m' : node S') oq q j,
  layout sty d h5 n = (n', Ok tt) -> ready sty n -> laid sty n' op p -> In k (n_kids p) ->
  layout sty' d h5' m = (m', Ok tt) -> ready sty' m -> laid sty' m' oq q -> In j (n_kids q) ->
  sty (n_style k) = sty' (n_style j) -> is_block_level (sty (n_style k)) = true ->
  is_relative (sty (n_style k)) = false ->
  (is_relative (sty (n_style p)) = true -> op <> None \/ h5 = false) ->
  (is_relative (sty' (n_style q)) = true -> oq <> None \/ h5' = false) ->
  containing_width d (Some p) = containing_width d (Some q) ->
  height_ref sty d (Some p) = height_ref sty' d (Some q) ->
  exists b c, n_box k = Some b /\ n_box j = Some c /\ same_horizontal b c.
Proof.
  intros S sty S' sty' d h5 h5' n n' op p k m m' oq q j H R L Hk H' R' L' Hk' E Hb Hr G G' C V.
  assert (Dk : displayed sty k) by (unfold displayed; unfold is_block_level in Hb; destruct (st_display _); congruence).
  assert (Dj : displayed sty' j) by (unfold displayed; rewrite <- E; exact Dk).
  assert (Hbj : is_block_level (sty' (n_style j)) = true) by (rewrite <- E; exact Hb).
  destruct (laid_width_v sty d h5 n n' op p k H R L Hk Dk (or_intror Hb) Hb G) as (b & B1 & B2).
  destruct (laid_width_v sty' d h5' m m' oq q j H' R' L' Hk' Dj (or_intror Hbj) Hbj G') as (c & C1 & C2).
  exists b, c. split; [exact B1|]. split; [exact C1|].
  assert (Vx : height_ctx sty' d (Some q) = height_ctx sty d (Some p)) by (unfold height_ctx; rewrite V; reflexivity).
  rewrite <- E, Vx in C2. eapply width_facts_det; eassumption.
Qed.

(** C65.  In particular siblings and children are irrelevant below static
    parents.  Missing: children of relatively positioned parents when the root
    is such a parent in HTML5 mode (refuted below), documents with stale boxes
    under re-shown nodes, and relative blocks themselves. *)
Theorem C65_horizontal_locality_partial : forall S (sty : S -> style) d h5 h5'
    (n n' m m' : node S) op oq k j,
  layout sty d h5 n = (n', Ok tt) -> ready sty n -> laid sty n' op k ->
  layout sty d h5' m = (m', Ok tt) -> ready sty m -> laid sty m' oq j ->
  sty (n_style k) = sty (n_style j) -> is_block_level (sty (n_style k)) = true ->
  is_relative (sty (n_style k)) = false ->
  (op = None <-> oq = None) ->
  (forall p, op = Some p -> is_relative (sty (n_style p)) = false) ->
  (forall p, oq = Some p -> is_relative (sty (n_style p)) = false) ->
  containing_width d op = containing_width d oq ->
  exists b c, n_box k = Some b /\ n_box j = Some c /\ same_horizontal b c.
Proof.
  intros S sty d h5 h5' n n' m m' op oq k j H R L H' R' L' E Hb Hr Ho P Q C.
  assert (Hbj : is_block_level (sty (n_style j)) = true) by (rewrite <- E; exact Hb).
  destruct (laid_width sty _ _ _ _ _ _ H L Hb) as (_ & b & cb & B1 & Cb & B2).
  destruct (laid_width sty _ _ _ _ _ _ H' L' Hbj) as (_ & c & cb' & C1 & Cb' & C2).
  rewrite (cb_vctx sty _ _ d op cb Cb R) in B2 by (intros p0 E0 E1; rewrite (P p0 E0) in E1; discriminate).
  rewrite (cb_vctx sty _ _ d oq cb' Cb' R') in C2 by (intros p0 E0 E1; rewrite (Q p0 E0) in E1; discriminate).
  exists b, c. split; [exact B1|]. split; [exact C1|].
  assert (Vx : height_ctx sty d oq = height_ctx sty d op).
  { unfold height_ctx. f_equal. destruct op as [p|], oq as [q|]; cbn [height_ref].
    - rewrite (P p eq_refl), (Q q eq_refl). reflexivity.
    - destruct Ho as [_ Ho]. discriminate (Ho eq_refl).
    - destruct Ho as [Ho _]. discriminate (Ho eq_refl).
    - reflexivity. }
  rewrite <- E, Vx in C2. eapply width_facts_det; eassumption.
Qed.

(** ** Percentages *)
(** C66.  Percentages of the left and right margins, of widths and of the
    top/bottom paddings and borders refer to the width of the containing block.
    Missing: left/right paddings and borders and top/bottom margins, which
    refer to the height seen during layout (refuted below). *)
Theorem C66_percentages_of_width_partial : forall S (sty : S -> style) d h5 (n n' : node S) op k,
  layout sty d h5 n = (n', Ok tt) -> laid sty n' op k -> is_block_level (sty (n_style k)) = true ->
  exists b, n_box k = Some b
    /\ px (width_ctx d op) (st_padding_top (sty (n_style k))) = Ok (padding_top b)
    /\ px (width_ctx d op) (st_padding_bottom (sty (n_style k))) = Ok (padding_bottom b)
    /\ (forall ul ur, st_width (sty (n_style k)) = Auto ->
         st_margin_left (sty (n_style k)) = Len ul -> st_margin_right (sty (n_style k)) = Len ur ->
         exists ml w mr, horizontal b ml w mr /\ length_is (width_ctx d op) ul ml /\ length_is (width_ctx d op) ur mr)
    /\ (st_padding_top (sty (n_style k)) = st_padding_bottom (sty (n_style k)) -> padding_top b = padding_bottom b)
    /\ (forall u, st_width (sty (n_style k)) = Auto ->
         st_margin_left (sty (n_style k)) = Len u -> st_margin_right (sty (n_style k)) = Len u ->
         exists ml w, horizontal b ml w ml).
Proof.
  intros S sty d h5 n n' op k H L Hb. destruct (laid_width sty _ _ _ _ _ _ H L Hb) as (_ & b & cb & B1 & Cb & WF).
  destruct WF as [_ (W & ml & mr & cw & w0 & mrs & mls & D1 & D2 & D3 & D4 & D5 & D6 & D7 & D8 & D9) (B1' & B2 & B3 & B4 & P1 & P2 & P3 & P4)].
  rewrite calc_len_px in P1, P3. exists b. do 3 (split; [assumption|]).
  assert (K : forall ul ur, st_width (sty (n_style k)) = Auto ->
         st_margin_left (sty (n_style k)) = Len ul -> st_margin_right (sty (n_style k)) = Len ur ->
         length_is (width_ctx d op) ul (nval ml) /\ length_is (width_ctx d op) ur (nval mr)).
  { intros ul ur Ew El Er. rewrite Ew in D7. subst w0. cbn [hsolve] in D8. injection D8 as _ -> ->.
    rewrite Er in D2. rewrite El in D3. apply calc_margin_spec in D2, D3. destruct D2 as [R1 _], D3 as [L1 _].
    inversion R1; inversion L1; subst. split; congruence. }
  split; [|split].
  - intros ul ur Ew El Er. exists (nval ml), (nval cw), (nval mr). split; [constructor; assumption|]. apply K; assumption.
  - intros E. rewrite E, P3 in P1. apply Ok_inj in P1. congruence.
  - intros u Ew El Er. destruct (K u u Ew El Er) as [(p1 & K1 & K2) (p2 & K3 & K4)].
    rewrite K1 in K3. apply Ok_inj in K3. subst p2. exists (nval ml), (nval cw).
    assert (E : nval ml = nval mr) by congruence.
    replace (horizontal b (nval ml) (nval cw) (nval ml)) with (horizontal b (nval ml) (nval cw) (nval mr)) by congruence.
    constructor; assumption.
Qed.

(** ** Refutations of the full statements *)
Definition wpx (z : Z) : style -> style := s_size (Len (pxu z)) Auto.
Definition auto_h : style -> style := s_margin (Len zero_px) Auto (Len zero_px) Auto.

(** C43: a 99px wide block centred in 1000px: 450 + 99 + 450 = 999. *)
Theorem C43_centred_odd_refuted : exists (n n' : doc) b W t,
  boxed n /\ layout idsty screen true n = (n', Ok tt) /\ laid idsty n' None n'
  /\ is_block_level (n_style n') = true /\ n_box n' = Some b
  /\ containing_width screen (@None doc) = LNum W /\ total_width b t /\ t <> nval W.
Proof.
  set (n := el (wpx 99 (auto_h block_style)) []).
  exists n, (out true n), (bx (out true n)), (NI 1000), (Z2Qc 999).
  split; [constructor; intros k []|]. split; [apply ok_layout; vm_compute; reflexivity|].
  split; [apply laid_out_root; vm_compute; reflexivity|]. split; [vm_compute; reflexivity|]. split; [vm_compute; reflexivity|].
  split; [reflexivity|]. split.
  - replace (Z2Qc 999) with (Z2Qc 450 + Z2Qc 0 + Z2Qc 0 + Z2Qc 99 + Z2Qc 0 + Z2Qc 0 + Z2Qc 450) by (apply qc_eq; vm_compute; reflexivity).
    apply (total_width_intro (bx (out true n)) (NI 450) (NI 99) (NI 450)); vm_compute; reflexivity.
  - intros E. apply qc_eq' in E. vm_compute in E. discriminate.
Qed.

(** C44: a 1200px wide ltr block with auto margins in 1000px gets a right
    margin of -200 instead of zero. *)
Theorem C44_overflow_refuted : exists (n n' : doc) b W ml w mr,
  boxed n /\ layout idsty screen true n = (n', Ok tt) /\ laid idsty n' None n'
  /\ is_block_level (n_style n') = true /\ n_box n' = Some b
  /\ containing_width screen (@None doc) = LNum W /\ horizontal b ml w mr
  /\ st_width (n_style n') <> Auto /\ st_margin_left (n_style n') = Auto /\ st_margin_right (n_style n') = Auto
  /\ nval W < h_edges b + w /\ mr <> 0.
Proof.
  set (n := el (wpx 1200 (auto_h block_style)) []).
  exists n, (out true n), (bx (out true n)), (NI 1000), (nval (NI 0)), (nval (NI 1200)), (nval (NI (-200))).
  split; [constructor; intros k []|]. split; [apply ok_layout; vm_compute; reflexivity|].
  split; [apply laid_out_root; vm_compute; reflexivity|]. split; [vm_compute; reflexivity|]. split; [vm_compute; reflexivity|].
  split; [reflexivity|]. split; [constructor; vm_compute; reflexivity|]. split; [vm_compute; discriminate|].
  split; [vm_compute; reflexivity|]. split; [vm_compute; reflexivity|]. split; [vm_compute; reflexivity|].
  intros E. apply qc_eq' in E. vm_compute in E. discriminate.
Qed.
(** C44: the two auto margins of the 99px block leave one pixel unused. *)
Theorem C44_odd_space_refuted : exists (n n' : doc) b W ml w mr,
  boxed n /\ layout idsty screen true n = (n', Ok tt) /\ laid idsty n' None n'
  /\ is_block_level (n_style n') = true /\ n_box n' = Some b
  /\ containing_width screen (@None doc) = LNum W /\ horizontal b ml w mr
  /\ st_width (n_style n') <> Auto /\ st_margin_left (n_style n') = Auto /\ st_margin_right (n_style n') = Auto
  /\ h_edges b + w <= nval W /\ ml + h_edges b + w + mr <> nval W.
Proof.
  set (n := el (wpx 99 (auto_h block_style)) []).
  exists n, (out true n), (bx (out true n)), (NI 1000), (nval (NI 450)), (nval (NI 99)), (nval (NI 450)).
  split; [constructor; intros k []|]. split; [apply ok_layout; vm_compute; reflexivity|].
  split; [apply laid_out_root; vm_compute; reflexivity|]. split; [vm_compute; reflexivity|]. split; [vm_compute; reflexivity|].
  split; [reflexivity|]. split; [constructor; vm_compute; reflexivity|]. split; [vm_compute; discriminate|].
  split; [vm_compute; reflexivity|]. split; [vm_compute; reflexivity|]. split; [vm_compute; discriminate|].
  intros E. apply qc_eq' in E. vm_compute in E. discriminate.
Qed.

(** C45: max-width 500px is ignored when the width is auto. *)
Theorem C45_auto_width_refuted : exists (n n' : doc) b w m y,
  boxed n /\ layout idsty screen true n = (n', Ok tt) /\ laid idsty n' None n'
  /\ is_block_level (n_style n') = true /\ n_box n' = Some b /\ content_width b = LNum w
  /\ st_max_width (n_style n') = Some m /\ length_is (width_ctx screen (@None doc)) m y
  /\ st_min_width (n_style n') = Auto /\ y < nval w.
Proof.
  set (n := el (s_limits Auto Auto (Some (pxu 500)) None block_style) []).
  exists n, (out true n), (bx (out true n)), (NI 1000), (pxu 500), (nval (NI 500)).
  split; [constructor; intros k []|]. split; [apply ok_layout; vm_compute; reflexivity|].
  split; [apply laid_out_root; vm_compute; reflexivity|]. split; [vm_compute; reflexivity|]. split; [vm_compute; reflexivity|].
  split; [vm_compute; reflexivity|]. split; [vm_compute; reflexivity|]. split; [eexists; split; [vm_compute; reflexivity|reflexivity]|].
  split; [vm_compute; reflexivity|]. vm_compute. reflexivity.
Qed.

(** C63: a 5px border with border-style none takes 5px. *)
Theorem C63_border_style_none_refuted : exists (n n' : doc) b,
  boxed n /\ layout idsty screen true n = (n', Ok tt) /\ laid idsty n' None n'
  /\ n_box n' = Some b /\ st_border_left_style (n_style n') = None /\ nval (border_left_width b) = Z2Qc 5.
Proof.
  set (n := el (s_border (BLen zero_px) (BLen zero_px) (BLen zero_px) (BLen (pxu 5)) block_style) []).
  exists n, (out true n), (bx (out true n)).
  split; [constructor; intros k []|]. split; [apply ok_layout; vm_compute; reflexivity|].
  split; [apply laid_out_root; vm_compute; reflexivity|]. split; [vm_compute; reflexivity|].
  split; [reflexivity|]. apply qc_eq. vm_compute. reflexivity.
Qed.

(** C65: in HTML5 mode two relatively positioned roots of different specified
    heights end up with identical boxes, but the left padding (50%) of their
    identical children differs. *)
Theorem C65_relative_root_refuted : exists (n n' m m' : doc) k j b c bn bm,
  boxed n /\ boxed m /\ layout idsty screen true n = (n', Ok tt) /\ layout idsty screen true m = (m', Ok tt)
  /\ laid idsty n' (Some n') k /\ laid idsty m' (Some m') j /\ n_style k = n_style j
  /\ n_box n' = Some bn /\ n_box m' = Some bm
  /\ lq (content_width bn) = lq (content_width bm) /\ lq (content_height bn) = lq (content_height bm)
  /\ n_box k = Some b /\ n_box j = Some c /\ nval (padding_left b) <> nval (padding_left c).
Proof.
  set (ks := [el (s_padding zero_px zero_px zero_px (pctu 50) block_style) []]).
  set (n := el (s_position PRelative (s_size Auto (Len (pxu 100)) block_style)) ks).
  set (m := el (s_position PRelative (s_size Auto (Len (pxu 200)) block_style)) ks).
  exists n, (out true n), m, (out true m), (kid 0 (out true n)), (kid 0 (out true m)).
  exists (bx (kid 0 (out true n))), (bx (kid 0 (out true m))), (bx (out true n)), (bx (out true m)).
  assert (B : forall k, In k ks -> boxed k) by (intros k [<-|[]]; constructor; intros ? []).
  split; [constructor; exact B|]. split; [constructor; exact B|].
  split; [apply ok_layout; vm_compute; reflexivity|]. split; [apply ok_layout; vm_compute; reflexivity|].
  split; [apply laid_out_kid with (op := None); [apply laid_out_root|]; vm_compute; reflexivity|].
  split; [apply laid_out_kid with (op := None); [apply laid_out_root|]; vm_compute; reflexivity|].
  do 7 (split; [vm_compute; reflexivity|]).
  intros E. apply qc_eq' in E. vm_compute in E. discriminate.
Qed.

(** C66: 10% paddings on all sides of a child of a static 1000px wide parent:
    100px at the top and bottom, 0 at the left and right; 10% margins give 0
    at the top. *)
Theorem C66_axis_refuted : exists (n n' : doc) k b u,
  boxed n /\ layout idsty screen true n = (n', Ok tt) /\ laid idsty n' (Some n') k
  /\ is_block_level (n_style k) = true /\ n_box k = Some b
  /\ st_padding_left (n_style k) = u /\ st_padding_top (n_style k) = u /\ st_margin_top (n_style k) = Len u
  /\ length_is (width_ctx screen (Some n')) u (Z2Qc 100)
  /\ nval (padding_top b) = Z2Qc 100 /\ nval (padding_left b) = 0 /\ lq (margin_top b) = Some 0%Q.
Proof.
  set (ks := [el (s_margin (Len (pctu 10)) (Len (pctu 10)) (Len (pctu 10)) (Len (pctu 10))
     (s_padding (pctu 10) (pctu 10) (pctu 10) (pctu 10) block_style)) []]).
  set (n := el block_style ks).
  exists n, (out true n), (kid 0 (out true n)), (bx (kid 0 (out true n))), (pctu 10).
  split; [constructor; intros k [<-|[]]; constructor; intros ? []|].
  split; [apply ok_layout; vm_compute; reflexivity|].
  split; [apply laid_out_kid with (op := None); [apply laid_out_root|]; vm_compute; reflexivity|].
  do 5 (split; [vm_compute; reflexivity|]).
  split; [eexists; split; [vm_compute; reflexivity|apply qc_eq; vm_compute; reflexivity]|].
  split; [apply qc_eq; vm_compute; reflexivity|]. split; [apply qc_eq; vm_compute; reflexivity|].
  vm_compute. reflexivity.
Qed.

(** ** Concrete instances of the hypotheses *)
(** A root with a centred child (odd space), an over-constrained rtl child with
    clamped width, and a child with auto width and percentage margins. *)
Definition ex_kids : list doc :=
  [ el (wpx 99 (auto_h block_style)) [];
    el (s_direction RTL (s_margin (Len zero_px) (Len (pxu 20)) (Len zero_px) (Len (pxu 10))
        (s_limits (Len (pxu 150)) Auto (Some (pxu 120)) None (wpx 300 (s_padding zero_px (pxu 7) zero_px (pxu 3) block_style))))) [];
    el (s_margin Auto (Len (pctu 10)) (Len (pxu 5)) (Len (pctu 10)) (s_padding (pctu 1) zero_px (pctu 1) zero_px block_style)) [];
    el (s_margin (Len zero_px) (Len (pxu 10)) (Len zero_px) (Len (pxu 20))
        (s_limits (Len (pxu 150)) Auto (Some (pxu 120)) None (wpx 300 (s_padding zero_px (pxu 3) zero_px (pxu 7) block_style)))) [] ].
Definition ex_doc : doc := el block_style ex_kids.

Example horizontal_example :
  boxed ex_doc /\ layout idsty screen true ex_doc = (out true ex_doc, Ok tt)
  /\ (forall i, In i [0;1;2;3]%nat -> laid idsty (out true ex_doc) (Some (out true ex_doc)) (kid i (out true ex_doc))
       /\ is_block_level (n_style (kid i (out true ex_doc))) = true)
  /\ map (fun k => (lq (margin_left (bx k)), lq (content_width (bx k)), lq (margin_right (bx k)))) (n_kids (out true ex_doc))
     = [ (Some 450, Some 99, Some 450); (Some 820, Some 150, Some 20); (Some 100, Some 800, Some 100);
         (Some 20, Some 150, Some 820) ]%Q
  /\ mirrored (n_style (kid 1 (out true ex_doc))) (n_style (kid 3 (out true ex_doc)))
  /\ edges_absolute (n_style (kid 1 (out true ex_doc))).
Proof.
  split.
  { constructor. intros k H. repeat (destruct H as [<-|H]; [constructor; intros ? []|]). destruct H. }
  split; [apply ok_layout; vm_compute; reflexivity|]. split.
  { intros i H. repeat (destruct H as [<-|H]; [split; [apply laid_out_kid with (op := None); [apply laid_out_root|]|]; vm_compute; reflexivity|]). destruct H. }
  split; [vm_compute; reflexivity|]. split; [split; vm_compute; reflexivity|].
  split; [vm_compute; discriminate|]. split; [vm_compute; discriminate|].
  split; intros u E; vm_compute in E; injection E as <-; vm_compute; discriminate.
Qed.
(** Overflowing blocks, for the last part of C72. *)
Example overflow_example : exists b W,
  let n' := out false (el (s_direction RTL (wpx 1200 (auto_h block_style))) []) in
  layout idsty screen false (el (s_direction RTL (wpx 1200 (auto_h block_style))) []) = (n', Ok tt)
  /\ laid idsty n' None n' /\ n_box n' = Some b /\ containing_width screen (@None doc) = LNum W
  /\ nval W < h_edges b + Z2Qc 1200
  /\ (lq (margin_left b), lq (content_width b), lq (margin_right b)) = (Some (-200), Some 1200, Some 0)%Q.
Proof.
  do 2 eexists. split; [apply ok_layout; vm_compute; reflexivity|].
  split; [apply laid_out_root; vm_compute; reflexivity|]. split; [vm_compute; reflexivity|]. split; [reflexivity|].
  split; vm_compute; reflexivity.
Qed.

Print Assumptions C71_horizontal_equation.
Print Assumptions C43_width_equation_partial.
Print Assumptions C72_auto_margins.
Print Assumptions C44_auto_margins_partial.
Print Assumptions C73_explicit_width_clamped.
Print Assumptions C45_width_limits_partial.
Print Assumptions C46_over_constrained.
Print Assumptions C46_mirror.
Print Assumptions C74_horizontal_locality.
Print Assumptions C65_horizontal_locality_partial.
Print Assumptions C66_percentages_of_width_partial.
Print Assumptions C43_centred_odd_refuted.
Print Assumptions C44_overflow_refuted.
Print Assumptions C44_odd_space_refuted.
Print Assumptions C45_auto_width_refuted.
Print Assumptions C63_border_style_none_refuted.
Print Assumptions C65_relative_root_refuted.
Print Assumptions C66_axis_refuted.

(** ** The hypotheses of each theorem, for the children of [ex_doc] *)
Ltac case_tac := repeat match goal with
  | |- _ /\ _ => split
  | |- layout idsty screen _ _ = _ => apply ok_layout; vm_compute; reflexivity
  | |- laid idsty _ _ _ => solve [laid_tac]
  | |- ready idsty _ => apply boxed_ready; solve_boxed
  | |- boxed _ => solve_boxed
  | |- ~ _ => intros ?; repeat match goal with H : _ /\ _ |- _ => destruct H end; vm_compute in *; congruence
  | |- _ => vm_compute; reflexivity
  end.
Notation ex_out := (out true ex_doc).
Notation ex_kid i := (kid i (out true ex_doc)).
Notation h_view k := (lq (margin_left (bx k)), lq (content_width (bx k)), lq (margin_right (bx k))).
Example C71_example : layout idsty screen true ex_doc = (ex_out, Ok tt) /\ laid idsty ex_out (Some ex_out) (ex_kid 0) /\ is_block_level (n_style (ex_kid 0)) = true
  /\ h_view (ex_kid 0) = (Some 450, Some 99, Some 450)%Q.
Proof. case_tac. Qed.
Example C43_example : layout idsty screen true ex_doc = (ex_out, Ok tt) /\ laid idsty ex_out (Some ex_out) (ex_kid 1) /\ is_block_level (n_style (ex_kid 1)) = true
  /\ ~ (st_margin_left (n_style (ex_kid 1)) = Auto /\ st_margin_right (n_style (ex_kid 1)) = Auto /\ st_width (n_style (ex_kid 1)) <> Auto)
  /\ h_view (ex_kid 1) = (Some 820, Some 150, Some 20)%Q.
Proof. case_tac. Qed.
Example C72_example : layout idsty screen true ex_doc = (ex_out, Ok tt) /\ laid idsty ex_out (Some ex_out) (ex_kid 0) /\ is_block_level (n_style (ex_kid 0)) = true
  /\ st_margin_left (n_style (ex_kid 0)) = Auto /\ st_margin_right (n_style (ex_kid 0)) = Auto /\ st_width (n_style (ex_kid 0)) <> Auto.
Proof. case_tac. Qed.
Example C44_example : layout idsty screen true ex_doc = (ex_out, Ok tt) /\ laid idsty ex_out (Some ex_out) (ex_kid 0) /\ is_block_level (n_style (ex_kid 0)) = true
  /\ st_margin_left (n_style (ex_kid 0)) = Auto /\ st_margin_right (n_style (ex_kid 0)) = Auto /\ st_width (n_style (ex_kid 0)) <> Auto.
Proof. case_tac. Qed.
Example C73_example : exists mn mx, layout idsty screen true ex_doc = (ex_out, Ok tt) /\ laid idsty ex_out (Some ex_out) (ex_kid 1) /\ is_block_level (n_style (ex_kid 1)) = true
  /\ st_width (n_style (ex_kid 1)) = Len (pxu 300) /\ st_min_width (n_style (ex_kid 1)) = Len mn /\ st_max_width (n_style (ex_kid 1)) = Some mx
  /\ u_val mn = PI 150 /\ u_val mx = PI 120.
Proof. do 2 eexists. case_tac. Qed.
Example C45_example : layout idsty screen true ex_doc = (ex_out, Ok tt) /\ laid idsty ex_out (Some ex_out) (ex_kid 1) /\ is_block_level (n_style (ex_kid 1)) = true
  /\ st_width (n_style (ex_kid 1)) = Len (pxu 300) /\ st_min_width (n_style (ex_kid 1)) = Len (pxu 150).
Proof. case_tac. Qed.
Example C46_example : layout idsty screen true ex_doc = (ex_out, Ok tt) /\ laid idsty ex_out (Some ex_out) (ex_kid 1) /\ is_block_level (n_style (ex_kid 1)) = true
  /\ st_width (n_style (ex_kid 1)) = Len (pxu 300) /\ st_margin_left (n_style (ex_kid 1)) = Len (pxu 10) /\ st_margin_right (n_style (ex_kid 1)) = Len (pxu 20)
  /\ st_direction (n_style (ex_kid 1)) = RTL.
Proof. case_tac. Qed.
Example C46_mirror_example : laid idsty ex_out (Some ex_out) (ex_kid 1) /\ laid idsty ex_out (Some ex_out) (ex_kid 3)
  /\ mirrored (n_style (ex_kid 1)) (n_style (ex_kid 3)) /\ edges_absolute (n_style (ex_kid 1)).
Proof. split; [laid_tac|]. split; [laid_tac|]. split; apply horizontal_example. Qed.
(** The third child again, alone in a taller parent. *)
Definition ex_alone : doc := el (hpx 77 block_style) [el (n_style (nth 2 ex_kids ex_doc)) [el (hpx 5 block_style) []]].
Notation al_out := (out false ex_alone).
Example C74_example : layout idsty screen true ex_doc = (ex_out, Ok tt) /\ ready idsty ex_doc /\ laid idsty ex_out None ex_out
  /\ layout idsty screen false ex_alone = (al_out, Ok tt) /\ ready idsty ex_alone /\ laid idsty al_out None al_out
  /\ n_style (ex_kid 2) = n_style (kid 0 al_out) /\ is_block_level (n_style (ex_kid 2)) = true /\ is_relative (n_style (ex_kid 2)) = false
  /\ is_relative (n_style ex_out) = false /\ is_relative (n_style al_out) = false
  /\ containing_width screen (Some ex_out) = containing_width screen (Some al_out)
  /\ height_ref idsty screen (Some ex_out) = height_ref idsty screen (Some al_out)
  /\ h_view (kid 0 al_out) = (Some 100, Some 800, Some 100)%Q.
Proof. case_tac. Qed.
Example C65_example : laid idsty ex_out (Some ex_out) (ex_kid 2) /\ laid idsty al_out (Some al_out) (kid 0 al_out)
  /\ n_style (ex_kid 2) = n_style (kid 0 al_out) /\ is_relative (n_style ex_out) = false /\ is_relative (n_style al_out) = false
  /\ containing_width screen (Some ex_out) = containing_width screen (Some al_out).
Proof. case_tac. Qed.
Example C66_example : layout idsty screen true ex_doc = (ex_out, Ok tt) /\ laid idsty ex_out (Some ex_out) (ex_kid 2) /\ is_block_level (n_style (ex_kid 2)) = true
  /\ st_width (n_style (ex_kid 2)) = Auto /\ st_margin_left (n_style (ex_kid 2)) = Len (pctu 10) /\ st_margin_right (n_style (ex_kid 2)) = Len (pctu 10)
  /\ this (nval (padding_top (bx (ex_kid 2)))) = 10%Q.
Proof. case_tac. Qed.
