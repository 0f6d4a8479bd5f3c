(** * When layout succeeds: lemmas *)
From Coq Require Import ZArith QArith Qcanon Lqa Lia Bool Btauto List String.
From Verif Require Import PyNum NumFacts Units UnitsSpec UnitsFacts BoxModel BoxSpec BoxFacts Engine EnginePure EngineFacts EngineSpec
  EngineTree EngineWidth EngineHeight EngineTotal EngineFuel RefLayout RefFacts OkSpec.
Import ListNotations.

Definition okb {A} (r : res A) : bool := match r with Ok _ => true | Err _ => false end.
Definition isn (v : lval) : bool := match v with LNum _ => true | _ => false end.
Lemma okb_bind {A B} (r : res A) (f : A -> res B) : okb (bindr r f) = match r with Ok a => okb (f a) | Err _ => false end.
Proof. destruct r; reflexivity. Qed.
Lemma okb_bind_const {A B} (r : res A) (f : A -> res B) v : (forall a, okb (f a) = v) -> okb (bindr r f) = okb r && v.
Proof. intros H. rewrite okb_bind. destruct r; [apply H|reflexivity]. Qed.
Lemma okb_ex {A} (r : res A) : okb r = true <-> exists a, r = Ok a.
Proof. destruct r; split; try discriminate; eauto. intros (? & ?). discriminate. Qed.
Lemma isn_isnum v : isn v = true <-> isnum v.
Proof. destruct v; split; try discriminate; intros H; try apply isnum_num; try reflexivity; destruct H; discriminate. Qed.
Lemma is_size_isn v o : is_size v o -> isn v = some o.
Proof. destruct o; cbn; [intros (x & -> & _); reflexivity|intros ->; reflexivity]. Qed.

(** ** Lengths *)
Definition xfin (x : xq) : bool := match x with Fin _ => true | _ => false end.
Lemma xfin_mul x y : xfin (xmul x y) = xfin x && xfin y.
Proof. destruct x, y; cbn; try reflexivity; match goal with |- context[qc_eqb ?a ?b] => destruct (qc_eqb a b) end; reflexivity. Qed.
Lemma xround_ok x : okb (xround x) = xfin x. Proof. destruct x; reflexivity. Qed.
Lemma finite_xfin p : finite p = xfin (pval p). Proof. destruct p as [z|[]]; reflexivity. Qed.
Lemma px_ok c u : okb (px c u) = measurable (isn (c_size c)) u.
Proof.
  destruct u as [k v]. unfold px, lu, measurable. cbn [u_kind u_val]. rewrite (okb_bind_const _ _ true) by reflexivity. rewrite andb_true_r.
  rewrite finite_xfin. unfold lu64, nx.
  destruct k as [|s|s sc|s sc| |s sc].
  - rewrite xround_ok, xfin_mul. cbn [xfin]. btauto.
  - unfold font_attr. destruct (String.eqb s "em"); [|destruct (String.eqb s "ex"); [|destruct (String.eqb s "ch")]]; cbn [bindr orb okb];
      rewrite ?xround_ok, ?xfin_mul; cbn [xfin]; btauto.
  - rewrite xround_ok, !xfin_mul. cbn [xfin]. btauto.
  - rewrite xround_ok, !xfin_mul. cbn [xfin]. btauto.
  - destruct (c_size c); cbn [as_num bindr okb isn]; rewrite ?xround_ok, ?xfin_mul; cbn [xfin]; btauto.
  - cbn [okb]. btauto.
Qed.
Lemma calc_len_ok c u : okb (calc_len c u) = measurable (isn (c_size c)) u.
Proof. rewrite calc_len_px. apply px_ok. Qed.
Lemma calc_margin_ok c v : okb (calc_margin c v) = measurable_or_auto (isn (c_size c)) v.
Proof. destruct v as [|u]; [reflexivity|]. cbn [calc_margin measurable_or_auto]. rewrite (okb_bind_const _ _ true) by reflexivity. rewrite andb_true_r. apply calc_len_ok. Qed.
Lemma calc_border_ok c v : okb (calc_border c v) = measurable_border (isn (c_size c)) v.
Proof. destruct v as [|u]; [reflexivity|]. apply calc_len_ok. Qed.
Lemma clamped_ok s u c : isn (c_size c) = true ->
  okb (clamped_width s u c) = measurable true u && measurable_if_any true (st_max_width s) && measurable_or_auto true (st_min_width s).
Proof.
  intros N. unfold clamped_width. pose proof (px_ok c u) as P. rewrite N in P. rewrite <- P. rewrite okb_bind. destruct (px c u) as [w|]; [|reflexivity].
  cbn [okb andb]. rewrite okb_bind.
  assert (E : okb (match st_max_width s with None => Ok w | Some m => mx <-r px c m;; Ok (if nltb mx w then mx else w) end) = measurable_if_any true (st_max_width s)).
  { destruct (st_max_width s) as [m|]; [|reflexivity]. rewrite (okb_bind_const _ _ true) by reflexivity. rewrite andb_true_r, px_ok, N. reflexivity. }
  rewrite <- E. match goal with |- match ?e with _ => _ end = _ => destruct e as [w1|] end; [|reflexivity]. cbn [okb andb].
  destruct (st_min_width s) as [|m]; [reflexivity|]. rewrite (okb_bind_const _ _ true) by reflexivity. rewrite andb_true_r, px_ok, N. reflexivity.
Qed.

(** ** The width phase *)
Definition all_edges (s : style) (hz vt : ctx) : bool :=
  okb (calc_margin vt (st_margin_top s)) && okb (calc_margin hz (st_margin_right s))
  && okb (calc_margin vt (st_margin_bottom s)) && okb (calc_margin hz (st_margin_left s))
  && okb (calc_border hz (st_border_top s)) && okb (calc_border vt (st_border_right s))
  && okb (calc_border hz (st_border_bottom s)) && okb (calc_border vt (st_border_left s))
  && okb (calc_len hz (st_padding_top s)) && okb (calc_len vt (st_padding_right s))
  && okb (calc_len hz (st_padding_bottom s)) && okb (calc_len vt (st_padding_left s)).
Lemma all_edges_ok a s hz vt : isn (c_size hz) = w_known a -> isn (c_size vt) = h_known a -> all_edges s hz vt = edges_ok a s.
Proof.
  intros E1 E2. unfold all_edges, edges_ok. rewrite !calc_margin_ok, !calc_border_ok, !calc_len_ok, E1, E2. cbn [forallb]. btauto.
Qed.
Lemma run_lift_mod {A} (r : res A) f b : run (bbind (blift r) (fun v => bmod (f v))) b = (v <-r r ;; Ok (f v b, tt)).
Proof. destruct r; reflexivity. Qed.
Lemma copy_edges_ok s hz vt b : okb (run (copy_edges s hz vt) b) = all_edges s hz vt.
Proof.
  unfold copy_edges, all_edges.
  rewrite run_bind, run_lift_mod; destruct (calc_margin vt (st_margin_top s)); [|reflexivity]; cbn [bindr fst snd okb andb].
  rewrite run_bind, run_lift_mod; destruct (calc_margin hz (st_margin_right s)); [|reflexivity]; cbn [bindr fst snd okb andb].
  rewrite run_bind, run_lift_mod; destruct (calc_margin vt (st_margin_bottom s)); [|reflexivity]; cbn [bindr fst snd okb andb].
  rewrite run_bind, run_lift_mod; destruct (calc_margin hz (st_margin_left s)); [|reflexivity]; cbn [bindr fst snd okb andb].
  rewrite run_bind, run_lift_mod; destruct (calc_border hz (st_border_top s)); [|reflexivity]; cbn [bindr fst snd okb andb].
  rewrite run_bind, run_lift_mod; destruct (calc_border vt (st_border_right s)); [|reflexivity]; cbn [bindr fst snd okb andb].
  rewrite run_bind, run_lift_mod; destruct (calc_border hz (st_border_bottom s)); [|reflexivity]; cbn [bindr fst snd okb andb].
  rewrite run_bind, run_lift_mod; destruct (calc_border vt (st_border_left s)); [|reflexivity]; cbn [bindr fst snd okb andb].
  rewrite run_bind, run_lift_mod; destruct (calc_len hz (st_padding_top s)); [|reflexivity]; cbn [bindr fst snd okb andb].
  rewrite run_bind, run_lift_mod; destruct (calc_len vt (st_padding_right s)); [|reflexivity]; cbn [bindr fst snd okb andb].
  rewrite run_bind, run_lift_mod; destruct (calc_len hz (st_padding_bottom s)); [|reflexivity]; cbn [bindr fst snd okb andb].
  rewrite run_lift_mod; destruct (calc_len vt (st_padding_left s)); reflexivity.
Qed.
(** After copying the edges. *)
Definition top_is (s : style) (b : box) : Prop :=
  match st_margin_top s with Auto => margin_top b = LAuto | Len _ => isnum (margin_top b) end.
Lemma margin_notnone c v m old : calc_margin c v = Ok m -> notnone (lset m old).
Proof.
  intros H. apply lset_notnone. pose proof (calc_margin_none _ _ _ H). destruct m; [right; apply isnum_num|left; reflexivity|congruence].
Qed.
Lemma copy_edges_kinds s hz vt b b' u : run (copy_edges s hz vt) b = Ok (b', u) ->
  margins_set b' /\ top_is s b' /\ content_height b' = content_height b.
Proof.
  intros H. apply copy_edges_run in H.
  destruct H as (mt & mr & mb & ml & bt & br & bb & bl & pt & pr & pb & pl & C1 & C2 & C3 & C4 & _ & _ & _ & _ & _ & _ & _ & _ & ->).
  split; [|split; [|reflexivity]].
  - unfold with_edges, margins_set; cbn. repeat split; eapply margin_notnone; eassumption.
  - unfold top_is, with_edges; cbn. destruct (st_margin_top s) as [|t]; cbn [calc_margin] in C1.
    + apply Ok_inj in C1. subst mt. apply lset_auto.
    + apply bindr_ok in C1. destruct C1 as (p & _ & C1). apply Ok_inj in C1. subst mt. apply lset_isnum.
Qed.

Lemma kind_block s i : kind_of s i = Some Block -> is_float s = false /\ is_abspos s = false /\ is_inline s = false /\ is_block_level s = true /\ s_replaced i = false.
Proof. unfold kind_of, is_float, is_abspos, is_inline, is_block_level. destruct (st_float s), (st_position s), (st_display s) as [[]|], (s_replaced i); try discriminate; auto. Qed.
Lemma kind_image s i : kind_of s i = Some Image -> is_float s = false /\ is_abspos s = false /\ is_inline s = true /\ s_replaced i = true.
Proof. unfold kind_of, is_float, is_abspos, is_inline, is_block_level. destruct (st_float s), (st_position s), (st_display s) as [[]|], (s_replaced i); try discriminate; auto. Qed.
Lemma kind_word s i : kind_of s i = Some Word -> is_float s = false /\ is_abspos s = false /\ is_inline s = true /\ s_replaced i = false.
Proof. unfold kind_of, is_float, is_abspos, is_inline, is_block_level. destruct (st_float s), (st_position s), (st_display s) as [[]|], (s_replaced i); try discriminate; auto. Qed.
Lemma kind_none s i c b : kind_of s i = None -> okb (run (calculate_width s i c) b) = false.
Proof.
  unfold kind_of, calculate_width, is_float, is_abspos, is_inline, is_block_level, is_inline_block.
  destruct (st_float s), (st_position s), (st_display s) as [[]|], (s_replaced i); try discriminate; reflexivity.
Qed.
Lemma wp_okb {A} (m : BM A) Q b : wp m Q b -> okb (run m b) = true.
Proof. intros (b' & a & E & _). rewrite E. reflexivity. Qed.

(** What the width phase leaves behind. *)
Definition wdone_kinds (kd : layout_kind) (s : style) (i : size) (b : box) : Prop :=
  notnone (margin_top b) /\ notnone (margin_bottom b) /\ top_is s b /\ isn (content_width b) = width_known kd i.
Lemma left_edge_ok b : isnum (margin_left b) -> okb (run left_edge b) = true.
Proof. intros [x E]. apply (wp_okb _ (fun _ _ => True)). unfold left_edge. wps. exact I. Qed.
Lemma autos0_ok {A} (m : BM A) b : notnone (margin_left b) -> notnone (margin_right b) ->
  exists b', run (bbind auto_left0 (fun _ => bbind auto_right0 (fun _ => m))) b = run m b'
    /\ isnum (margin_left b') /\ isnum (margin_right b') /\ margin_top b' = margin_top b /\ margin_bottom b' = margin_bottom b
    /\ content_height b' = content_height b.
Proof.
  intros Nl Nr. destruct (zero_autos_run b) as (kl & kr & Z0).
  exists (set_hm b (zero_auto (margin_left b)) (zero_auto (margin_right b)) kl kr). split.
  - rewrite run_bind in Z0. rewrite run_bind. destruct (run auto_left0 b) as [[b1 []]|e]; [|discriminate Z0]. cbn [bindr fst snd] in Z0 |- *. rewrite run_bind, Z0. reflexivity.
  - destruct b; cbn in *. auto 10 using zero_auto_isnum.
Qed.
Lemma run_ok {A} (m : BM A) b : okb (run m b) = match run m b with Ok _ => true | Err _ => false end. Proof. reflexivity. Qed.

Lemma notnone_not v : notnone v -> v <> LNone.
Proof. intros [->|[x ->]]; discriminate. Qed.
Lemma image_width_ok s i c b : notnone (margin_left b) -> notnone (margin_right b) ->
  okb (run (inline_replaced_width s i c) b) = width_ok (mkAround (isn (c_size c)) true true None) Image s i.
Proof.
  intros Nl Nr. unfold inline_replaced_width.
  match goal with |- okb (run (bbind auto_left0 (fun _ => bbind auto_right0 (fun _ => ?m))) b) = _ => destruct (autos0_ok m b Nl Nr) as (b0 & -> & L & R & _) end.
  rewrite run_bind, okb_bind.
  match goal with |- match run ?m b0 with _ => _ end = ?v =>
    assert (E : okb (run m b0) = v /\ (forall r, run m b0 = Ok r -> isnum (margin_left (fst r)))) end.
  { cbn [width_ok w_known]. destruct (st_width s) as [|u].
    - assert (B : forall x : num, okb (run (bret x) b0) = true /\ (forall r, run (bret x) b0 = Ok r -> isnum (margin_left (fst r)))).
      { intros x. split; [reflexivity|]. intros r H. apply Ok_inj in H. subst r. exact L. }
      destruct (st_height s), (s_width i), (s_height i), (s_ratio i); try apply B.
      unfold avail_width. destruct L as [l L], R as [r R]. split.
      + rewrite run_bind, run_lift. destruct (c_size c); [|reflexivity|reflexivity]. cbn [as_num bindr fst snd isn].
        apply (wp_okb _ (fun _ _ => True)). wps. exact I.
      + intros q H. apply avail_width_run in H. destruct H as (_ & ml & _ & _ & H & _ & -> & _). exists ml. exact H.
    - rewrite run_lift. rewrite <- px_ok. destruct (px c u); (split; [reflexivity|]); intros r H; inversion H; subst; exact L. }
  destruct E as [<- E]. match goal with |- match run ?m b0 with _ => _ end = _ => destruct (run m b0) as [[b1 w]|] end; [|reflexivity].
  destruct (E _ eq_refl) as [x Ex]. cbn [fst snd] in *. cbn [okb].
  apply (wp_okb _ (fun _ _ => True)). unfold left_edge. wps. destruct b1; cbn in *. eapply wp_num; [exact Ex|]. wps. exact I.
Qed.

Lemma wphase_ok kd a s i hz vt b : kind_of s i = Some kd -> isn (c_size hz) = w_known a -> isn (c_size vt) = h_known a ->
  okb (wphase s i hz vt b) = edges_ok a s && width_ok a kd s i.
Proof.
  intros K E1 E2. rewrite <- (all_edges_ok a s hz vt E1 E2), <- (copy_edges_ok s hz vt b). unfold wphase. rewrite okb_bind.
  destruct (run (copy_edges s hz vt) b) as [[b1 []]|] eqn:Ec; [|reflexivity]. cbn [okb andb fst].
  rewrite (okb_bind_const _ _ true) by reflexivity. rewrite andb_true_r.
  apply copy_edges_kinds in Ec. destruct Ec as ((M1 & M2 & M3 & M4) & _). unfold calculate_width. destruct kd.
  - destruct (kind_block _ _ K) as (-> & -> & -> & -> & ->). cbn [width_ok]. rewrite <- E1.
    apply eq_true_iff_eq. split; intros H.
    + apply okb_ex in H. destruct H as ([b2 ol] & H). apply block_width_run in H; [|apply notnone_not; assumption|apply notnone_not; assumption].
      destruct H as (W & _ & _ & _ & _ & w0 & _ & _ & N & _ & _ & _ & H & _). rewrite N. cbn [isn andb].
      destruct (st_width s) as [|u]; [reflexivity|]. destruct H as (x & H & _).
      rewrite <- (clamped_ok s u hz) by (rewrite N; reflexivity). rewrite H. reflexivity.
    + apply andb_prop in H. destruct H as [N H]. apply (wp_okb _ (fun _ => ok_width)). apply block_width_total; try assumption.
      * apply isn_isnum, N.
      * intros u Eu. rewrite Eu in H. rewrite <- (clamped_ok s u hz N) in H. apply okb_ex, H.
  - destruct (kind_image _ _ K) as (-> & -> & -> & ->). rewrite image_width_ok by assumption. rewrite E1. reflexivity.
  - destruct (kind_word _ _ K) as (-> & -> & -> & ->). reflexivity.
Qed.
Lemma wphase_kinds kd s i hz vt b b' : kind_of s i = Some kd -> wphase s i hz vt b = Ok b' ->
  wdone_kinds kd s i b' /\ content_height b' = content_height b.
Proof.
  intros K H. pose proof (wphase_fix _ _ _ _ _ _ H) as (_ & Fh & _). split; [|exact Fh]. unfold wphase in H.
  destruct (run (copy_edges s hz vt) b) as [[b1 []]|] eqn:Ec; [|discriminate]. cbn [bindr fst] in H.
  apply copy_edges_kinds in Ec. destruct Ec as ((M1 & M2 & M3 & M4) & T & _).
  destruct (run (calculate_width s i hz) b1) as [[b2 ol]|] eqn:E2; [|discriminate]. cbn [bindr fst snd] in H. apply Ok_inj in H.
  assert (C : cfix b1 b2).
  { pose proof (calculate_width_cfix s i hz b1) as Q. unfold run in E2. destruct (calculate_width s i hz b1) as [b3 [a|e]]; [|discriminate].
    apply Ok_inj in E2. injection E2 as -> ->. exact Q. }
  assert (W : isn (content_width b2) = width_known kd i).
  { unfold calculate_width in E2. destruct kd.
    - destruct (kind_block _ _ K) as (F1 & F2 & F3 & F4 & F5). rewrite F1, F2, F3, F4, F5 in E2.
      apply block_width_run in E2; [|apply notnone_not; assumption|apply notnone_not; assumption].
      destruct E2 as (W & ml & mr & cw & _ & w0 & kl & kr & _ & -> & _). destruct b1; reflexivity.
    - destruct (kind_image _ _ K) as (F1 & F2 & F3 & F4). rewrite F1, F2, F3, F4 in E2. unfold inline_replaced_width in E2.
      match type of E2 with run (bbind auto_left0 (fun _ => bbind auto_right0 (fun _ => ?m))) b1 = _ => destruct (autos0_ok m b1 M4 M2) as (b0 & Q & _) end.
      rewrite Q in E2. clear Q. rewrite run_bind in E2. match type of E2 with bindr ?m _ = _ => destruct m as [[b4 w]|]; [|discriminate] end.
      cbn [bindr fst snd] in E2. run_simpl E2. destruct (run left_edge (upd_content_width (LNum w) b4)) as [[b5 l]|] eqn:El; [|discriminate].
      apply left_edge_run in El. destruct El as (ml' & _ & El2 & _). cbn [bindr fst snd] in *. subst b5. run_simpl E2. apply Ok_inj in E2. injection E2 as <- _.
      destruct b4; reflexivity.
    - destruct (kind_word _ _ K) as (F1 & F2 & F3 & F4). rewrite F1, F2, F3, F4 in E2. unfold inline_non_replaced_width in E2.
      match type of E2 with run (bbind auto_left0 (fun _ => bbind auto_right0 (fun _ => ?m))) b1 = _ => destruct (autos0_ok m b1 M4 M2) as (b0 & Q & _) end.
      rewrite Q in E2. run_simpl E2. apply Ok_inj in E2. injection E2 as <- _. cbn [width_known]. destruct b0, (s_width i); reflexivity. }
  unfold cfix in C. destruct C as (_ & _ & _ & C1 & C2 & _).
  assert (G : wdone_kinds kd s i b2).
  { unfold wdone_kinds, top_is in *. replace (margin_top b2) with (margin_top b1) by congruence. replace (margin_bottom b2) with (margin_bottom b1) by congruence. auto. }
  subst b'. destruct ol; [|exact G]. destruct b2; exact G.
Qed.

(** ** The height phase *)
(** [last] is what [lb] says: is there a last child, and is its height known? *)
Definition last_is (last : option (option box)) (lb : option bool) : Prop :=
  lb = match last with None => None | Some None => Some false | Some (Some b) => Some (isn (content_height b)) end.
Lemma block_content_ok a s ph last c b lb i : isn (c_size c) = h_known a -> spec_h a = ph -> last_is last lb -> kind_of s i = Some Block ->
  okb (run (block_content_height s ph last c) b) = height_ok a Block s lb.
Proof.
  intros E1 E2 -> _. unfold block_content_height. cbn [height_ok]. destruct (st_height s) as [|u].
  - destruct last as [[l|]|].
    + rewrite run_bind, run_lift. unfold border_box_bottom, content_bottom. destruct (content_height l); reflexivity.
    + reflexivity.
    + destruct (st_min_height s) as [|m]; [reflexivity|]. rewrite run_lift. cbn [measurable_or_auto]. rewrite <- E1, <- px_ok. destruct (px c m); reflexivity.
  - rewrite run_bind, okb_bind, E2.
    match goal with |- match run ?m b with _ => _ end = ?x && _ => assert (E : okb (run m b) = x) end.
    { destruct ph as [pu|].
      - rewrite run_bind, run_lift, <- E1, <- px_ok. destruct (px c pu) as [p|]; [|reflexivity]. cbn [bindr fst snd okb andb].
        rewrite run_lift. change true with (isn (c_size (mkCtx (c_disp c) (c_font c) (LNum p)))). rewrite <- px_ok. destruct (px _ u); reflexivity.
      - rewrite run_lift, <- E1, <- px_ok. destruct (px c u); reflexivity. }
    rewrite <- E. match goal with |- match ?e with _ => _ end = _ => destruct e as [[b1 h]|] end; [|reflexivity]. cbn [okb andb fst snd].
    destruct (st_max_height s) as [m|]; [|reflexivity]. cbn [measurable_if_any]. rewrite run_bind, run_lift, <- E1, <- px_ok. destruct (px c m); reflexivity.
Qed.
Lemma autos_v_ok {A} (m : BM A) b : notnone (margin_top b) -> notnone (margin_bottom b) ->
  exists b', run (bbind auto_top0 (fun _ => bbind auto_bottom0 (fun _ => m))) b = run m b'
    /\ isnum (margin_top b') /\ content_width b' = content_width b.
Proof.
  intros Nt Nb. destruct (zero_auto_v_run b) as (kt & kb & Z0 & _).
  exists (set_vm b (zero_auto (margin_top b)) (zero_auto (margin_bottom b)) kt kb). split.
  - rewrite run_bind in Z0. rewrite run_bind. destruct (run auto_top0 b) as [[b1 []]|e]; [|discriminate Z0]. cbn [bindr fst snd] in Z0 |- *. rewrite run_bind, Z0. reflexivity.
  - destruct b; cbn in *. auto 10 using zero_auto_isnum.
Qed.
Lemma hphase_ok kd a s i ph last lb vt b : kind_of s i = Some kd -> isn (c_size vt) = h_known a -> spec_h a = ph -> last_is last lb ->
  notnone (margin_top b) -> notnone (margin_bottom b) -> (kd = Word -> top_is s b) -> isn (content_width b) = width_known kd i ->
  okb (hphase s i ph last vt b) = height_ok a kd s lb.
Proof.
  intros K E1 E2 L Nt Nb T W. unfold hphase. rewrite (okb_bind_const _ _ true) by reflexivity. rewrite andb_true_r. unfold calculate_height. destruct kd.
  - destruct (kind_block _ _ K) as (-> & -> & -> & -> & ->). unfold block_non_replaced_height.
    match goal with |- okb (run (bbind auto_top0 (fun _ => bbind auto_bottom0 (fun _ => ?m))) b) = _ => destruct (autos_v_ok m b Nt Nb) as (b0 & -> & _) end.
    rewrite run_bind, (okb_bind_const _ _ true), andb_true_r; [|intros [b1 h]; apply (wp_okb _ (fun _ _ => True)); wps; exact I].
    eapply block_content_ok; eassumption.
  - destruct (kind_image _ _ K) as (-> & -> & -> & ->). unfold inline_replaced_height.
    match goal with |- okb (run (bbind auto_top0 (fun _ => bbind auto_bottom0 (fun _ => ?m))) b) = _ => destruct (autos_v_ok m b Nt Nb) as (b0 & -> & T0 & W0) end.
    rewrite <- W0 in W. cbn [width_known] in W. apply isn_isnum in W. destruct W as [w W]. clear T W0.
    rewrite run_bind, okb_bind.
    match goal with |- match run ?m b0 with _ => _ end = ?v =>
      assert (E : okb (run m b0) = v /\ (forall r, run m b0 = Ok r -> fst r = b0)) end.
    { cbn [height_ok]. destruct (st_height s) as [|u].
      - assert (B1 : forall x : num, okb (run (bret x) b0) = true /\ (forall r, run (bret x) b0 = Ok r -> fst r = b0)).
        { intros x. split; [reflexivity|]. intros r H. apply Ok_inj in H. subst r. reflexivity. }
        assert (B2 : forall f : num -> num, okb (run (bbind (bnum content_width) (fun w => bret (f w))) b0) = true
          /\ (forall r, run (bbind (bnum content_width) (fun w => bret (f w))) b0 = Ok r -> fst r = b0)).
        { intros f. split; [apply (wp_okb _ (fun _ _ => True)); wps; exact I|]. intros r H. run_simpl H. rewrite W in H. cbn [as_num bindr fst snd] in H. run_simpl H. apply Ok_inj in H. subst r. reflexivity. }
        destruct (st_width s), (s_height i), (s_ratio i); try apply B1;
          repeat match goal with |- context[truthy ?x] => destruct (truthy x) end; first [apply B1|apply B2].
      - rewrite run_lift, <- E1, <- px_ok. destruct (px vt u); (split; [reflexivity|]); intros r H; inversion H; reflexivity. }
    destruct E as [<- E]. match goal with |- match run ?m b0 with _ => _ end = _ => destruct (run m b0) as [[b1 h]|] end; [|reflexivity].
    pose proof (E _ eq_refl) as Eb. cbn [fst snd] in *. subst b1. cbn [okb].
    apply (wp_okb _ (fun _ _ => True)). unfold top_edge. wps. destruct T0 as [x Ex]. destruct b0; cbn in *. eapply wp_num; [exact Ex|]. wps. exact I.
  - destruct (kind_word _ _ K) as (-> & -> & -> & ->). specialize (T eq_refl). unfold top_is in T. unfold inline_non_replaced_height, top_edge. cbn [height_ok].
    rewrite run_bind, run_mod. cbn [bindr fst snd]. rewrite run_bind, run_num.
    replace (margin_top (upd_content_height (lopt (s_height i)) b)) with (margin_top b) by (destruct b; reflexivity).
    destruct (st_margin_top s).
    + rewrite T. destruct (st_height s); reflexivity.
    + destruct T as [x ->]. destruct (st_height s); reflexivity.
Qed.
Lemma is_size_ctx v : exists q, forall x, v = LNum x -> nval x = q.
Proof. destruct v as [x| |]; [exists (nval x); intros y [= <-]; reflexivity|exists 0%Qc; discriminate|exists 0%Qc; discriminate]. Qed.
Lemma hphase_kinds kd s i ph last vt b b' : kind_of s i = Some kd -> c_font vt = dummy_font -> notnone (margin_top b) -> notnone (margin_bottom b) ->
  (kd = Word -> top_is s b) -> hphase s i ph last vt b = Ok b' ->
  isnum (margin_top b') /\ notnone (margin_bottom b') /\ (kd = Word -> top_is s b') /\ content_width b' = content_width b
  /\ isn (content_height b') = height_known kd i.
Proof.
  intros K F Nt Nb T H. destruct (is_size_ctx (c_size vt)) as (q & Hq). destruct (is_size_ctx (content_width b)) as (w & Hw).
  assert (C : ctx_is (c_disp vt) q vt) by (split; [reflexivity|]; split; [exact F|exact Hq]).
  pose proof (hphase_ref _ _ w _ _ _ _ _ _ _ C Hw H) as HD.
  split; [|split; [|split; [|split]]].
  - rewrite (hd_mt _ _ _ _ _ _ _ _ _ HD). apply zero_auto_isnum, Nt.
  - rewrite (hd_mb _ _ _ _ _ _ _ _ _ HD). destruct (_ && _); [exact Nb|]. right. apply zero_auto_isnum, Nb.
  - intros Ek. specialize (T Ek). unfold top_is in *. rewrite (hd_mt _ _ _ _ _ _ _ _ _ HD). destruct (st_margin_top s) eqn:E.
    + subst kd. exfalso. destruct (kind_word _ _ K) as (F1 & F2 & F3 & F4). unfold hphase, calculate_height in H. rewrite F1, F2, F3, F4 in H.
      apply bindr_ok in H. destruct H as (r & H & _). unfold inline_non_replaced_height in H. run_simpl H. apply top_edge_run in H. destruct H as (mt & H & _).
      replace (margin_top (upd_content_height (lopt (s_height i)) b)) with (margin_top b) in H by (destruct b; reflexivity). congruence.
    + apply zero_auto_isnum, Nt.
  - pose proof (hd_hv _ _ _ _ _ _ _ _ _ HD) as [S _]. unfold same_h in S. apply S.
  - rewrite (is_size_isn _ _ (hd_h _ _ _ _ _ _ _ _ _ HD)). unfold raw_height. destruct kd.
    + destruct (kind_block _ _ K) as (_ & _ & -> & _). reflexivity.
    + destruct (kind_image _ _ K) as (_ & _ & -> & ->). reflexivity.
    + destruct (kind_word _ _ K) as (_ & _ & -> & ->). cbn. destruct (s_height i); reflexivity.
Qed.

(** ** Offsets *)
Lemma rel_offset_ok a c st en cs ce : okb cs = negb (is_display a) -> okb ce = negb (is_display a) && isn (c_size c) ->
  okb (rel_offset c st en cs ce) = offsets_ok a (isn (c_size c)) st en.
Proof.
  intros E1 E2. destruct st as [| |u], en as [| |v]; cbn [rel_offset offsets_ok]; try reflexivity; rewrite ?px_ok; try reflexivity; try assumption.
  - rewrite (okb_bind_const _ _ true) by reflexivity. rewrite andb_true_r. exact E2.
  - rewrite (okb_bind_const _ _ true) by reflexivity. rewrite andb_true_r. apply px_ok.
Qed.

(** ** Trees *)
Section Tree.
Context {S : Type} (sty : S -> style).
Notation node := (node S).
Notation cblock := (@cblock S).

Definition around_is (d : display_t) (a : around) (cb : cblock) : Prop :=
  isn (cb_width d cb) = w_known a /\ isn (cb_height d cb) = h_known a
  /\ is_display a = match cb with CBView => true | _ => false end /\ spec_h a = cb_style_height sty cb.
Lemma shift_ok d f cb a s b : around_is d a cb ->
  okb (shift_box d f cb s b)
  = if relative s then offsets_ok a (w_known a) (st_left s) (st_right s) && offsets_ok a (h_known a) (st_top s) (st_bottom s) else true.
Proof.
  intros (Ew & Eh & Ed & _). unfold shift_box, relative, is_relative. destruct (st_position s); try reflexivity.
  rewrite okb_bind.
  assert (X : okb (rel_offset (hctx d f cb) (st_left s) (st_right s) (cb_attr (fun b => Ok (content_left b)) cb) (cb_attr content_right cb))
    = offsets_ok a (w_known a) (st_left s) (st_right s)).
  { rewrite <- Ew. change (cb_width d cb) with (c_size (hctx d f cb)). apply rel_offset_ok; rewrite Ed; destruct cb as [|s0 b0]; try reflexivity.
    cbn. unfold content_right. destruct (content_width b0); reflexivity. }
  rewrite <- X. match goal with |- match ?e with _ => _ end = _ => destruct e end; [|reflexivity]. cbn [okb andb].
  rewrite (okb_bind_const _ _ true) by reflexivity. rewrite andb_true_r.
  rewrite <- Eh. change (cb_height d cb) with (c_size (vctx d f cb)). apply rel_offset_ok; rewrite Ed; destruct cb as [|s0 b0]; try reflexivity.
  cbn. unfold content_bottom. destruct (content_height b0); reflexivity.
Qed.

Lemma block_child_level (k : node) : is_block_level (sty (n_style k)) = block_child sty k.
Proof. reflexivity. Qed.
Lemma pall_ok (lay : node -> res node) f ks : (forall k, In k ks -> okb (lay k) = f k) -> okb (pall lay ks) = forallb f ks.
Proof.
  induction ks as [|k ks IH]; intros H; [reflexivity|]. cbn [pall forallb]. rewrite <- (H k) by (left; reflexivity). rewrite okb_bind.
  destruct (lay k); [|reflexivity]. cbn [okb andb]. rewrite (okb_bind_const _ _ true) by reflexivity. rewrite andb_true_r. apply IH. intros; apply H; right; assumption.
Qed.
Lemma pall_last (lay : node -> res node) ks ks' : pall lay ks = Ok ks' ->
  match rev ks with [] => rev ks' = [] | k :: _ => exists k' r, rev ks' = k' :: r /\ lay k = Ok k' end.
Proof.
  revert ks'. induction ks as [|k ks IH]; intros ks' H; cbn [pall] in H; [apply Ok_inj in H; subst; reflexivity|].
  apply bindr_ok in H. destruct H as (k' & H1 & H). apply bindr_ok in H. destruct H as (ks2 & H2 & H). apply Ok_inj in H. subst ks'.
  specialize (IH _ H2). cbn [rev]. destruct (rev ks) as [|l r].
  - rewrite IH. cbn. eauto.
  - destruct IH as (l' & r' & -> & E). cbn. eauto.
Qed.
(** Block flow, for any way of laying out a block child that depends on the
    parent's box only through [P]. *)
Lemma pflow_true (lay : box -> node -> res node) ks b off bm : okb (pflow sty lay ks true b off bm) = negb (existsb (block_child sty) ks).
Proof.
  revert b off bm. induction ks as [|k ks IH]; intros b off bm; [reflexivity|]. cbn [pflow existsb]. rewrite block_child_level.
  destruct (block_child sty k); [reflexivity|]. rewrite (okb_bind_const _ _ true) by reflexivity. rewrite andb_true_r. apply IH.
Qed.
Lemma flow_stop (f : node -> bool) ks : negb (existsb (block_child sty) ks) = true ->
  forallb (fun k => if block_child sty k then f k else true) ks = true.
Proof. intros H. apply negb_true_iff in H. apply forallb_forall. intros k I. destruct (block_child sty k) eqn:E; [|reflexivity]. exfalso.
  assert (existsb (block_child sty) ks = true) by (apply existsb_exists; eauto). congruence. Qed.
Lemma pflow_ok (P : box -> Prop) (lay : box -> node -> res node) f ks :
  (forall b v, P b -> P (set_collapse_top v b)) ->
  (forall k b, In k ks -> block_child sty k = true -> P b -> okb (lay b k) = f k) ->
  (forall k b k', In k ks -> block_child sty k = true -> P b -> lay b k = Ok k' ->
     exists kb, n_box k' = Some kb /\ isnum (margin_top kb) /\ isn (content_height kb) = true) ->
  forall b off bm, P b -> okb (pflow sty lay ks false b off bm)
    = blocks_first sty ks && forallb (fun k => if block_child sty k then f k else true) ks.
Proof.
  intros HP. induction ks as [|k ks IH]; intros H1 H2 b off bm Pb; [reflexivity|]. cbn [pflow blocks_first forallb]. rewrite block_child_level.
  destruct (block_child sty k) eqn:Bk.
  - rewrite okb_bind. pose proof (H1 k b (or_introl eq_refl) Bk Pb) as Q. destruct (lay b k) as [k1|] eqn:L.
    + cbn [okb] in Q. rewrite <- Q. destruct (H2 k b k1 (or_introl eq_refl) Bk Pb L) as (kb & Eb & [t Et] & Eh). rewrite Eb. cbn [andb].
      unfold pplace, border_box_height. destruct (content_height kb) as [h| |]; try discriminate.
      assert (R : forall b0 off0 bm0, P b0 -> okb (r <-r pflow sty lay ks false b0 off0 bm0 ;; Ok (with_box (Some (move_top off0 kb)) k1 :: fst r, snd r))
        = blocks_first sty ks && forallb (fun k => if block_child sty k then f k else true) ks).
      { intros b0 off0 bm0 P0. rewrite (okb_bind_const _ _ true) by reflexivity. rewrite andb_true_r.
        apply IH; [intros; apply H1; try right; assumption|intros ? ? ? ?; apply H2; right; assumption|exact P0]. }
      rewrite Et. destruct bm as [m|]; cbn [as_num bindr].
      all: rewrite (okb_bind_const _ _ true) by reflexivity; rewrite andb_true_r.
      all: apply IH; [intros; apply H1; try right; assumption|intros ? ? ? ?; apply H2; right; assumption|auto].
    + cbn [okb] in Q. rewrite <- Q. cbn [andb]. rewrite andb_false_r. reflexivity.
  - rewrite (okb_bind_const _ _ true) by reflexivity. rewrite andb_true_r, pflow_true.
    destruct (negb _) eqn:E; [|reflexivity]. rewrite (flow_stop f ks E). reflexivity.
Qed.
Lemma pflow_last (P : box -> Prop) (lay : box -> node -> res node) ks : (forall b v, P b -> P (set_collapse_top v b)) ->
  forall pend b off bm ks' b', P b -> pflow sty lay ks pend b off bm = Ok (ks', b') ->
  P b' /\ match rev ks with
  | [] => rev ks' = []
  | k :: _ => exists k' r, rev ks' = k' :: r
      /\ if block_child sty k then exists b0 k1 kb v, P b0 /\ lay b0 k = Ok k1 /\ n_box k1 = Some kb /\ n_box k' = Some (move_top v kb) else k' = k
  end.
Proof.
  intros HP. induction ks as [|k ks IH]; intros pend b off bm ks' b' Pb H; cbn [pflow] in H; [apply Ok_inj in H; injection H as <- <-; split; [exact Pb|reflexivity]|].
  rewrite block_child_level in H. destruct (block_child sty k) eqn:Bk.
  - destruct pend; [discriminate|]. apply bindr_ok in H. destruct H as (k1 & L & H). destruct (n_box k1) as [kb|] eqn:Eb; [|discriminate].
    apply bindr_ok in H. destruct H as ([[[kb' b1] off1] bm1] & Hp & H). apply bindr_ok in H. destruct H as ([ks2 b2] & H2 & H). apply Ok_inj in H. injection H as <- <-. cbn [fst snd] in *.
    unfold pplace in Hp. apply bindr_ok in Hp. destruct Hp as (o & _ & Hp). apply bindr_ok in Hp. destruct Hp as (h & _ & Hp). apply Ok_inj in Hp. injection Hp as <- <- _ _.
    apply IH in H2; [|destruct bm; auto]. destruct H2 as [Pb' H2]. split; [exact Pb'|]. cbn [rev]. destruct (rev ks) as [|l r].
    + rewrite H2. cbn. do 2 eexists. split; [reflexivity|]. rewrite Bk. exists b, k1, kb. eexists. split; [exact Pb|]. split; [exact L|]. split; [exact Eb|]. destruct k1; reflexivity.
    + destruct H2 as (l' & r' & -> & E). cbn. eauto.
  - apply bindr_ok in H. destruct H as ([ks2 b2] & H2 & H). apply Ok_inj in H. injection H as <- <-. cbn [fst snd] in *.
    apply IH in H2; [|exact Pb]. destruct H2 as [Pb' H2]. split; [exact Pb'|]. cbn [rev]. destruct (rev ks) as [|l r].
    + rewrite H2. cbn. do 2 eexists. split; [reflexivity|]. rewrite Bk. reflexivity.
    + destruct H2 as (l' & r' & -> & E). cbn. eauto.
Qed.

(** ** One node *)
Lemma move_top_h v b : content_height (move_top v b) = content_height b. Proof. destruct b; reflexivity. Qed.
Lemma fresh_last ks : (forall k, In k ks -> fresh sty k) -> last_is (last_box ks) (last_boxed ks).
Proof.
  intros F. unfold last_is, last_boxed, last_box. destruct (rev ks) as [|k r] eqn:E; [reflexivity|].
  assert (I : In k ks) by (apply in_rev; rewrite E; left; reflexivity). destruct (fresh_nbox _ _ (F k I)) as [-> | ->]; reflexivity.
Qed.
(** A node after its layout. *)
Definition was_laid (n n' : node) : Prop :=
  match st_display (sty (n_style n)) with
  | None => n_box n' = None
  | Some _ => exists kd b, kind_of (sty (n_style n)) (n_intr n) = Some kd /\ n_box n' = Some b /\ isnum (margin_top b)
      /\ isn (content_height b) = height_known kd (n_intr n)
  end.
Lemma kind_hidden s i kd : kind_of s i = Some kd -> st_display s <> None.
Proof. unfold kind_of. destruct (st_float s), (st_position s), (st_display s); congruence. Qed.
Lemma block_kind s i kd : kind_of s i = Some kd -> is_block_level s = true -> kd = Block.
Proof. unfold kind_of, is_block_level. destruct (st_float s), (st_position s), (st_display s) as [[]|], (s_replaced i); congruence. Qed.
Lemma shift_same d f (cb : cblock) s b b' : shift_box d f cb s b = Ok b' -> margin_top b' = margin_top b /\ content_height b' = content_height b.
Proof.
  unfold shift_box. destruct (is_relative s); intros H; [|apply Ok_inj in H; subst; auto].
  apply bindr_ok in H. destruct H as (vl & _ & H). apply bindr_ok in H. destruct H as (vt & _ & H). apply Ok_inj in H. subst b'. destruct b; split; reflexivity.
Qed.
Theorem plb_okb fuel : forall d cb a n, (height n <= fuel)%nat -> fresh sty n -> around_is d a cb ->
  okb (plb sty fuel d dummy_font cb n) = can_lay sty a n
  /\ (forall n', plb sty fuel d dummy_font cb n = Ok n' -> was_laid n n').
Proof.
  induction fuel as [|fuel IH]; intros d cb a [s0 i bx ks] Hh Fr Ar; [cbn in Hh; lia|].
  cbn [plb can_lay]. unfold was_laid at 1. cbn [n_style n_intr]. destruct (st_display (sty s0)) as [dk|] eqn:Dk.
  2: { split; [reflexivity|]. intros n' H. apply Ok_inj in H. subst. reflexivity. }
  destruct (fresh_box _ _ _ _ _ Fr ltac:(congruence)) as [-> Fk]. set (s := sty s0) in *.
  destruct Ar as (Ew & Eh & Ed & Es). pose proof (conj Ew (conj Eh (conj Ed Es))) as Ar.
  destruct (kind_of s i) as [kd|] eqn:K.
  2: { assert (W : okb (wphase s i (hctx d dummy_font cb) (vctx d dummy_font cb) box0) = false).
       { unfold wphase. rewrite okb_bind. destruct (run (copy_edges _ _ _) _) as [[b []]|]; [|reflexivity]. cbn [fst]. rewrite okb_bind.
         pose proof (kind_none s i (hctx d dummy_font cb) b K) as Q. destruct (run _ b); [discriminate|reflexivity]. }
       destruct (wphase s i (hctx d dummy_font cb) (vctx d dummy_font cb) box0); [discriminate|]. cbn [bindr]. split; [reflexivity|discriminate]. }
  set (inner := mkAround (width_known kd i) (if relative s then height_known kd i else true) false (match st_height s with Auto => None | Len u => Some u end)).
  set (stacks := match dk with DBlock | DListItem => existsb (block_child sty) ks | _ => false end).
  rewrite <- (wphase_ok kd a s i (hctx d dummy_font cb) (vctx d dummy_font cb) box0 K Ew Eh).
  destruct (wphase s i (hctx d dummy_font cb) (vctx d dummy_font cb) box0) as [b1|] eqn:Wp; [|split; [reflexivity|discriminate]].
  cbn [bindr okb andb]. apply (wphase_kinds kd) in Wp; [|exact K]. destruct Wp as ((M1 & M2 & T & Wk) & Hc).
  (* the first height phase of relative nodes *)
  assert (R2 : okb (if is_relative s then hphase s i (cb_style_height sty cb) (last_box ks) (vctx d dummy_font cb) b1 else Ok b1)
      = (if relative s then height_ok a kd s (last_boxed ks) else true)
    /\ forall b2, (if is_relative s then hphase s i (cb_style_height sty cb) (last_box ks) (vctx d dummy_font cb) b1 else Ok b1) = Ok b2 ->
        notnone (margin_top b2) /\ notnone (margin_bottom b2) /\ (kd = Word -> top_is s b2) /\ isn (content_width b2) = width_known kd i
        /\ isn (content_height b2) = (if relative s then height_known kd i else true)).
  { change (is_relative s) with (relative s). destruct (relative s).
    - split; [apply hphase_ok; auto; apply fresh_last, Fk|]. intros b2 H. apply (hphase_kinds kd) in H; auto. destruct H as (Q1 & Q2 & Q3 & Q4 & Q5).
      rewrite Q4. split; [right; exact Q1|]. auto.
    - split; [reflexivity|]. intros b2 H. apply Ok_inj in H. subst b2. rewrite Hc. auto. }
  destruct R2 as [R2 R2']. destruct (if is_relative s then hphase s i (cb_style_height sty cb) (last_box ks) (vctx d dummy_font cb) b1 else Ok b1) as [b2|].
  2: { cbn [bindr okb] in *. destruct (relative s); [|discriminate]. rewrite <- R2. split; [reflexivity|discriminate]. }
  specialize (R2' b2 eq_refl). destruct R2' as (N1 & N2 & T2 & W2 & H2). cbn [okb bindr] in *.
  assert (Nf : is_abspos s = false /\ is_float s = false) by (destruct kd; [destruct (kind_block _ _ K)|destruct (kind_image _ _ K)|destruct (kind_word _ _ K)]; intuition).
  destruct Nf as [-> ->].
  (* the children *)
  pose (P := fun b : box => notnone (margin_top b) /\ notnone (margin_bottom b) /\ (kd = Word -> top_is s b) /\ isn (content_width b) = width_known kd i
    /\ isn (content_height b) = (if relative s then height_known kd i else true)).
  assert (Pc : forall b v, P b -> P (set_collapse_top v b)) by (intros b v; destruct b; exact (fun x => x)).
  assert (Pa : forall b, P b -> around_is d inner (CBNode s0 b)).
  { intros b (_ & _ & _ & X & Y). unfold around_is. cbn [cb_width cb_height cb_style_height w_known h_known is_display spec_h inner]. auto. }
  assert (Hk : forall k, In k ks -> (height k <= fuel)%nat) by (intros k I; pose proof (height_kid s0 i bx ks k I); lia).
  assert (L : forall k b, In k ks -> P b -> okb (plb sty fuel d dummy_font (CBNode s0 b) k) = can_lay sty inner k
      /\ (forall k', plb sty fuel d dummy_font (CBNode s0 b) k = Ok k' -> was_laid k k')).
  { intros k b I Pb. apply IH; [apply Hk, I|apply Fk, I|apply Pa, Pb]. }
  assert (St : establishes_inline sty (Node s0 i (Some b2) ks) = negb stacks).
  { unfold establishes_inline, is_block_container, stacks. cbn [n_style n_intr n_kids]. fold s. rewrite Dk.
    pose proof K as K'. unfold kind_of in K'. rewrite Dk in K'. destruct (st_float s), (st_position s), dk, (s_replaced i); try discriminate; reflexivity. }
  assert (Ch : okb (pchildren sty (plb sty fuel d dummy_font) s0 i b2 ks)
      = (if stacks then blocks_first sty ks && forallb (fun k => if block_child sty k then can_lay sty inner k else true) ks else forallb (can_lay sty inner) ks)
    /\ forall r, pchildren sty (plb sty fuel d dummy_font) s0 i b2 ks = Ok r -> P (snd r) /\ last_is (last_box (fst r)) (last_sized sty stacks ks)).
  { unfold pchildren. rewrite St. assert (P2 : P b2) by (repeat (split; [assumption|]); assumption). destruct stacks; cbn [negb].
    - split.
      + apply (pflow_ok P); [exact Pc| | |exact P2].
        * intros k b I _ Pb. apply L; assumption.
        * intros k b k' I Bk Pb E. pose proof (proj2 (L k b I Pb) k' E) as Q. unfold was_laid in Q. destruct (st_display (sty (n_style k))) eqn:Dq; [|unfold block_child in Bk; rewrite Dq in Bk; discriminate].
          destruct Q as (kd' & kb & K1 & K2 & K3 & K4). exists kb. split; [exact K2|]. split; [exact K3|]. rewrite K4. rewrite (block_kind _ _ _ K1 Bk). reflexivity.
      + intros [ks' b'] E. apply (pflow_last P _ _ Pc) in E; [|exact P2]. destruct E as [Pb' E]. split; [exact Pb'|]. cbn [fst].
        unfold last_is, last_box, last_sized. destruct (rev ks) as [|k r] eqn:Er; [rewrite E; reflexivity|].
        assert (I : In k ks) by (apply in_rev; rewrite Er; left; reflexivity).
        destruct E as (k' & r' & -> & E). destruct (block_child sty k) eqn:Bk; cbn [andb negb].
        * destruct E as (b0 & k1 & kb & v & Pb0 & E1 & E2 & ->). rewrite move_top_h.
          pose proof (proj2 (L k b0 I Pb0) _ E1) as Q. unfold was_laid in Q. destruct (st_display (sty (n_style k))) eqn:Dq; [|unfold block_child in Bk; rewrite Dq in Bk; discriminate].
          destruct Q as (kd' & kb' & K1 & K2 & K3 & K4). rewrite K1. rewrite E2 in K2. injection K2 as ->. rewrite K4. reflexivity.
        * subst k'. destruct (fresh_nbox _ _ (Fk k I)) as [-> | ->]; reflexivity.
    - split.
      + rewrite (okb_bind_const _ _ true) by reflexivity. rewrite andb_true_r. apply pall_ok. intros k I. apply L; assumption.
      + intros [ks' b'] E. apply bindr_ok in E. destruct E as (ks2 & E & E'). apply Ok_inj in E'. injection E' as <- <-. split; [exact P2|]. cbn [fst].
        apply pall_last in E. unfold last_is, last_box, last_sized. destruct (rev ks) as [|k r] eqn:Er; [rewrite E; reflexivity|].
        assert (I : In k ks) by (apply in_rev; rewrite Er; left; reflexivity).
        destruct E as (k' & r' & -> & E). cbn [andb]. pose proof (proj2 (L k b2 I P2) _ E) as Q. unfold was_laid in Q.
        destruct (st_display (sty (n_style k))) eqn:Dq.
        * destruct Q as (kd' & kb' & K1 & K2 & K3 & K4). rewrite K1, K2, K4. reflexivity.
        * rewrite Q. destruct (kind_of (sty (n_style k)) (n_intr k)) eqn:Kq; [|reflexivity]. apply kind_hidden in Kq. contradiction. }
  clear L St Pa Pc. destruct Ch as [Ch Ch'].
  assert (X : forall p q r c h : bool, r && (p && q) && c && h = r && c && h && (p && q)) by (intros; btauto).
  assert (Y : okb (r <-r pchildren sty (plb sty fuel d dummy_font) s0 i b2 ks ;;
      b3 <-r hphase s i (cb_style_height sty cb) (last_box (fst r)) (vctx d dummy_font cb) (snd r) ;;
      b4 <-r shift_box d dummy_font cb s b3 ;; Ok (Node s0 i (Some b4) (fst r)))
    = okb (pchildren sty (plb sty fuel d dummy_font) s0 i b2 ks) && height_ok a kd s (last_sized sty stacks ks)
      && if relative s then offsets_ok a (w_known a) (st_left s) (st_right s) && offsets_ok a (h_known a) (st_top s) (st_bottom s) else true).
  { destruct (pchildren sty (plb sty fuel d dummy_font) s0 i b2 ks) as [r|]; [|reflexivity]. cbn [bindr okb andb].
    destruct (Ch' r eq_refl) as ((Q1 & Q2 & Q3 & Q4 & _) & Lr).
    rewrite <- (hphase_ok kd a s i (cb_style_height sty cb) (last_box (fst r)) _ (vctx d dummy_font cb) (snd r) K Eh Es Lr Q1 Q2 Q3 Q4).
    destruct (hphase _ _ _ _ _ _) as [b3|]; [|reflexivity]. cbn [bindr okb andb]. rewrite (okb_bind_const _ _ true) by reflexivity. rewrite andb_true_r. apply shift_ok, Ar. }
  rewrite Y, Ch. split.
  - destruct (relative s); [rewrite <- R2|]; btauto.
  - intros n' H. apply bindr_ok in H. destruct H as (r & E1 & H). apply bindr_ok in H. destruct H as (b3 & E2 & H). apply bindr_ok in H. destruct H as (b4 & E3 & H).
    apply Ok_inj in H. subst n'. destruct (Ch' r E1) as ((Q1 & Q2 & Q3 & _) & _). apply (hphase_kinds kd) in E2; auto. destruct E2 as (H3 & _ & _ & _ & H4).
    apply shift_same in E3. destruct E3 as [E3 E4]. exists kd, b4. cbn [n_box]. rewrite E3, E4. auto.
Qed.
End Tree.
