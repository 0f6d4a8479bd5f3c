(** * Which exception layout raises: lemmas *)
From Coq Require Import ZArith QArith Qcanon Lqa Lia Bool List String.
From Verif Require Import PyNum NumFacts Units UnitsSpec UnitsFacts BoxModel BoxSpec BoxFacts Engine EnginePure EngineFacts EngineSpec
  EngineTree EngineWidth EngineHeight EngineTotal EngineFuel RefLayout RefFacts OkSpec OkFacts FaultSpec.
Import ListNotations.

(** A computation ends as the obstacle [o], if any, says. *)
Definition agrees {A} (r : res A) (o : option obstacle) : Prop :=
  match r, o with Ok _, None => True | Err e, Some o => reported_as o e | _, _ => False end.
Lemma agrees_bind {A B} (r : res A) (f : A -> res B) o o' :
  agrees r o -> (forall a, r = Ok a -> agrees (f a) o') -> agrees (bindr r f) (first o o').
Proof. destruct r as [a|e], o; cbn; try contradiction; intros H H'; [apply H'; reflexivity|exact H]. Qed.
Lemma agrees_bind_ok {A B} (r : res A) (f : A -> res B) o : agrees r o -> (forall a, r = Ok a -> okb (f a) = true) -> agrees (bindr r f) o.
Proof. destruct r as [a|e], o; cbn; try contradiction; intros H H'; [specialize (H' _ eq_refl); destruct (f a); [exact I|discriminate]|exact H]. Qed.
Lemma ok_agrees {A} (r : res A) : okb r = true -> agrees r None.
Proof. destruct r; [constructor|discriminate]. Qed.
Lemma agrees_okb {A} (r : res A) o : agrees r o -> okb r = match o with None => true | Some _ => false end.
Proof. destruct r, o; cbn; tauto. Qed.
Lemma first_none o : first o None = o. Proof. destruct o; reflexivity. Qed.

(** ** Lengths *)
Lemma xround_agrees x b : xfin x = b -> agrees (xround x) (unless b NotFinite).
Proof. intros <-. destruct x; cbn; auto. Qed.
Lemma px_agrees c u : agrees (px c u) (in_length (isn (c_size c)) u).
Proof.
  destruct u as [k v]. unfold px, lu, in_length. cbn [u_kind u_val]. apply agrees_bind_ok; [|reflexivity]. rewrite finite_xfin. unfold lu64, nx.
  destruct k as [|s|s sc|s sc| |s sc].
  - apply xround_agrees. rewrite xfin_mul. reflexivity.
  - unfold font_attr. destruct (String.eqb s "em"); [|destruct (String.eqb s "ex"); [|destruct (String.eqb s "ch")]]; cbn [bindr orb];
      try (apply xround_agrees; rewrite !xfin_mul; cbn [xfin]; rewrite !andb_true_r; reflexivity). reflexivity.
  - apply xround_agrees. rewrite !xfin_mul. cbn [xfin]. rewrite !andb_true_r. reflexivity.
  - apply xround_agrees. rewrite !xfin_mul. cbn [xfin]. rewrite !andb_true_r. reflexivity.
  - apply agrees_bind; [destruct (c_size c); cbn; auto|]. intros n _. apply xround_agrees. rewrite !xfin_mul. cbn [xfin]. rewrite !andb_true_r. reflexivity.
  - reflexivity.
Qed.
Lemma calc_len_agrees c u : agrees (calc_len c u) (in_length (isn (c_size c)) u).
Proof. rewrite calc_len_px. apply px_agrees. Qed.
Lemma calc_margin_agrees c v : agrees (calc_margin c v) (in_auto (isn (c_size c)) v).
Proof. destruct v as [|u]; [exact I|]. apply agrees_bind_ok; [apply calc_len_agrees|reflexivity]. Qed.
Lemma calc_border_agrees c v : agrees (calc_border c v) (in_border (isn (c_size c)) v).
Proof. destruct v as [|u]; [exact I|]. apply calc_len_agrees. Qed.
Lemma clamped_agrees s u c : agrees (clamped_width s u c)
  (first (in_length (isn (c_size c)) u) (first (in_any (isn (c_size c)) (st_max_width s)) (in_auto (isn (c_size c)) (st_min_width s)))).
Proof.
  unfold clamped_width. apply agrees_bind; [apply px_agrees|]. intros w _. apply agrees_bind.
  - destruct (st_max_width s) as [m|]; [|exact I]. apply agrees_bind_ok; [apply px_agrees|reflexivity].
  - intros w1 _. destruct (st_min_width s) as [|m]; [exact I|]. apply agrees_bind_ok; [apply px_agrees|reflexivity].
Qed.

(** ** The width phase *)
Lemma copy_edges_agrees a s hz vt b : isn (c_size hz) = w_known a -> isn (c_size vt) = h_known a ->
  agrees (run (copy_edges s hz vt) b) (in_edges a s).
Proof.
  intros E1 E2. unfold copy_edges, in_edges. cbn [firsts fold_right]. rewrite <- E1, <- E2.
  do 11 (rewrite run_bind; apply agrees_bind;
    [rewrite run_lift_mod; apply agrees_bind_ok; [first [apply calc_margin_agrees|apply calc_border_agrees|apply calc_len_agrees]|reflexivity]|intros [? []] _; cbn [fst snd]]).
  rewrite first_none, run_lift_mod. apply agrees_bind_ok; [apply calc_len_agrees|reflexivity].
Qed.
Lemma kind_none_agrees s i c b : kind_of s i = None -> agrees (run (calculate_width s i c) b) (Some (in_kind s)).
Proof.
  unfold kind_of, calculate_width, in_kind, is_float, is_abspos, is_inline, is_block_level, is_inline_block.
  destruct (st_float s), (st_position s), (st_display s) as [[]|], (s_replaced i); try discriminate; reflexivity.
Qed.
Lemma image_width_agrees a s i c b : notnone (margin_left b) -> notnone (margin_right b) -> isn (c_size c) = w_known a ->
  agrees (run (inline_replaced_width s i c) b) (in_width a Image s i).
Proof.
  intros Nl Nr E. unfold inline_replaced_width.
  match goal with |- agrees (run (bbind auto_left0 (fun _ => bbind auto_right0 (fun _ => ?m))) b) _ => destruct (autos0_ok m b Nl Nr) as (b0 & -> & L & R & _) end.
  rewrite run_bind.
  match goal with |- agrees (bindr (run ?m b0) _) ?v =>
    assert (Z : agrees (run m b0) v /\ (forall r, run m b0 = Ok r -> isnum (margin_left (fst r)))) end.
  { cbn [in_width]. rewrite <- E. destruct (st_width s) as [|u].
    - assert (B : forall x : num, agrees (run (bret x) b0) None /\ (forall r, run (bret x) b0 = Ok r -> isnum (margin_left (fst r)))).
      { intros x. split; [exact I|]. intros r H. apply Ok_inj in H. subst r. exact L. }
      destruct (st_height s), (s_width i), (s_height i), (s_ratio i); try apply B.
      unfold avail_width. destruct L as [l L], R as [r R]. split.
      + rewrite run_bind, run_lift. destruct (c_size c); [|reflexivity|reflexivity]. cbn [as_num bindr fst snd isn].
        apply ok_agrees, (wp_okb _ (fun _ _ => True)). wps. exact I.
      + intros q H. apply avail_width_run in H. destruct H as (_ & ml & _ & _ & H & _ & -> & _). exists ml. exact H.
    - rewrite run_lift. pose proof (px_agrees c u) as Q. destruct (px c u); (split; [exact Q|]); intros r H; inversion H; subst; exact L. }
  destruct Z as [Z Y]. apply agrees_bind_ok; [exact Z|]. intros [b1 w] H. destruct (Y _ H) as [x Ex]. cbn [fst snd] in *.
  apply (wp_okb _ (fun _ _ => True)). unfold left_edge. wps. destruct b1; cbn in *. eapply wp_num; [exact Ex|]. wps. exact I.
Qed.
(** Without a known width around it a block cannot be laid out. *)
Lemma nowhere_agrees s c b : notnone (margin_left b) -> notnone (margin_right b) -> isn (c_size c) = false ->
  agrees (run (block_non_replaced_width s c) b)
    (match st_width s with
     | Auto => Some UnknownSize
     | Len u => firsts [in_length false u; in_any false (st_max_width s); in_auto false (st_min_width s); Some UnknownSize]
     end).
Proof.
  intros Nl Nr E. unfold block_non_replaced_width. rewrite run_bind.
  assert (N : as_num (c_size c) = Err TypeError) by (destruct (c_size c); [discriminate|reflexivity|reflexivity]).
  destruct (st_width s) as [|u].
  - rewrite run_ret. cbn [bindr fst snd]. rewrite run_bind, run_get. cbn [bindr fst snd]. rewrite run_bind, run_get. cbn [bindr fst snd].
    assert (Av : forall b', run (avail_width c) b' = Err TypeError) by (intros b'; unfold avail_width; rewrite run_bind, run_lift, N; reflexivity).
    rewrite run_bind. destruct (is_auto (margin_left b)), (is_auto (margin_right b)); try (rewrite Av; reflexivity).
    all: match goal with |- agrees (bindr (run (bbind auto_left0 (fun _ => bbind auto_right0 (fun _ => ?m))) ?bb) _) _ => destruct (autos0_ok m bb Nl Nr) as (b0 & -> & _) end; rewrite Av; reflexivity.
  - rewrite run_bind, run_lift. cbn [firsts fold_right].
    pose proof (clamped_agrees s u c) as Q. rewrite E in Q. destruct (clamped_width s u c) as [cw|e].
    + cbn [agrees] in Q. destruct (in_length false u); [contradiction|]. destruct (in_any false (st_max_width s)); [contradiction|].
      cbn [first] in Q |- *. destruct (in_auto false (st_min_width s)); [contradiction|]. cbn [first bindr fst snd].
      rewrite run_bind. replace (run (drop_auto_margins cw c) b) with (Err TypeError : res (box * unit)); [reflexivity|].
      unfold drop_auto_margins. do 4 (rewrite run_bind, run_get; cbn [bindr fst snd]).
      rewrite run_bind. unfold run at 1, add_unless_auto at 1.
      destruct Nl as [Nl|[l Nl]]; rewrite Nl; cbn [is_auto as_num bindr]; cbn [fst snd].
      all: rewrite run_bind; unfold run at 1, add_unless_auto at 1; destruct Nr as [Nr|[r Nr]]; rewrite Nr; cbn [is_auto as_num bindr]; cbn [fst snd].
      all: rewrite run_bind, run_lift, N; reflexivity.
    + cbn [bindr]. destruct (in_length false u); [exact Q|]. destruct (in_any false (st_max_width s)); [exact Q|].
      cbn [first] in *. destruct (in_auto false (st_min_width s)); [exact Q|contradiction].
Qed.
Lemma block_width_agrees a s i c b : notnone (margin_left b) -> notnone (margin_right b) -> isn (c_size c) = w_known a ->
  agrees (run (block_non_replaced_width s c) b) (in_width a Block s i).
Proof.
  intros Nl Nr E. cbn [in_width]. rewrite <- E. destruct (isn (c_size c)) eqn:N.
  2: { pose proof (nowhere_agrees s c b Nl Nr N) as Q. destruct (st_width s); exact Q. }
  pose proof (proj1 (isn_isnum _) N) as N'. destruct (st_width s) as [|u] eqn:Ew.
  - apply ok_agrees, (wp_okb _ (fun _ => ok_width)), block_width_total; try assumption. rewrite Ew. discriminate.
  - cbn [firsts fold_right unless first]. rewrite first_none. pose proof (clamped_agrees s u c) as Q. rewrite N in Q.
    destruct (clamped_width s u c) as [cw|e] eqn:Ec.
    + destruct (first _ _) in *; [contradiction|]. apply ok_agrees, (wp_okb _ (fun _ => ok_width)), block_width_total; try assumption.
      intros v [= <-]%(eq_trans (eq_sym Ew)). eauto.
    + unfold block_non_replaced_width. rewrite run_bind, Ew, run_bind, run_lift, Ec. exact Q.
Qed.
Lemma wphase_agrees a s i hz vt b : isn (c_size hz) = w_known a -> isn (c_size vt) = h_known a ->
  agrees (wphase s i hz vt b)
    (first (in_edges a s) (match kind_of s i with None => Some (in_kind s) | Some kd => in_width a kd s i end)).
Proof.
  intros E1 E2. unfold wphase. apply agrees_bind; [apply copy_edges_agrees; assumption|]. intros [b1 []] Ec. cbn [fst].
  apply agrees_bind_ok; [|reflexivity]. apply copy_edges_kinds in Ec. destruct Ec as ((M1 & M2 & M3 & M4) & _).
  destruct (kind_of s i) as [kd|] eqn:K; [|apply kind_none_agrees, K]. unfold calculate_width. destruct kd.
  - destruct (kind_block _ _ K) as (-> & -> & -> & -> & ->). apply block_width_agrees; assumption.
  - destruct (kind_image _ _ K) as (-> & -> & -> & ->). apply image_width_agrees; assumption.
  - destruct (kind_word _ _ K) as (-> & -> & -> & ->). apply ok_agrees. reflexivity.
Qed.

(** ** The height phase *)
Definition lasts (last : option (option box)) (lb : option last_child) : Prop :=
  lb = match last with None => None | Some None => Some Boxless | Some (Some b) => Some (Boxed (isn (content_height b))) end.
Lemma block_content_agrees a s ph last c b lb : isn (c_size c) = h_known a -> spec_h a = ph -> lasts last lb ->
  agrees (run (block_content_height s ph last c) b) (in_height a Block s lb).
Proof.
  intros E1 E2 ->. unfold block_content_height. cbn [in_height]. rewrite <- E1. destruct (st_height s) as [|u].
  - destruct last as [[l|]|].
    + rewrite run_bind, run_lift. unfold border_box_bottom, content_bottom. destruct (content_height l); cbn; auto.
    + reflexivity.
    + destruct (st_min_height s) as [|m]; [exact I|]. rewrite run_lift. cbn [in_auto]. apply agrees_bind_ok; [apply px_agrees|reflexivity].
  - rewrite run_bind, E2. apply agrees_bind.
    + destruct ph as [pu|].
      * rewrite run_bind. apply agrees_bind; [rewrite run_lift; apply agrees_bind_ok; [apply px_agrees|reflexivity]|]. intros [b1 p] _. cbn [fst snd]. rewrite run_lift.
        apply agrees_bind_ok; [|reflexivity]. apply (px_agrees (mkCtx (c_disp c) (c_font c) (LNum p)) u).
      * rewrite run_lift. apply agrees_bind_ok; [apply px_agrees|reflexivity].
    + intros [b1 h] _. cbn [fst snd]. destruct (st_max_height s) as [m|]; [|exact I]. rewrite run_bind, run_lift. cbn [in_any].
      apply agrees_bind_ok; [apply agrees_bind_ok; [apply px_agrees|reflexivity]|reflexivity].
Qed.
Lemma hphase_agrees kd a s i ph last lb vt b : kind_of s i = Some kd -> isn (c_size vt) = h_known a -> spec_h a = ph -> lasts last lb ->
  notnone (margin_top b) -> notnone (margin_bottom b) -> (kd = Word -> top_is s b) -> isn (content_width b) = width_known kd i ->
  agrees (hphase s i ph last vt b) (in_height a kd s lb).
Proof.
  intros K E1 E2 L Nt Nb T W. unfold hphase. apply agrees_bind_ok; [|reflexivity]. unfold calculate_height. destruct kd.
  - destruct (kind_block _ _ K) as (-> & -> & -> & -> & ->). unfold block_non_replaced_height.
    match goal with |- agrees (run (bbind auto_top0 (fun _ => bbind auto_bottom0 (fun _ => ?m))) b) _ => destruct (autos_v_ok m b Nt Nb) as (b0 & -> & _) end.
    rewrite run_bind. apply agrees_bind_ok; [apply block_content_agrees; assumption|]. intros [b1 h] _. apply (wp_okb _ (fun _ _ => True)). wps. exact I.
  - pose proof (hphase_ok Image a s i ph last (match last with None => None | Some None => Some false | Some (Some x) => Some (isn (content_height x)) end) vt b K E1 E2 eq_refl Nt Nb T W) as Q.
    unfold hphase, calculate_height in Q. destruct (kind_image _ _ K) as (F1 & F2 & F3 & F4). rewrite F1, F2, F3, F4 in Q |- *.
    rewrite (okb_bind_const _ _ true) in Q by reflexivity. rewrite andb_true_r in Q. cbn [height_ok in_height] in *.
    destruct (st_height s) as [|u] eqn:Eh; [apply ok_agrees, Q|].
    rewrite <- E1 in Q |- *. rewrite <- (px_ok vt u) in Q. pose proof (px_agrees vt u) as P. destruct (px vt u) as [h|e] eqn:Ep.
    + destruct (in_length _ _); [contradiction|]. apply ok_agrees, Q.
    + unfold inline_replaced_height. rewrite Eh.
      match goal with |- agrees (run (bbind auto_top0 (fun _ => bbind auto_bottom0 (fun _ => ?m))) b) _ => destruct (autos_v_ok m b Nt Nb) as (b0 & -> & _) end.
      rewrite run_bind, run_lift, Ep. exact P.
  - destruct (kind_word _ _ K) as (-> & -> & -> & ->). specialize (T eq_refl). unfold top_is in T. unfold inline_non_replaced_height, top_edge. cbn [in_height].
    rewrite run_bind, run_mod. cbn [bindr fst snd]. rewrite run_bind, run_num.
    replace (margin_top (upd_content_height (lopt (s_height i)) b)) with (margin_top b) by (destruct b; reflexivity).
    destruct (st_margin_top s).
    + rewrite T. destruct (st_height s); reflexivity.
    + destruct T as [x ->]. destruct (st_height s); exact I.
Qed.

(** ** Offsets *)
Lemma rel_offset_agrees a c st en cs ce : agrees cs (unless (negb (is_display a)) NothingToInherit) ->
  agrees ce (first (unless (negb (is_display a)) NothingToInherit) (unless (isn (c_size c)) UnknownSize)) ->
  agrees (rel_offset c st en cs ce) (in_offsets a (isn (c_size c)) st en).
Proof.
  intros E1 E2. destruct st as [| |u], en as [| |v]; cbn [rel_offset in_offsets]; try apply px_agrees; try exact I; try reflexivity; try assumption.
  - apply agrees_bind_ok; [exact E2|reflexivity].
  - apply agrees_bind_ok; [apply px_agrees|reflexivity].
Qed.

Section Tree.
Context {S : Type} (sty : S -> style).
Notation node := (node S).
Notation cblock := (@cblock S).

Lemma shift_agrees d f (cb : cblock) a s b : around_is sty d a cb ->
  agrees (shift_box d f cb s b)
    (if relative s then first (in_offsets a (w_known a) (st_left s) (st_right s)) (in_offsets a (h_known a) (st_top s) (st_bottom s)) else None).
Proof.
  intros (Ew & Eh & Ed & _). unfold shift_box, relative, is_relative. destruct (st_position s); try exact I. apply agrees_bind.
  - rewrite <- Ew. change (cb_width d cb) with (c_size (hctx d f cb)). apply rel_offset_agrees; rewrite Ed; destruct cb as [|s0 b0]; try exact I; try reflexivity.
    cbn. unfold content_right. destruct (content_width b0); cbn; auto.
  - intros v _. apply agrees_bind_ok; [|reflexivity].
    rewrite <- Eh. change (cb_height d cb) with (c_size (vctx d f cb)). apply rel_offset_agrees; rewrite Ed; destruct cb as [|s0 b0]; try exact I; try reflexivity.
    cbn. unfold content_bottom. destruct (content_height b0); cbn; auto.
Qed.
Lemma pall_agrees (lay : node -> res node) f ks : (forall k, In k ks -> agrees (lay k) (f k)) -> agrees (pall lay ks) (firsts (map f ks)).
Proof.
  induction ks as [|k ks IH]; intros H; [exact I|]. cbn [pall map firsts fold_right]. apply agrees_bind; [apply H; left; reflexivity|]. intros k' _.
  apply agrees_bind_ok; [|reflexivity]. apply IH. intros; apply H; right; assumption.
Qed.
Lemma pflow_pending (lay : box -> node -> res node) f ks b off bm : agrees (pflow sty lay ks true b off bm) (in_stack sty f true ks).
Proof.
  revert b off bm. induction ks as [|k ks IH]; intros b off bm; [exact I|]. cbn [pflow in_stack]. rewrite block_child_level.
  destruct (block_child sty k); [reflexivity|]. apply agrees_bind_ok; [apply IH|reflexivity].
Qed.
Lemma pflow_agrees (P : box -> Prop) (lay : box -> node -> res node) f ks :
  (forall b v, P b -> P (set_collapse_top v b)) ->
  (forall k b, In k ks -> block_child sty k = true -> P b -> agrees (lay b k) (f k)) ->
  (forall k b k', In k ks -> block_child sty k = true -> P b -> lay b k = Ok k' ->
     exists kb, n_box k' = Some kb /\ isnum (margin_top kb) /\ isn (content_height kb) = true) ->
  forall b off bm, P b -> agrees (pflow sty lay ks false b off bm) (in_stack sty f false ks).
Proof.
  intros HP. induction ks as [|k ks IH]; intros H1 H2 b off bm Pb; [exact I|]. cbn [pflow in_stack]. rewrite block_child_level.
  destruct (block_child sty k) eqn:Bk.
  - apply agrees_bind; [apply H1; [left; reflexivity|exact Bk|exact Pb]|]. intros k1 L. destruct (H2 k b k1 (or_introl eq_refl) Bk Pb L) as (kb & -> & [t Et] & Eh).
    unfold pplace, border_box_height. destruct (content_height kb) as [h| |]; try discriminate. rewrite Et.
    destruct bm as [m|]; cbn [as_num bindr].
    all: apply agrees_bind_ok; [|reflexivity].
    all: apply IH; [intros; apply H1; try right; assumption|intros ? ? ? ?; apply H2; right; assumption|auto].
  - apply agrees_bind_ok; [apply pflow_pending|reflexivity].
Qed.
Lemma fresh_lasts ks : (forall k, In k ks -> fresh sty k) -> lasts (last_box ks) (last_before ks).
Proof.
  intros F. unfold lasts, last_before, last_box. destruct (rev ks) as [|k r] eqn:E; [reflexivity|].
  assert (I : In k ks) by (apply in_rev; rewrite E; left; reflexivity). destruct (fresh_nbox _ _ (F k I)) as [-> | ->]; reflexivity.
Qed.

Theorem plb_agrees fuel : forall d cb a n, (height n <= fuel)%nat -> fresh sty n -> around_is sty d a cb ->
  agrees (plb sty fuel d dummy_font cb n) (in_node sty a n).
Proof.
  induction fuel as [|fuel IH]; intros d cb a [s0 i bx ks] Hh Fr Ar; [cbn in Hh; lia|].
  cbn [plb in_node]. destruct (st_display (sty s0)) as [dk|] eqn:Dk; [|exact I].
  destruct (fresh_box _ _ _ _ _ Fr ltac:(congruence)) as [-> Fk]. set (s := sty s0) in *.
  destruct Ar as (Ew & Eh & Ed & Es). pose proof (conj Ew (conj Eh (conj Ed Es))) as Ar.
  pose proof (wphase_agrees a s i (hctx d dummy_font cb) (vctx d dummy_font cb) box0 Ew Eh) as Wa.
  destruct (kind_of s i) as [kd|] eqn:K.
  2: { destruct (wphase s i (hctx d dummy_font cb) (vctx d dummy_font cb) box0) as [b1|e]; [|exact Wa]. destruct (in_edges a s); contradiction. }
  cbn zeta. cbn [firsts fold_right].
  set (inner := mkAround (width_known kd i) (if relative s then height_known kd i else true) false (match st_height s with Auto => None | Len u => Some u end)).
  set (stacks := match dk with DBlock | DListItem => existsb (block_child sty) ks | _ => false end).
  assert (X : forall o1 o2 o3, first o1 (first o2 o3) = first (first o1 o2) o3) by (intros []; reflexivity).
  rewrite X. apply agrees_bind; [exact Wa|]. intros b1 Wp.
  apply (wphase_kinds kd) in Wp; [|exact K]. destruct Wp as ((M1 & M2 & T & Wk) & Hc).
  apply agrees_bind.
  { change (is_relative s) with (relative s). destruct (relative s); [|exact I]. apply hphase_agrees; auto. apply fresh_lasts, Fk. }
  intros b2 R2.
  assert (P2 : notnone (margin_top b2) /\ notnone (margin_bottom b2) /\ (kd = Word -> top_is s b2) /\ isn (content_width b2) = width_known kd i
        /\ isn (content_height b2) = (if relative s then height_known kd i else true)).
  { change (is_relative s) with (relative s) in R2. destruct (relative s).
    - apply (hphase_kinds kd) in R2; auto. destruct R2 as (Q1 & Q2 & Q3 & Q4 & Q5).
      rewrite Q4. split; [right; exact Q1|]. auto.
    - apply Ok_inj in R2. subst b2. rewrite Hc. auto. }
  clear R2. assert (Nf : is_abspos s = false /\ is_float s = false) by (destruct kd; [destruct (kind_block _ _ K)|destruct (kind_image _ _ K)|destruct (kind_word _ _ K)]; intuition).
  destruct Nf as [-> ->].
  pose (P := fun b : box => notnone (margin_top b) /\ notnone (margin_bottom b) /\ (kd = Word -> top_is s b) /\ isn (content_width b) = width_known kd i
    /\ isn (content_height b) = (if relative s then height_known kd i else true)).
  assert (Pc : forall b v, P b -> P (set_collapse_top v b)) by (intros b v; destruct b; exact (fun x => x)).
  assert (Pa : forall b, P b -> around_is sty d inner (CBNode s0 b)).
  { intros b (_ & _ & _ & Y & Z). unfold around_is. cbn [cb_width cb_height cb_style_height w_known h_known is_display spec_h inner]. auto. }
  assert (Hk : forall k, In k ks -> (height k <= fuel)%nat) by (intros k I; pose proof (height_kid s0 i bx ks k I); lia).
  assert (L : forall k b, In k ks -> P b -> forall k', plb sty fuel d dummy_font (CBNode s0 b) k = Ok k' -> was_laid sty k k').
  { intros k b I Pb. apply plb_okb with inner; [apply Hk, I|apply Fk, I|apply Pa, Pb]. }
  assert (La : forall k b, In k ks -> P b -> agrees (plb sty fuel d dummy_font (CBNode s0 b) k) (in_node sty inner k)).
  { intros k b I Pb. apply IH; [apply Hk, I|apply Fk, I|apply Pa, Pb]. }
  assert (St : establishes_inline sty (Node s0 i (Some b2) ks) = negb stacks).
  { unfold establishes_inline, is_block_container, stacks. cbn [n_style n_intr n_kids]. fold s. rewrite Dk.
    pose proof K as K'. unfold kind_of in K'. rewrite Dk in K'. destruct (st_float s), (st_position s), dk, (s_replaced i); try discriminate; reflexivity. }
  apply agrees_bind.
  { unfold pchildren. rewrite St. destruct stacks; cbn [negb].
    - apply (pflow_agrees P); [exact Pc| | |exact P2].
      + intros k b I _ Pb. apply La; assumption.
      + intros k b k' I Bk Pb E. pose proof (L k b I Pb k' E) as Q. unfold was_laid in Q. destruct (st_display (sty (n_style k))) eqn:Dq; [|unfold block_child in Bk; rewrite Dq in Bk; discriminate].
        destruct Q as (kd' & kb & K1 & K2 & K3 & K4). exists kb. split; [exact K2|]. split; [exact K3|]. rewrite K4. rewrite (block_kind _ _ _ K1 Bk). reflexivity.
    - apply agrees_bind_ok; [|reflexivity]. apply pall_agrees. intros k I. apply La; assumption. }
  intros r Er.
  assert (Ch : P (snd r) /\ lasts (last_box (fst r)) (last_after sty stacks ks)).
  { unfold pchildren in Er. rewrite St in Er. destruct r as [ks' b']. destruct stacks; cbn [negb] in Er.
    - apply (pflow_last sty P _ _ Pc) in Er; [|exact P2]. destruct Er as [Pb' E]. split; [exact Pb'|]. cbn [fst].
      unfold lasts, last_box, last_after. destruct (rev ks) as [|k r] eqn:Er; [rewrite E; reflexivity|].
      assert (I : In k ks) by (apply in_rev; rewrite Er; left; reflexivity).
      destruct E as (k' & r' & -> & E). destruct (block_child sty k) eqn:Bk; cbn [andb negb].
      + destruct E as (b0 & k1 & kb & v & Pb0 & E1 & E2 & ->). rewrite move_top_h.
        pose proof (L k b0 I Pb0 _ E1) as Q. unfold was_laid in Q. destruct (st_display (sty (n_style k))) eqn:Dq; [|unfold block_child in Bk; rewrite Dq in Bk; discriminate].
        destruct Q as (kd' & kb' & K1 & K2 & K3 & K4). rewrite K1. rewrite E2 in K2. injection K2 as ->. rewrite K4. reflexivity.
      + subst k'. destruct (fresh_nbox _ _ (Fk k I)) as [-> | ->]; reflexivity.
    - apply bindr_ok in Er. destruct Er as (ks2 & E & E'). apply Ok_inj in E'. injection E' as <- <-. split; [exact P2|]. cbn [fst].
      apply pall_last in E. unfold lasts, last_box, last_after. destruct (rev ks) as [|k r] eqn:Er; [rewrite E; reflexivity|].
      assert (I : In k ks) by (apply in_rev; rewrite Er; left; reflexivity).
      destruct E as (k' & r' & -> & E). cbn [andb]. pose proof (L k b2 I P2 _ E) as Q. unfold was_laid in Q.
      destruct (st_display (sty (n_style k))) eqn:Dq.
      + destruct Q as (kd' & kb' & K1 & K2 & K3 & K4). rewrite K1, K2, K4. reflexivity.
      + rewrite Q. destruct (kind_of (sty (n_style k)) (n_intr k)) eqn:Kq; [|reflexivity]. apply kind_hidden in Kq. contradiction. }
  destruct Ch as ((Q1 & Q2 & Q3 & Q4 & _) & Lr).
  apply agrees_bind; [apply hphase_agrees; auto|]. intros b3 _. rewrite first_none. apply agrees_bind_ok; [|reflexivity]. apply shift_agrees, Ar.
Qed.
End Tree.
