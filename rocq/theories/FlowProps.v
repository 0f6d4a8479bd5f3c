(** * C157, C158: order and nesting on the page *)
From Coq Require Import ZArith QArith Qcanon Qround Lia Lqa Bool List.
From Verif Require Import PyNum NumFacts Units BoxModel BoxSpec BoxFacts Engine EnginePure EngineSpec EngineExamples EngineInv EngineTree
  RefLayout RefFacts RefProps HistSpec HistProps MoveProps EdgeSpec EdgeProps FlowSpec.
Import ListNotations.
Open Scope Qc_scope.

(** ** Used values *)
Definition btop (u : used) : Qc := u_top u - u_pt u - u_bt u.
Definition in_order (a b : utree) : Prop := match a, b with UNode u _, UNode v _ => border_bottom u <= btop v | _, _ => True end.
Definition within (lo hi : Qc) (t : utree) : Prop := match t with UNode v _ => lo <= btop v /\ border_bottom v <= hi | _ => True end.
Definition listed (h : Qc) (us : list utree) : Prop := Forall (within 0 h) us /\ ForallOrdPairs in_order us.
Inductive tidy : utree -> Prop :=
| tidy_node u us h : 0 <= u_bt u -> 0 <= u_pt u -> 0 <= u_pb u -> 0 <= u_bb u -> u_h u = Some h -> listed h us -> Forall tidy us -> tidy (UNode u us)
| tidy_hidden : tidy UHidden
| tidy_skipped : tidy USkipped.
(** Before stacking. *)
Definition base (t : utree) : Prop :=
  tidy t /\ match t with UNode u _ => u_top u = u_bt u + u_pt u /\ (0 <= u_cb u)%Z /\ 0 <= or0 (u_h u) | _ => True end.
Lemma tidy_down t u us : tidy (UNode u us) -> tidy (UNode (move_down t u) us).
Proof. intros H. inversion H as [u' us' h H1 H2 H3 H4 H5 H6 H7| |]; subst. destruct u. cbn in *. econstructor; cbn; eassumption. Qed.
Lemma base_height u us : base (UNode u us) -> 0 <= border_height u.
Proof. intros [T (_ & _ & Hh)]. inversion T as [u' us' h H1 H2 H3 H4 H5 H6 H7| |]; subst. unfold border_height. repeat apply add_nonneg; assumption. Qed.
Lemma down_btop t u us : base (UNode u us) -> btop (move_down t u) = t.
Proof. intros [_ (E & _)]. destruct u. unfold btop. cbn in *. rewrite E. ring. Qed.
Lemma down_bottom t u us : base (UNode u us) -> border_bottom (move_down t u) = t + border_height u.
Proof. intros [_ (E & _)]. destruct u. unfold border_bottom, border_height. cbn in *. rewrite E. ring. Qed.
Definition starts (top : Qc) (t : utree) : Prop := match t with UNode v _ => top <= btop v | _ => True end.
Lemma starts_le a b t : a <= b -> starts b t -> starts a t.
Proof. destruct t; cbn; [|auto|auto]. intros. eapply Qcle_trans; eassumption. Qed.
Lemma gap_nonneg prev m : (forall z, prev = Some z -> (0 <= z)%Z) -> 0 <= match prev with None => 0 | Some z => qc_maxi (Z2Qc z) m end.
Proof.
  intros P. destruct prev as [z|]; [|discriminate]. pose proof (Z2Qc_nonneg z (P z eq_refl)) as Z. unfold qc_maxi. destruct (qc_ltb_spec (Z2Qc z) m) as [L|L]; [|exact Z].
  clear -L Z. qclra.
Qed.
Lemma stack_tidy l : Forall base l -> forall top prev, (forall z, prev = Some z -> (0 <= z)%Z) ->
  Forall tidy (stack top prev l) /\ Forall (starts top) (stack top prev l) /\ ForallOrdPairs in_order (stack top prev l).
Proof.
  induction 1 as [|x l B _ IH]; intros top prev P; [repeat split; constructor|]. destruct x as [u us| |]; cbn [stack].
  - set (t := top + _). assert (Ht : top <= t) by (pose proof (gap_nonneg prev (u_mt u) P) as G; unfold t; clear -G; qclra).
    pose proof (base_height _ _ B) as Bh. assert (Hn : forall z, Some (u_cb u) = Some z -> (0 <= z)%Z) by (intros z E; injection E as <-; apply B).
    destruct (IH (t + border_height u) (Some (u_cb u)) Hn) as (I1 & I2 & I3). split; [|split].
    + constructor; [apply tidy_down, B|exact I1].
    + constructor; [cbn [starts]; rewrite (down_btop t u us B); exact Ht|]. eapply Forall_impl; [|exact I2]. intros k. apply starts_le. clear -Ht Bh. qclra.
    + constructor; [|exact I3]. eapply Forall_impl; [|exact I2]. intros [v vs| |]; cbn; auto. intros L. rewrite (down_bottom t u us B). exact L.
  - destruct (IH top prev P) as (I1 & I2 & I3). split; [constructor; [constructor|exact I1]|]. split; [constructor; [exact I|exact I2]|]. constructor; [|exact I3]. apply Forall_forall. intros; exact I.
  - destruct (IH top prev P) as (I1 & I2 & I3). split; [constructor; [constructor|exact I1]|]. split; [constructor; [exact I|exact I2]|]. constructor; [|exact I3]. apply Forall_forall. intros; exact I.
Qed.
Lemma ordered_last (l : list utree) u us : ForallOrdPairs in_order (l ++ [UNode u us]) -> forall k v vs, In k l -> k = UNode v vs -> border_bottom v <= btop u.
Proof.
  induction l as [|x l IH]; intros F k v vs I E; [destruct I|]. cbn in F. inversion F as [|x' l' Fx Fl]; subst. destruct I as [-> |I]; [|eapply IH; [exact Fl|exact I|reflexivity]].
  rewrite Forall_forall in Fx. apply (Fx (UNode u us)), in_or_app. right. left. reflexivity.
Qed.
Lemma listed_last (l : list utree) u us : Forall (starts 0) (l ++ [UNode u us]) -> ForallOrdPairs in_order (l ++ [UNode u us]) -> btop u <= border_bottom u -> listed (border_bottom u) (l ++ [UNode u us]).
Proof.
  intros Fs Fo L. split; [|exact Fo]. apply Forall_forall. intros [v vs| |] I; cbn; auto. rewrite Forall_forall in Fs. split; [exact (Fs _ I)|].
  apply in_app_or in I. destruct I as [I|[I|[]]].
  - eapply Qcle_trans; [|exact L]. eapply ordered_last; [exact Fo|exact I|reflexivity].
  - injection I as -> _. apply Qcle_refl.
Qed.

Section F.
Context {S : Type} (sty : S -> style) (d : display_t).
Notation node := (node S).
Section Fmt.
Context (Sd : sane_display d).
Lemma disp_ok : display_ok d. Proof. destruct Sd as (A & B & C & _). repeat split; assumption. Qed.
Lemma plain_nonneg x u : plain_length u -> 0 <= len d x u.
Proof. intros [V A]. apply absolute_nonneg; [apply disp_ok|assumption..]. Qed.
Lemma pborder_nonneg x v : plain_border v -> 0 <= border_len d x v.
Proof. destruct v as [k|u]; [intros _; apply Sd|apply plain_nonneg]. Qed.
Lemma leaf_height H s : 0 <= H -> sized s -> 0 <= used_block_height d H None s None.
Proof.
  intros Hh (N1 & N2 & N3). unfold used_block_height, spec_height. destruct (st_height s) as [|u]; [apply (size0_nonneg d disp_ok); assumption|].
  assert (X : 0 <= len d H u) by (apply (size_nonneg d disp_ok); assumption). destruct (st_max_height s) as [m|]; [|exact X]. apply qc_min_nonneg; [exact X|]. apply (size_nonneg d disp_ok); assumption.
Qed.
Lemma flow_block s : in_normal_flow s -> block_level s = true.
Proof. intros [[D|D] _]; unfold block_level; rewrite D; reflexivity. Qed.
Lemma flowing_level (n : node) : flowing sty n -> st_display (sty (n_style n)) <> None -> block_level (sty (n_style n)) = true.
Proof. intros [s i b N _|s i b ks N _ _ _] H; apply flow_block, N. Qed.
Lemma format_node a (n : node) : st_display (sty (n_style n)) <> None -> exists u us, format sty d a n = UNode u us.
Proof. destruct n as [s i b ks]. cbn [n_style]. intros H. rewrite format_split. destruct (st_display (sty s)) as [dk|]; [|contradiction]. unfold node_of. cbv zeta. eauto. Qed.
Lemma format_base (n : node) : forall a, flowing sty n -> 0 <= or0 (a_h a) -> a_spec_h a = None -> base (format sty d a n).
Proof.
  induction n as [s i b ks IH] using node_ind'. intros a F Ha Hs. destruct (st_display (sty s)) as [dk|] eqn:Dk.
  2: { rewrite format_split, Dk. split; [constructor|exact I]. }
  assert (N : in_normal_flow (sty s)) by (inversion F; subst; try assumption; cbn in *; congruence). rewrite format_split, Dk.
  assert (Hr : isrel (sty s) = false) by (pose proof (nf_static _ N) as X; unfold isrel; destruct (st_position (sty s)); try reflexivity; contradiction).
  assert (Hd : dk = DBlock \/ dk = DListItem) by (destruct (nf_display _ N); [left|right]; congruence). assert (Hi : isinl dk = false) by (destruct Hd as [-> | ->]; reflexivity).
  set (inner := inner_of d a dk (sty s) i). set (st := stacks_ sty dk ks). set (kids := kids_of sty d inner st ks).
  assert (K : exists h, hgt d a dk (sty s) i (last_kid kids) = Some h /\ 0 <= h /\ listed h kids /\ Forall tidy kids).
  { unfold hgt. rewrite Hi, Hs. eexists. split; [reflexivity|]. inversion F as [s' i' b' N' Sz E|s' i' b' l' N' Au Ne Fl E]; subst.
    - assert (Ek : kids = []) by (unfold kids, kids_of; destruct st; reflexivity). rewrite Ek. cbn [last_kid rev]. split; [apply leaf_height; assumption|]. repeat split; constructor.
    - destruct (exists_last Ne) as (l & k & El). assert (Fk : flowing sty k) by (apply Fl; rewrite El; apply in_or_app; right; left; reflexivity).
      assert (Dl : st_display (sty (n_style k)) <> None) by (destruct Fk as [s1 i1 b1 [[D|D] _]|s1 i1 b1 ks1 [[D|D] _]]; cbn [n_style]; congruence).
      clear Ne. subst ks. assert (Bk : block_level (sty (n_style k)) = true) by (apply flowing_level; [apply Fl, in_or_app; right; left; reflexivity|exact Dl]).
      assert (Es : st = true) by (unfold st, stacks_; destruct Hd as [-> | ->]; apply existsb_exists; exists k; split; try exact Bk; apply in_or_app; right; left; reflexivity).
      assert (Fb : Forall base (map (MoveProps.laid_kid sty d inner st) (l ++ [k]))).
      { apply Forall_forall. intros t It. apply in_map_iff in It. destruct It as (x & <- & Ix). unfold MoveProps.laid_kid. destruct (_ && _); [split; [constructor|exact I]|].
        apply IH; [exact Ix|apply Fl, Ix|unfold inner, inner_of; rewrite Hr; discriminate|unfold inner, inner_of; cbn [a_spec_h]; rewrite Au; reflexivity]. }
      unfold kids, kids_of. rewrite Es in *. destruct (stack_tidy _ Fb 0 None ltac:(discriminate)) as (T1 & T2 & T3).
      set (all := map _ (l ++ [k])) in *. assert (La : exists r u us, stack 0 None all = r ++ [UNode u us] /\ tidy (UNode u us) /\ 0 <= btop u /\ 0 <= or0 (u_h u)).
      { pose proof (stack_placed all 0 None) as P. assert (Ea : exists u0 us0, all = map (MoveProps.laid_kid sty d inner true) l ++ [UNode u0 us0]).
        { destruct (format_node inner k Dl) as (u0 & us0 & E0). exists u0, us0. unfold all. rewrite map_app. cbn [map]. unfold MoveProps.laid_kid at 2. rewrite Bk. cbn [andb negb]. rewrite E0. reflexivity. }
        destruct Ea as (u0 & us0 & Ea). rewrite Ea in P at 1. apply Forall2_app_inv_l in P. destruct P as (r1 & r2 & _ & P2 & E2). inversion P2 as [|x y l1 l2 Px P3]; subst. inversion P3; subst.
        inversion Px as [u1 us1 t1| |]; subst. exists r1, (move_down t1 u0), us0. split; [exact E2|]. rewrite E2 in T1, T2. apply Forall_app in T1, T2. destruct T1 as [_ T1], T2 as [_ T2].
        inversion T1 as [|? ? T1' _]; subst. inversion T2 as [|? ? T2' _]; subst. split; [exact T1'|]. split; [exact T2'|]. rewrite Ea in Fb. apply Forall_app in Fb. destruct Fb as [_ Fb]. inversion Fb as [|? ? Bu _]; subst. destruct Bu as [_ (_ & _ & Bu)]. destruct u0. exact Bu. }
      destruct La as (r & u & us & Er & Tu & Bt & Bh). rewrite Er in *. unfold last_kid. rewrite rev_app_distr. cbn [rev app]. unfold used_block_height, spec_height. rewrite Au.
      inversion Tu as [u' us' h H1 H2 H3 H4 H5 H6 H7| |]; subst. assert (Bb : btop u <= border_bottom u) by (unfold btop, border_bottom; clear -H1 H2 H3 H4 Bh; qclra).
      split; [exact (Qcle_trans _ _ _ Bt Bb)|]. split; [apply listed_last; assumption|exact T1]. }
  destruct K as (h & Eh & Hh & Li & Ti). clearbody kids. unfold node_of. cbv zeta. rewrite Hr.
  split.
  - econstructor; cbn [u_bt u_pt u_pb u_bb u_h]; [apply pborder_nonneg, N|apply plain_nonneg, N|apply plain_nonneg, N|apply pborder_nonneg, N|exact Eh|exact Li|exact Ti].
  - cbn [u_top u_bt u_pt u_cb u_h]. split; [unfold edges; rewrite Hi; ring|]. split; [|rewrite Eh; exact Hh].
    pose proof (whole_nonneg (or0 (bottoms d a dk (sty s) i))) as Wn. destruct (st_height (sty s)); [|exact Wn]. destruct (last_kid kids); [|exact Wn]. destruct (isinl dk); [exact Wn|lia].
Qed.
End Fmt.
(** What the page shows. *)
Lemma page_tidy h5 (n : node) : sane_display d -> flowing sty n -> forall u us, page sty d h5 n = UNode u us -> (exists h, listed h us) /\ Forall tidy us /\ (h5 = false -> tidy (UNode u us)).
Proof.
  intros Sd F u us E. unfold page in E. set (a := mkArea _ _ _ _ _) in E. pose proof (format_base Sd n a F ltac:(apply Sd) eq_refl) as [T _].
  destruct (format sty d a n) as [v vs| |]; [|discriminate..]. inversion T as [u' us' h H1 H2 H3 H4 H5 H6 H7| |]; subst. destruct v. injection E as <- <-. cbn in *. split; [eauto|]. split; [assumption|].
  intros ->. econstructor; cbn; eassumption.
Qed.

(** ** Boxes *)
Lemma box_at_kid (n : node) j p b : box_at sty n (j :: p) b -> exists k, nth_error (n_kids n) j = Some k /\ box_at sty k p b /\ displayed sty n.
Proof.
  intros [D (k & G & B)]. inversion D as [|j' p' n' k' D1 D2 D3]; subst. cbn [get_path] in G. rewrite D2 in G. exists k'. split; [exact D2|]. split; [|exact D1]. split; [exact D3|eauto].
Qed.
Lemma Forall2_nth {A B} (R : A -> B -> Prop) l l' : Forall2 R l l' -> forall j x, nth_error l j = Some x -> exists y, nth_error l' j = Some y /\ R x y.
Proof. induction 1 as [|a b l l' H F IH]; intros [|j] x E; cbn in E; try discriminate; [injection E as <-; exists b; split; [reflexivity|exact H]|]. apply IH, E. Qed.
Lemma FOP_nth {A} (R : A -> A -> Prop) l : ForallOrdPairs R l -> forall i j x y, (i < j)%nat -> nth_error l i = Some x -> nth_error l j = Some y -> R x y.
Proof.
  induction 1 as [|a l Fa F IH]; intros [|i] [|j] x y L E1 E2; cbn in E1, E2; try discriminate; try lia.
  - injection E1 as <-. rewrite Forall_forall in Fa. apply Fa. eapply nth_error_In, E2.
  - apply (IH i j); [lia|assumption..].
Qed.
Lemma has_top x y (b : box) u : has_used b u -> nval (origin_left b) = x -> nval (origin_top b) = y ->
  nval (absolute_border_box_top b) = y + btop u /\ nval (absolute_content_top b) = y + u_top u.
Proof. intros H _ E. unfold absolute_border_box_top, absolute_content_top. rewrite !nval_sub, !nval_add, E, (hu_top _ _ H), (hu_pt _ _ H), (hu_bt _ _ H). unfold btop. split; ring. Qed.
Lemma has_bottom y (b : box) u h : has_used b u -> nval (origin_top b) = y -> u_h u = Some h ->
  exists z c, absolute_border_box_bottom b = Ok z /\ nval z = y + border_bottom u /\ absolute_content_bottom b = Ok c /\ nval c = y + u_top u + h.
Proof.
  intros H E Eh. pose proof (hu_h _ _ H) as X. rewrite Eh in X. destruct X as (w & X1 & X2). unfold absolute_border_box_bottom, absolute_content_bottom. rewrite X1. cbn [as_num bindr]. eexists _, _. split; [reflexivity|].
  split; [|split; [reflexivity|]]; rewrite !nval_add, E, (hu_top _ _ H), X2, ?(hu_pb _ _ H), ?(hu_bb _ _ H); unfold border_bottom; rewrite ?Eh; cbn [or0]; ring.
Qed.

(** ** Which nodes are shown *)
Inductive matches : node -> utree -> Prop :=
| matches_node s i b ks u us : displayed sty (Node s i b ks) -> Forall2 matches ks us -> matches (Node s i b ks) (UNode u us)
| matches_hidden n t : st_display (sty (n_style n)) = None -> matches n t.
Lemma matches_placed k t t' : matches k t -> placed t t' -> matches k t'.
Proof. intros M P. inversion M; subst; [|apply matches_hidden; assumption]. inversion P; subst. constructor; assumption. Qed.
Lemma kids_match inner st (ks : list node) : (forall k, In k ks -> st_display (sty (n_style k)) <> None -> block_level (sty (n_style k)) = true) ->
  (forall k a, In k ks -> matches k (format sty d a k)) -> Forall2 matches ks (kids_of sty d inner st ks).
Proof.
  intros B M. assert (K : Forall2 matches ks (map (MoveProps.laid_kid sty d inner st) ks)).
  { clear -B M. induction ks as [|k ks IH]; [constructor|]. cbn [map]. constructor; [|apply IH; intros; [apply B|apply M]; [right|..|right]; assumption].
    unfold MoveProps.laid_kid. destruct (st && negb (block_level (sty (n_style k)))) eqn:E; [|apply M; left; reflexivity]. apply matches_hidden. apply andb_prop in E. destruct E as [_ E]. apply negb_true_iff in E.
    destruct (st_display (sty (n_style k))) as [dk|] eqn:D; [|reflexivity]. rewrite (B k (or_introl eq_refl)) in E; [discriminate|congruence]. }
  unfold kids_of. destruct st; [|exact K]. pose proof (stack_placed (map (MoveProps.laid_kid sty d inner true) ks) 0 None) as P. set (l := map _ ks) in *. clearbody l. set (l' := stack 0 None l) in *. clearbody l'.
  clear B M. revert l' P. induction K as [|k t ks l H _ IH]; intros l' P; inversion P as [|? ? ? ? Px Pl]; subst; constructor; [eapply matches_placed; eassumption|apply IH, Pl].
Qed.
Inductive blocks : node -> Prop :=
| blocks_hidden n : st_display (sty (n_style n)) = None -> blocks n
| blocks_node s i b ks : block_level (sty s) = true -> (forall k, In k ks -> blocks k) -> blocks (Node s i b ks).
Lemma flowing_blocks (n : node) : flowing sty n -> blocks n.
Proof.
  induction n as [s i b ks IH] using node_ind'. intros F. inversion F as [s' i' b' N' Sz E|s' i' b' l N' Au Ne Fl E]; subst.
  - apply blocks_node; [apply flow_block, N'|intros k []].
  - apply blocks_node; [apply flow_block, N'|]. intros x Ix. apply IH; [exact Ix|apply Fl, Ix].
Qed.
Lemma filling_blocks (n : node) : filling sty n -> blocks n.
Proof.
  induction n as [s i b ks IH] using node_ind'. intros F. inversion F as [m D|s' i' b' l N' Fl E]; subst; [apply blocks_hidden; assumption|].
  apply blocks_node; [apply N'|]. intros x Ix. apply IH; [exact Ix|apply Fl, Ix].
Qed.
Lemma format_matches (n : node) : blocks n -> forall a, matches n (format sty d a n).
Proof.
  induction n as [s i b ks IH] using node_ind'. intros E a. rewrite format_split. destruct (st_display (sty s)) as [dk|] eqn:Dk; [|apply matches_hidden; exact Dk].
  inversion E as [? D|? ? ? ? _ Ek]; subst; [cbn in D; congruence|]. unfold node_of. cbv zeta. constructor; [unfold displayed; cbn [n_style]; congruence|]. apply kids_match; [|intros; apply IH; [assumption|apply Ek; assumption]].
  intros k Ik Hk. destruct (Ek k Ik) as [m D|s' i' b' ks' D _]; [contradiction|exact D].
Qed.
Lemma page_matches h5 (n : node) : blocks n -> matches n (page sty d h5 n).
Proof.
  intros E. pose proof (format_matches n E) as M. unfold page. set (a := mkArea _ _ _ _ _). specialize (M a). destruct (format sty d a n) as [u us| |]; [|exact M..].
  inversion M; subst; [|apply matches_hidden; assumption]. destruct u. constructor; assumption.
Qed.
(** Relating nodes and used values along a path. *)
Lemma kid_shown (n : node) x y u us j k : laid_out_as x y n (UNode u us) -> matches n (UNode u us) -> displayed sty n -> nth_error (n_kids n) j = Some k -> displayed sty k ->
  exists v vs, nth_error us j = Some (UNode v vs) /\ laid_out_as (x + u_left u) (y + u_top u) k (UNode v vs) /\ matches k (UNode v vs).
Proof.
  intros L M D Nk Dk. inversion L as [? ? s i b ks ? ? Hu Hx Hy Fk| |]; subst. inversion M as [? ? ? ? ? ? _ Fm|? ? D0]; subst; [|contradiction]. cbn [n_kids] in Nk.
  destruct (Forall2_nth _ _ _ Fk _ _ Nk) as (t & Et & Lt). destruct (Forall2_nth _ _ _ Fm _ _ Nk) as (t' & Et' & Mt). rewrite Et in Et'. injection Et' as <-.
  inversion Mt as [? ? ? ? v vs _ Fv|? ? D0]; subst; [eauto|contradiction].
Qed.
Lemma box_displayed (n : node) p b : box_at sty n p b -> displayed sty n.
Proof. intros [D _]. inversion D; assumption. Qed.
Lemma tidy_path p : forall (n : node) x y u us b, laid_out_as x y n (UNode u us) -> matches n (UNode u us) -> tidy (UNode u us) -> box_at sty n p b ->
  exists z, absolute_border_box_bottom b = Ok z /\ y + btop u <= nval (absolute_border_box_top b) /\ nval z <= y + border_bottom u.
Proof.
  induction p as [|j p IH]; intros n x y u us b L M T B; inversion T as [u' us' h H1 H2 H3 H4 H5 H6 H7| |]; subst.
  - destruct B as [_ (k & G & E)]. cbn in G. injection G as <-. inversion L as [? ? s i b0 ks ? ? Hu Hx Hy Fk| |]; subst. cbn in E. injection E as ->.
    destruct (has_bottom _ b u h Hu eq_refl H5) as (z & c & Z1 & Z2 & _). destruct (has_top _ _ b u Hu eq_refl eq_refl) as [T1 _]. exists z. split; [exact Z1|]. rewrite T1, Z2. split; apply Qcle_refl.
  - apply box_at_kid in B. destruct B as (k & Nk & Bk & Dn). destruct (kid_shown n x y u us j k L M Dn Nk (box_displayed _ _ _ Bk)) as (v & vs & Nv & Lv & Mv). pose proof (nth_error_In _ _ Nv) as Iv.
    rewrite Forall_forall in H7. destruct (IH k _ _ v vs b Lv Mv (H7 _ Iv) Bk) as (z & Z1 & Z2 & Z3). exists z. split; [exact Z1|].
    destruct H6 as [Fw _]. rewrite Forall_forall in Fw. destruct (Fw _ Iv) as [W1 W2]. set (bv := btop v) in *. set (ev := border_bottom v) in *. clearbody bv ev. unfold btop, border_bottom. rewrite H5. cbn [or0]. clear -Z2 Z3 W1 W2 H1 H2 H3 H4. split; qclra.
Qed.
(** ** C157 *)
Lemma order_path above : forall (n : node) x y u us i j p q b c, laid_out_as x y n (UNode u us) -> matches n (UNode u us) -> (exists h, listed h us) -> Forall tidy us -> (i < j)%nat ->
  box_at sty n (above ++ i :: p) b -> box_at sty n (above ++ j :: q) c ->
  exists z, absolute_border_box_bottom b = Ok z /\ nval z <= nval (absolute_border_box_top c).
Proof.
  induction above as [|m above IH]; intros n x y u us i j p q b c L M [h [Fw Fo]] Ft Lt B C; cbn [app] in B, C.
  - apply box_at_kid in B. destruct B as (k & Nk & Bk & Dn). apply box_at_kid in C. destruct C as (k' & Nk' & Ck & _).
    destruct (kid_shown n x y u us i k L M Dn Nk (box_displayed _ _ _ Bk)) as (v & vs & Nv & Lv & Mv). destruct (kid_shown n x y u us j k' L M Dn Nk' (box_displayed _ _ _ Ck)) as (v' & vs' & Nv' & Lv' & Mv').
    rewrite Forall_forall in Ft. destruct (tidy_path p k _ _ v vs b Lv Mv (Ft _ (nth_error_In _ _ Nv)) Bk) as (z & Z1 & _ & Z3). destruct (tidy_path q k' _ _ v' vs' c Lv' Mv' (Ft _ (nth_error_In _ _ Nv')) Ck) as (_ & _ & Z4 & _).
    exists z. split; [exact Z1|]. pose proof (FOP_nth _ _ Fo _ _ _ _ Lt Nv Nv') as O. cbn [in_order] in O. clear -O Z3 Z4. qclra.
  - apply box_at_kid in B. destruct B as (k & Nk & Bk & Dn). apply box_at_kid in C. destruct C as (k' & Nk' & Ck & _). rewrite Nk in Nk'. injection Nk' as <-.
    destruct (kid_shown n x y u us m k L M Dn Nk (box_displayed _ _ _ Bk)) as (v & vs & Nv & Lv & Mv). rewrite Forall_forall in Ft. pose proof (Ft _ (nth_error_In _ _ Nv)) as T. inversion T as [u' us' h' H1 H2 H3 H4 H5 H6 H7| |]; subst.
    eapply IH; [exact Lv|exact Mv|eauto|exact H7|exact Lt|exact Bk|exact Ck].
Qed.
(** ** C158 *)
Lemma inside_path p : forall (n : node) x y u us j r b c, laid_out_as x y n (UNode u us) -> matches n (UNode u us) -> Forall tidy us -> (p = [] -> tidy (UNode u us)) ->
  box_at sty n p b -> box_at sty n (p ++ j :: r) c ->
  exists z z', absolute_border_box_bottom c = Ok z /\ absolute_content_bottom b = Ok z' /\ nval (absolute_content_top b) <= nval (absolute_border_box_top c) /\ nval z <= nval z'.
Proof.
  induction p as [|m p IH]; intros n x y u us j r b c L M Ft Tn B C; cbn [app] in C.
  - specialize (Tn eq_refl). inversion Tn as [u' us' h H1 H2 H3 H4 H5 H6 H7| |]; subst. destruct B as [Dn (k & G & E)]. cbn in G. injection G as <-. apply box_at_kid in C. destruct C as (k' & Nk' & Ck & Dn').
    destruct (kid_shown n x y u us j k' L M Dn' Nk' (box_displayed _ _ _ Ck)) as (v & vs & Nv & Lv & Mv). pose proof (nth_error_In _ _ Nv) as Iv. rewrite Forall_forall in Ft. destruct (tidy_path r k' _ _ v vs c Lv Mv (Ft _ Iv) Ck) as (z & Z1 & Z2 & Z3).
    inversion L as [? ? s i b0 ks ? ? Hu Hx Hy Fk| |]; subst. cbn in E. injection E as ->. destruct (has_bottom _ b u h Hu eq_refl H5) as (z0 & z' & _ & _ & Z4 & Z5). destruct (has_top _ _ b u Hu eq_refl eq_refl) as [_ T1].
    exists z, z'. split; [exact Z1|]. split; [exact Z4|]. rewrite T1, Z5. destruct H6 as [Fw _]. rewrite Forall_forall in Fw. destruct (Fw _ Iv) as [W1 W2]. clear -W1 W2 Z2 Z3. split; qclra.
  - apply box_at_kid in B. destruct B as (k & Nk & Bk & Dn). apply box_at_kid in C. destruct C as (k' & Nk' & Ck & _). rewrite Nk in Nk'. injection Nk' as <-.
    destruct (kid_shown n x y u us m k L M Dn Nk (box_displayed _ _ _ Bk)) as (v & vs & Nv & Lv & Mv). rewrite Forall_forall in Ft. pose proof (Ft _ (nth_error_In _ _ Nv)) as T. inversion T as [u' us' h' H1 H2 H3 H4 H5 H6 H7| |]; subst.
    eapply IH; [exact Lv|exact Mv|exact H7|intros _; exact T|exact Bk|exact Ck].
Qed.

(** ** Widths *)
Definition bleft (u : used) : Qc := u_left u - u_pl u - u_bl u.
Definition bright (u : used) : Qc := u_left u + or0 (u_w u) + u_pr u + u_br u.
Definition within_w (w : Qc) (t : utree) : Prop := match t with UNode v _ => 0 <= bleft v /\ bright v <= w | _ => True end.
Inductive wide : utree -> Prop :=
| wide_node u us w : 0 <= u_bl u -> 0 <= u_pl u -> 0 <= u_pr u -> 0 <= u_br u -> u_w u = Some w -> Forall (within_w w) us -> Forall wide us -> wide (UNode u us)
| wide_hidden : wide UHidden
| wide_skipped : wide USkipped.
Lemma format_wide (n : node) : sane_display d -> filling sty n -> forall a, wide (format sty d a n) /\ within_w (or0 (a_w a)) (format sty d a n).
Proof.
  intros Sd. induction n as [s i b ks IH] using node_ind'. intros E a. rewrite format_split. destruct (st_display (sty s)) as [dk|] eqn:Dk; [|split; [constructor|exact I]].
  inversion E as [? D|? ? ? ? N Ek]; subst; [cbn in D; congruence|]. assert (Hr : isrel (sty s) = false) by (pose proof (fl_static _ N) as X; unfold isrel; destruct (st_position (sty s)); try reflexivity; contradiction).
  assert (Hi : isinl dk = false) by (pose proof (fl_display _ N) as X; unfold block_level in X; rewrite Dk in X; destruct dk; try discriminate; reflexivity).
  set (inner := inner_of d a dk (sty s) i). set (st := stacks_ sty dk ks).
  assert (K : Forall wide (kids_of sty d inner st ks) /\ Forall (within_w (or0 (a_w inner))) (kids_of sty d inner st ks)).
  { assert (Km : Forall (fun t => wide t /\ within_w (or0 (a_w inner)) t) (map (MoveProps.laid_kid sty d inner st) ks)).
    { apply Forall_forall. intros t It. apply in_map_iff in It. destruct It as (k & <- & Ik). unfold MoveProps.laid_kid. destruct (_ && _); [split; [constructor|exact I]|]. apply IH; [exact Ik|apply Ek, Ik]. }
    assert (Ks : Forall (fun t => wide t /\ within_w (or0 (a_w inner)) t) (kids_of sty d inner st ks)).
    { unfold kids_of. destruct st; [|exact Km]. set (l := map _ ks) in *. clearbody l inner. clear -Km. assert (G : forall top prev, Forall (fun t => wide t /\ within_w (or0 (a_w inner)) t) (stack top prev l)); [|apply G].
      induction Km as [|t l [H1 H2] _ IHl]; intros top prev; [constructor|]. destruct t as [u us| |]; cbn [stack]; constructor; try apply IHl; try (split; assumption).
      split; [|destruct u; exact H2]. inversion H1 as [u' us' w A1 A2 A3 A4 A5 A6 A7| |]; subst. destruct u. cbn in *. econstructor; cbn; eassumption. }
    clear -Ks. split; (eapply Forall_impl; [|exact Ks]); intros t [H1 H2]; assumption. }
  destruct K as [K1 K2]. set (kids := kids_of sty d inner st ks) in *. clearbody kids. unfold node_of. cbv zeta. rewrite Hr.
  assert (Bl : 0 <= border_len d (or0 (a_h a)) (st_border_left (sty s))) by (apply pborder_nonneg; [exact Sd|apply N]). assert (Br : 0 <= border_len d (or0 (a_h a)) (st_border_right (sty s))) by (apply pborder_nonneg; [exact Sd|apply N]).
  assert (Pl : 0 <= len d (or0 (a_h a)) (st_padding_left (sty s))) by (apply plain_nonneg; [exact Sd|apply N]). assert (Pr : 0 <= len d (or0 (a_h a)) (st_padding_right (sty s))) by (apply plain_nonneg; [exact Sd|apply N]).
  assert (Ml : 0 <= len0 d (or0 (a_w a)) (st_margin_left (sty s))) by (pose proof (fl_ml _ N) as X; destruct (st_margin_left (sty s)); [discriminate|apply plain_nonneg; assumption]).
  assert (Mr : 0 <= len0 d (or0 (a_w a)) (st_margin_right (sty s))) by (pose proof (fl_mr _ N) as X; destruct (st_margin_right (sty s)); [discriminate|apply plain_nonneg; assumption]).
  assert (Ew : wmargins d a dk (sty s) i = (Some (or0 (a_w a) - hedges d (or0 (a_h a)) (sty s) - len0 d (or0 (a_w a)) (st_margin_left (sty s)) - len0 d (or0 (a_w a)) (st_margin_right (sty s))), len0 d (or0 (a_w a)) (st_margin_left (sty s)), len0 d (or0 (a_w a)) (st_margin_right (sty s)))).
  { unfold wmargins. rewrite Hi. unfold widths. rewrite (fl_width _ N). reflexivity. }
  unfold inner, inner_of in K2. cbn [a_w] in K2. rewrite Ew in *. cbn [fst snd or0] in *. unfold lefts. rewrite Hi, Ew. cbn [andb fst snd]. split.
  - econstructor; cbn [u_bl u_pl u_pr u_br u_w]; [exact Bl|exact Pl|exact Pr|exact Br|reflexivity|exact K2|exact K1].
  - cbn [within_w]. unfold bleft, bright. cbn [u_left u_pl u_bl u_w u_pr u_br or0]. unfold hedges. clear -Ml Mr. split; qclra.
Qed.
Lemma page_wide h5 (n : node) : sane_display d -> filling sty n -> wide (page sty d h5 n).
Proof.
  intros Sd E. unfold page. set (a := mkArea _ _ _ _ _). destruct (format_wide n Sd E a) as [W _]. destruct (format sty d a n) as [u us| |]; [|exact W..].
  inversion W as [u' us' w A1 A2 A3 A4 A5 A6 A7| |]; subst. destruct u. cbn in *. econstructor; cbn; eassumption.
Qed.
Lemma has_left x (b : box) u : has_used b u -> nval (origin_left b) = x -> nval (absolute_border_box_left b) = x + bleft u /\ nval (absolute_content_left b) = x + u_left u.
Proof. intros H E. unfold absolute_border_box_left, absolute_content_left. rewrite !nval_sub, !nval_add, E, (hu_left _ _ H), (hu_pl _ _ H), (hu_bl _ _ H). unfold bleft. split; ring. Qed.
Lemma has_right x (b : box) u w : has_used b u -> nval (origin_left b) = x -> u_w u = Some w ->
  exists z c, absolute_border_box_right b = Ok z /\ nval z = x + bright u /\ absolute_content_right b = Ok c /\ nval c = x + u_left u + w.
Proof.
  intros H E Eh. pose proof (hu_w _ _ H) as X. rewrite Eh in X. destruct X as (v & X1 & X2). unfold absolute_border_box_right, absolute_content_right. rewrite X1. cbn [as_num bindr]. eexists _, _. split; [reflexivity|].
  split; [|split; [reflexivity|]]; rewrite !nval_add, E, (hu_left _ _ H), X2, ?(hu_pr _ _ H), ?(hu_br _ _ H); unfold bright; rewrite ?Eh; cbn [or0]; ring.
Qed.
Lemma wide_path p : forall (n : node) x y u us b, laid_out_as x y n (UNode u us) -> matches n (UNode u us) -> wide (UNode u us) -> box_at sty n p b ->
  exists z, absolute_border_box_right b = Ok z /\ x + bleft u <= nval (absolute_border_box_left b) /\ nval z <= x + bright u.
Proof.
  induction p as [|j p IH]; intros n x y u us b L M T B; inversion T as [u' us' h H1 H2 H3 H4 H5 H6 H7| |]; subst.
  - destruct B as [_ (k & G & E)]. cbn in G. injection G as <-. inversion L as [? ? s i b0 ks ? ? Hu Hx Hy Fk| |]; subst. cbn in E. injection E as ->.
    destruct (has_right _ b u h Hu eq_refl H5) as (z & c & Z1 & Z2 & _). destruct (has_left _ b u Hu eq_refl) as [T1 _]. exists z. split; [exact Z1|]. rewrite T1, Z2. split; apply Qcle_refl.
  - apply box_at_kid in B. destruct B as (k & Nk & Bk & Dn). destruct (kid_shown n x y u us j k L M Dn Nk (box_displayed _ _ _ Bk)) as (v & vs & Nv & Lv & Mv). pose proof (nth_error_In _ _ Nv) as Iv.
    rewrite Forall_forall in H7. destruct (IH k _ _ v vs b Lv Mv (H7 _ Iv) Bk) as (z & Z1 & Z2 & Z3). exists z. split; [exact Z1|]. rewrite Forall_forall in H6. destruct (H6 _ Iv) as [W1 W2].
    set (bv := bleft v) in *. set (ev := bright v) in *. clearbody bv ev. unfold bleft, bright. rewrite H5. cbn [or0]. clear -Z2 Z3 W1 W2 H1 H2 H3 H4. split; qclra.
Qed.
Lemma across_path p : forall (n : node) x y u us j r b c, laid_out_as x y n (UNode u us) -> matches n (UNode u us) -> wide (UNode u us) ->
  box_at sty n p b -> box_at sty n (p ++ j :: r) c ->
  exists z z', absolute_border_box_right c = Ok z /\ absolute_content_right b = Ok z' /\ nval (absolute_content_left b) <= nval (absolute_border_box_left c) /\ nval z <= nval z'.
Proof.
  induction p as [|m p IH]; intros n x y u us j r b c L M T B C; cbn [app] in C; inversion T as [u' us' h H1 H2 H3 H4 H5 H6 H7| |]; subst; rewrite Forall_forall in H7.
  - destruct B as [Dn (k & G & E)]. cbn in G. injection G as <-. apply box_at_kid in C. destruct C as (k' & Nk' & Ck & Dn').
    destruct (kid_shown n x y u us j k' L M Dn' Nk' (box_displayed _ _ _ Ck)) as (v & vs & Nv & Lv & Mv). pose proof (nth_error_In _ _ Nv) as Iv. destruct (wide_path r k' _ _ v vs c Lv Mv (H7 _ Iv) Ck) as (z & Z1 & Z2 & Z3).
    inversion L as [? ? s i b0 ks ? ? Hu Hx Hy Fk| |]; subst. cbn in E. injection E as ->. destruct (has_right _ b u h Hu eq_refl H5) as (z0 & z' & _ & _ & Z4 & Z5). destruct (has_left _ b u Hu eq_refl) as [_ T1].
    exists z, z'. split; [exact Z1|]. split; [exact Z4|]. rewrite T1, Z5. rewrite Forall_forall in H6. destruct (H6 _ Iv) as [W1 W2]. clear -W1 W2 Z2 Z3. split; qclra.
  - apply box_at_kid in B. destruct B as (k & Nk & Bk & Dn). apply box_at_kid in C. destruct C as (k' & Nk' & Ck & _). rewrite Nk in Nk'. injection Nk' as <-.
    destruct (kid_shown n x y u us m k L M Dn Nk (box_displayed _ _ _ Bk)) as (v & vs & Nv & Lv & Mv). eapply IH; [exact Lv|exact Mv|exact (H7 _ (nth_error_In _ _ Nv))|exact Bk|exact Ck].
Qed.
End F.

(** ** The theorems *)
Section T.
Context {S : Type} (sty : S -> style).
Notation node := (node S).
Lemma same_kids (ks ks' : list node) : map inputs ks = map inputs ks' -> Forall2 (fun k k' => inputs k = inputs k') ks ks'.
Proof. revert ks'. induction ks as [|k ks IH]; intros [|k' ks'] E; try discriminate; constructor; injection E as E1 E2; [exact E1|apply IH, E2]. Qed.
Lemma Forall2_back {A B} (R : A -> B -> Prop) l r : Forall2 R l r -> forall x, In x r -> exists y, In y l /\ R y x.
Proof. induction 1 as [|a b l r H _ IH]; intros x I; [destruct I|]. destruct I as [<- |I]; [exists a; split; [left; reflexivity|exact H]|]. destruct (IH x I) as (y & Y1 & Y2). exists y. split; [right; exact Y1|exact Y2]. Qed.
Lemma same_style (n m : node) : inputs n = inputs m -> n_style n = n_style m.
Proof. destruct n, m. cbn. intros E. injection E as -> _ _. reflexivity. Qed.
Lemma flowing_inputs (n : node) : forall m, inputs n = inputs m -> flowing sty n -> flowing sty m.
Proof.
  induction n as [s i b ks IH] using node_ind'. intros [s' i' b' ks'] E F. pose proof (same_style _ _ E) as Es. cbn [inputs n_style] in *. injection E as <- <- E. apply same_kids in E.
  inversion F as [s1 i1 b1 N' Sz E1|s1 i1 b1 l N' Au Ne Fl E1]; subst.
  - inversion E; subst. apply flowing_leaf; assumption.
  - apply flowing_block; [assumption..| |].
    + intros ->. inversion E; subst. contradiction.
    + intros x Ix. destruct (Forall2_back _ _ _ E _ Ix) as (y & Iy & Ey). apply (IH y); [exact Iy|exact Ey|apply Fl, Iy].
Qed.
Lemma filling_inputs (n : node) : forall m, inputs n = inputs m -> filling sty n -> filling sty m.
Proof.
  induction n as [s i b ks IH] using node_ind'. intros [s' i' b' ks'] E F. cbn [inputs] in E. injection E as <- <- E.
  inversion F as [m D|s1 i1 b1 l N' Fl E1]; subst; [apply filling_hidden; exact D|]. apply filling_block; [exact N'|].
  intros k' Ik'. assert (X : In (inputs k') (map inputs ks)) by (rewrite E; apply in_map, Ik'). apply in_map_iff in X. destruct X as (k & Ek & Ik). apply (IH k Ik k' Ek), Fl, Ik.
Qed.
Lemma result_page d h5 (n n' : node) : boxed n -> layout sty d h5 n = (n', Ok tt) -> inputs n = inputs n' /\ laid_out_as 0 0 n' (page sty d h5 n').
Proof.
  intros B H. assert (E : inputs n = inputs n') by (pose proof (layout_inputs sty d h5 n) as I; rewrite H in I; symmetry; exact I). split; [exact E|].
  pose proof (C112_every_layout_is_the_reference sty d h5 n n' (boxed_ready sty n B) (or_introl B) H) as La.
  replace (page sty d h5 n') with (page sty d h5 n); [exact La|]. unfold page. rewrite (format_inputs sty d n n' E). reflexivity.
Qed.
Lemma shown_root d h5 (n : node) p b : blocks sty n -> box_at sty n p b -> exists u us, page sty d h5 n = UNode u us.
Proof.
  intros Bl B. pose proof (box_displayed _ _ _ _ B) as D. unfold page. set (a := mkArea _ _ _ _ _). destruct (format_node sty d a n D) as (u & us & ->). destruct u. eauto.
Qed.

(** C157: what comes first in the document is above what comes later. *)
Theorem C157_in_order : forall d h5 (n n' : node) p q b c, sane_display d -> boxed n -> flowing sty n -> layout sty d h5 n = (n', Ok tt) ->
  box_at sty n' p b -> box_at sty n' q c -> precedes p q ->
  exists z, absolute_border_box_bottom b = Ok z /\ nval z <= nval (absolute_border_box_top c).
Proof.
  intros d h5 n n' p q b c Sd Bn F H B C (above & i & j & p' & q' & -> & -> & L). destruct (result_page d h5 n n' Bn H) as [E La]. apply (flowing_inputs n n' E) in F. pose proof (flowing_blocks sty n' F) as Bl.
  pose proof (page_matches sty d h5 n' Bl) as M. destruct (shown_root d h5 n' _ b Bl B) as (u & us & Ep). destruct (page_tidy sty d h5 n' Sd F u us Ep) as (Li & Ti & _). rewrite Ep in La, M.
  exact (order_path sty above n' 0 0 u us i j p' q' b c La M Li Ti L B C).
Qed.
(** C158: what is inside a block in the document is inside its content box. *)
Theorem C158_down : forall d h5 (n n' : node) p q b c, sane_display d -> boxed n -> flowing sty n -> layout sty d h5 n = (n', Ok tt) ->
  box_at sty n' p b -> box_at sty n' q c -> inside q p -> p <> [] \/ h5 = false ->
  exists z z', absolute_border_box_bottom c = Ok z /\ absolute_content_bottom b = Ok z'
    /\ nval (absolute_content_top b) <= nval (absolute_border_box_top c) /\ nval z <= nval z'.
Proof.
  intros d h5 n n' p q b c Sd Bn F H B C (j & r & ->) Np. destruct (result_page d h5 n n' Bn H) as [E La]. apply (flowing_inputs n n' E) in F. pose proof (flowing_blocks sty n' F) as Bl.
  pose proof (page_matches sty d h5 n' Bl) as M. destruct (shown_root d h5 n' _ b Bl B) as (u & us & Ep). destruct (page_tidy sty d h5 n' Sd F u us Ep) as (_ & Ti & Tr). rewrite Ep in La, M.
  apply (inside_path sty p n' 0 0 u us j r b c La M Ti); [|exact B|exact C]. intros ->. apply Tr. destruct Np as [Np|Np]; [contradiction|exact Np].
Qed.
Theorem C158_across : forall d h5 (n n' : node) p q b c, sane_display d -> boxed n -> filling sty n -> layout sty d h5 n = (n', Ok tt) ->
  box_at sty n' p b -> box_at sty n' q c -> inside q p ->
  exists z z', absolute_border_box_right c = Ok z /\ absolute_content_right b = Ok z'
    /\ nval (absolute_content_left b) <= nval (absolute_border_box_left c) /\ nval z <= nval z'.
Proof.
  intros d h5 n n' p q b c Sd Bn F H B C (j & r & ->). destruct (result_page d h5 n n' Bn H) as [E La]. apply (filling_inputs n n' E) in F. pose proof (filling_blocks sty n' F) as Bl.
  pose proof (page_matches sty d h5 n' Bl) as M. destruct (shown_root d h5 n' _ b Bl B) as (u & us & Ep). pose proof (page_wide sty d h5 n' Sd F) as W. rewrite Ep in La, M, W.
  exact (across_path sty p n' 0 0 u us j r b c La M W B C).
Qed.
End T.
Print Assumptions C157_in_order.
Print Assumptions C158_down.
Print Assumptions C158_across.

(** ** Examples *)
Open Scope Z_scope.
(** Negative and collapsing margins, borders, paddings, a list item and a nested block. *)
Definition flow_doc : doc :=
  el (s_padding (pxu 3) (pxu 4) (pxu 5) (pxu 6) block_style)
    [el (vmargin (-9) 7 (hpx 10 block_style)) [];
     el (s_border (BKw Thin) (BLen (pxu 2)) (BKw Thick) (BLen (pxu 1)) (s_margin (Len (pxu 4)) (Len (pxu 8)) Auto (Len (pxu 9)) block_style))
       [el (hpx 20 block_style) []; el (vmargin 2 6 (s_padding (pxu 1) (pxu 2) (pxu 3) (pxu 4) (hpx 5 block_style))) []];
     el (vmargin (-4) (-4) (hpx 8 (s_display (Some DListItem) block_style))) []].
Ltac nf := constructor; cbn; [left; reflexivity || (right; reflexivity)|discriminate|..]; try exact I; split; (discriminate || exact I).
Ltac fl_leaf := apply flowing_leaf; [constructor; cbn; [(left; reflexivity) || (right; reflexivity)|discriminate|..]; try exact I; split; (discriminate || exact I)|].
Ltac fl_sized := split; [|split]; cbn; try exact I; split; [discriminate|left; exact I].
Lemma flow_doc_flows : flowing idsty flow_doc.
Proof.
  apply flowing_block; [nf|reflexivity|discriminate|]. intros x [<- |[<- |[<- |[]]]].
  - fl_leaf. fl_sized.
  - apply flowing_block; [nf|reflexivity|discriminate|]. intros x [<- |[<- |[]]]; fl_leaf; fl_sized.
  - fl_leaf. fl_sized.
Qed.
Ltac fills_tac := constructor; cbn; [reflexivity|discriminate|reflexivity|..]; try exact I; split; (discriminate || exact I).
Lemma flow_doc_fills : filling idsty flow_doc.
Proof.
  apply filling_block; [fills_tac|]. intros x [<- |[<- |[<- |[]]]].
  - apply filling_block; [fills_tac|intros ? []].
  - apply filling_block; [fills_tac|]. intros x [<- |[<- |[]]]; (apply filling_block; [fills_tac|intros ? []]).
  - apply filling_block; [fills_tac|intros ? []].
Qed.
Lemma screen_sane : sane_display screen.
Proof. repeat split; try discriminate. intros []; discriminate. Qed.
Definition flow_out : doc := out true flow_doc.
Ltac box_tac := split; [repeat first [apply dp_here; unfold displayed; vm_compute; discriminate | eapply dp_kid; [unfold displayed; vm_compute; discriminate|vm_compute; reflexivity|]]|eexists; split; vm_compute; reflexivity].
Definition vspan (n : doc) : Q * option Q := (this (nval (absolute_border_box_top (bx n))), match absolute_border_box_bottom (bx n) with Ok z => Some (this (nval z)) | Err _ => None end).
Definition hspan (n : doc) : Q * option Q := (this (nval (absolute_border_box_left (bx n))), match absolute_border_box_right (bx n) with Ok z => Some (this (nval z)) | Err _ => None end).
Example C157_example : sane_display screen /\ boxed flow_doc /\ flowing idsty flow_doc /\ layout idsty screen true flow_doc = (flow_out, Ok tt)
  /\ box_at idsty flow_out [0%nat] (bx (kid 0 flow_out)) /\ box_at idsty flow_out [1%nat; 1%nat] (bx (kid 1 (kid 1 flow_out))) /\ box_at idsty flow_out [2%nat] (bx (kid 2 flow_out))
  /\ precedes [0%nat] [1%nat; 1%nat] /\ precedes [1%nat; 1%nat] [2%nat]
  /\ vspan (kid 0 flow_out) = (3, Some 13)%Q /\ vspan (kid 1 (kid 1 flow_out)) = (43, Some 52)%Q /\ vspan (kid 2 flow_out) = (63, Some 71)%Q.
Proof.
  split; [apply screen_sane|]. split; [solve_boxed|]. split; [apply flow_doc_flows|]. split; [apply ok_layout; vm_compute; reflexivity|].
  split; [box_tac|]. split; [box_tac|]. split; [box_tac|]. split; [exists [], 0%nat, 1%nat, [], [1%nat]; repeat split; lia|]. split; [exists [], 1%nat, 2%nat, [1%nat], []; repeat split; lia|]. repeat split; vm_compute; reflexivity.
Qed.
Example C158_example : sane_display screen /\ boxed flow_doc /\ flowing idsty flow_doc /\ filling idsty flow_doc /\ layout idsty screen true flow_doc = (flow_out, Ok tt)
  /\ box_at idsty flow_out [1%nat] (bx (kid 1 flow_out)) /\ box_at idsty flow_out [1%nat; 1%nat] (bx (kid 1 (kid 1 flow_out))) /\ inside [1%nat; 1%nat] [1%nat]
  /\ vspan (kid 1 flow_out) = (20, Some 57)%Q /\ vspan (kid 1 (kid 1 flow_out)) = (43, Some 52)%Q
  /\ hspan (kid 1 flow_out) = (15, Some 988)%Q /\ hspan (kid 1 (kid 1 flow_out)) = (16, Some 986)%Q.
Proof.
  split; [apply screen_sane|]. split; [solve_boxed|]. split; [apply flow_doc_flows|]. split; [apply flow_doc_fills|]. split; [apply ok_layout; vm_compute; reflexivity|].
  split; [box_tac|]. split; [box_tac|]. split; [exists 1%nat, []; reflexivity|]. repeat split; vm_compute; reflexivity.
Qed.
