(** * C131, C132: what a change of the document can affect *)
From Coq Require Import ZArith QArith Qcanon Qround Lia Lqa Bool List.
From Verif Require Import PyNum NumFacts Units BoxModel BoxSpec BoxFacts Engine EnginePure EngineSpec EngineExamples EngineInv EngineTree EngineTotal EngineWidth
  RefLayout RefFacts RefProps HistSpec HistProps MoveSpec MoveProps EdgeSpec EdgeProps LocalSpec.
Import ListNotations.
Open Scope Qc_scope.

Section L.
Context {S : Type} (sty : S -> style).
Notation node := (node S).

(** ** C131 *)
Lemma same_but_height_refl u : same_but_height u u. Proof. repeat split. Qed.
Lemma same_but_height_down t u v : same_but_height u v -> same_but_height (move_down t u) (move_down t v).
Proof.
  intros (H1 & H2 & H3 & H4). destruct u, v. cbn in *. injection H1 as -> -> -> ->. injection H2 as -> -> -> ->. injection H3 as -> -> -> ->. injection H4 as -> -> -> ->. repeat split.
Qed.
Lemma inputs_style (k k' : node) : inputs k = inputs k' -> n_style k = n_style k'.
Proof. destruct k, k'. cbn. intros E. injection E as -> _ _. reflexivity. Qed.
Lemma laid_kids_inputs d inner st (l l' : list node) : map inputs l = map inputs l' -> map (MoveProps.laid_kid sty d inner st) l = map (MoveProps.laid_kid sty d inner st) l'.
Proof.
  revert l'. induction l as [|k l IH]; intros [|k' l'] E; try discriminate; [reflexivity|]. cbn [map] in *. injection E as E1 E2. rewrite (IH _ E2). f_equal.
  unfold MoveProps.laid_kid. rewrite (format_inputs sty d k k' E1), (inputs_style k k' E1). reflexivity.
Qed.
Lemma has_block_inputs (l l' : list node) : map inputs l = map inputs l' -> has_block sty l = has_block sty l'.
Proof.
  revert l'. induction l as [|k l IH]; intros [|k' l'] E; try discriminate; [reflexivity|]. cbn [map] in *. injection E as E1 E2. unfold has_block in *. cbn [existsb].
  rewrite (IH _ E2), (inputs_style k k' E1). reflexivity.
Qed.
Lemma stack_app l1 : forall top prev, exists (r1 : list utree) top' prev', Datatypes.length r1 = Datatypes.length l1 /\ forall l2, stack top prev (l1 ++ l2) = r1 ++ stack top' prev' l2.
Proof.
  induction l1 as [|x l1 IH]; intros top prev.
  - exists [], top, prev. auto.
  - destruct x as [u us| |]; cbn [app stack].
    + destruct (IH (top + match prev with None => 0 | Some z => qc_maxi (Z2Qc z) (u_mt u) end + border_height u) (Some (u_cb u))) as (r1 & top' & prev' & E & F).
      eexists (_ :: r1), top', prev'. cbn [Datatypes.length app]. split; [f_equal; exact E|]. intros l2. rewrite F. reflexivity.
    + destruct (IH top prev) as (r1 & top' & prev' & E & F). exists (UHidden :: r1), top', prev'. cbn [Datatypes.length app]. split; [f_equal; exact E|]. intros l2. rewrite F. reflexivity.
    + destruct (IH top prev) as (r1 & top' & prev' & E & F). exists (USkipped :: r1), top', prev'. cbn [Datatypes.length app]. split; [f_equal; exact E|]. intros l2. rewrite F. reflexivity.
Qed.
(** The children before a place are laid out alike; what comes next starts at the same place. *)
Lemma kids_app d inner st (l l' : list node) : map inputs l = map inputs l' -> exists (r : list utree) top prev, Datatypes.length r = Datatypes.length l /\
  (forall l2, kids_of sty d inner st (l ++ l2) = r ++ (if st then stack top prev (map (MoveProps.laid_kid sty d inner st) l2) else map (MoveProps.laid_kid sty d inner st) l2))
  /\ (forall l2, kids_of sty d inner st (l' ++ l2) = r ++ (if st then stack top prev (map (MoveProps.laid_kid sty d inner st) l2) else map (MoveProps.laid_kid sty d inner st) l2)).
Proof.
  intros E. pose proof (laid_kids_inputs d inner st l l' E) as K. unfold kids_of. destruct st.
  - destruct (stack_app (map (MoveProps.laid_kid sty d inner true) l) 0 None) as (r & top & prev & Le & F). rewrite map_length in Le. exists r, top, prev. split; [exact Le|].
    split; intros l2; rewrite map_app; [apply F|rewrite <- K; apply F].
  - exists (map (MoveProps.laid_kid sty d inner false) l), 0, None. rewrite map_length. split; [reflexivity|]. split; intros l2; rewrite map_app; [reflexivity|rewrite <- K; reflexivity].
Qed.
Lemma node_alike d a dk s i st ks ks' :
  (st = true -> match ks with UNode u _ :: _ => u_ct u | _ => 0%Z end = match ks' with UNode u _ :: _ => u_ct u | _ => 0%Z end) ->
  exists u v, node_of d a dk s i st ks = UNode u ks /\ node_of d a dk s i st ks' = UNode v ks' /\ same_but_height u v.
Proof.
  intros E. unfold node_of. cbv zeta. do 2 eexists. split; [reflexivity|]. split; [reflexivity|]. repeat split. cbn. destruct st; [rewrite E by reflexivity|]; reflexivity.
Qed.
Lemma stacks_has dk (l1 l2 : list node) : stacks_ sty dk l1 = stacks_ sty dk l2 <-> (match dk with DBlock | DListItem => has_block sty l1 = has_block sty l2 | _ => True end).
Proof. unfold stacks_, has_block. destruct dk; split; auto. Qed.
Lemma has_block_app (l1 l2 : list node) : has_block sty (l1 ++ l2) = has_block sty l1 || has_block sty l2.
Proof. apply existsb_app. Qed.
Lemma has_block_nil (l : list node) : has_block sty l = true -> l <> []. Proof. intros H ->. discriminate. Qed.
Lemma same_before_ct p t t' : same_before p t t' -> match t with UNode u _ => u_ct u | _ => 0%Z end = match t' with UNode u _ => u_ct u | _ => 0%Z end.
Proof.
  intros H. inversion H as [u v b r r' (_ & _ & _ & E)|q u v b x x' r r' (_ & _ & _ & E) _|q x Hx]; subst; try reflexivity; injection E as _ _ _ ->; reflexivity.
Qed.
Lemma same_before_down p u us v us' t : same_before p (UNode u us) (UNode v us') -> same_before p (UNode (move_down t u) us) (UNode (move_down t v) us').
Proof.
  intros H. inversion H as [? ? b r r' E|q ? ? b x x' r r' E M|q x Hx]; subst.
  - apply same_here, same_but_height_down, E.
  - apply same_below; [apply same_but_height_down, E|exact M].
  - destruct Hx; discriminate.
Qed.
Lemma later_style p (n m : node) : later sty p n m -> n_style m = n_style n.
Proof. intros H. inversion H; reflexivity. Qed.
Lemma stack_head top prev x l : exists y r, stack top prev (x :: l) = y :: r /\ match y with UNode u _ => u_ct u | _ => 0%Z end = match x with UNode u _ => u_ct u | _ => 0%Z end.
Proof. destruct x as [u us| |]; cbn [stack]; do 2 eexists; (split; [reflexivity|]); try reflexivity. destruct u; reflexivity. Qed.

Theorem format_later p n m : later sty p n m -> forall d a, same_before p (format sty d a n) (format sty d a m).
Proof.
  induction 1 as [s i b b' before before' rest rest' E C|p s i b b' before before' k k' rest rest' E L IH C]; intros d a; rewrite !format_split;
    (destruct (st_display (sty s)) as [dk|] eqn:Dk; [|apply same_away; auto]).
  - assert (St : stacks_ sty dk (before' ++ rest') = stacks_ sty dk (before ++ rest)).
    { apply stacks_has. destruct dk; try exact I; rewrite !has_block_app, <- (has_block_inputs _ _ E); destruct C as [-> |[-> ->]]; reflexivity. }
    rewrite St. set (st := stacks_ sty dk (before ++ rest)) in *. set (inner := inner_of d a dk (sty s) i).
    destruct (kids_app d inner st before before' E) as (r & top & prev & Le & F1 & F2). rewrite F1, F2. rewrite <- Le.
    match goal with |- same_before _ (node_of _ _ _ _ _ _ ?l) (node_of _ _ _ _ _ _ ?l') => destruct (node_alike d a dk (sty s) i st l l') as (u & v & N1 & N2 & N3) end.
    + intros St'. destruct r as [|x r]; [|reflexivity]. destruct before; [|discriminate]. exfalso. destruct C as [C|[C1 C2]]; [discriminate|].
      unfold st, stacks_ in St'. cbn [app] in St'. unfold has_block in C1. destruct dk; try discriminate; congruence.
    + rewrite N1, N2. apply same_here, N3.
  - pose proof (later_style _ _ _ L) as Es.
    assert (St : stacks_ sty dk (before' ++ k' :: rest') = stacks_ sty dk (before ++ k :: rest)).
    { apply stacks_has. replace (before' ++ k' :: rest') with ((before' ++ [k']) ++ rest') by (rewrite <- app_assoc; reflexivity).
      replace (before ++ k :: rest) with ((before ++ [k]) ++ rest) by (rewrite <- app_assoc; reflexivity).
      assert (Eb : has_block sty (before' ++ [k']) = has_block sty (before ++ [k])).
      { rewrite !has_block_app, <- (has_block_inputs _ _ E). f_equal. unfold has_block. cbn [existsb]. rewrite Es. reflexivity. }
      destruct dk; try exact I; rewrite (has_block_app (before' ++ [k'])), (has_block_app (before ++ [k])), Eb; destruct C as [-> |[-> ->]]; reflexivity. }
    rewrite St. set (st := stacks_ sty dk (before ++ k :: rest)) in *. set (inner := inner_of d a dk (sty s) i).
    destruct (kids_app d inner st before before' E) as (r & top & prev & Le & F1 & F2). rewrite F1, F2. rewrite <- Le. cbn [map].
    assert (Lk : same_before p (MoveProps.laid_kid sty d inner st k) (MoveProps.laid_kid sty d inner st k')).
    { unfold MoveProps.laid_kid. rewrite Es. destruct (_ && _); [apply same_away; auto|apply IH]. }
    set (x := MoveProps.laid_kid sty d inner st k) in *. set (x' := MoveProps.laid_kid sty d inner st k') in *.
    assert (K : exists y y' q q', (if st then stack top prev (x :: map (MoveProps.laid_kid sty d inner st) rest) else x :: map (MoveProps.laid_kid sty d inner st) rest) = y :: q
      /\ (if st then stack top prev (x' :: map (MoveProps.laid_kid sty d inner st) rest') else x' :: map (MoveProps.laid_kid sty d inner st) rest') = y' :: q' /\ same_before p y y').
    { destruct st; [|do 4 eexists; split; [reflexivity|]; split; [reflexivity|exact Lk]].
      destruct x as [u us| |], x' as [v us'| |]; try (inversion Lk; fail); cbn [stack]; do 4 eexists; (split; [reflexivity|]); (split; [reflexivity|]); try exact Lk.
      assert (Em : u_mt v = u_mt u).
      { inversion Lk as [? ? ? ? ? (Em & _)|? ? ? ? ? ? ? ? (Em & _) _|? ? [Hx|Hx]]; subst; try discriminate; injection Em as -> _ _ _; reflexivity. }
      rewrite Em. apply same_before_down, Lk. }
    destruct K as (y & y' & q & q' & -> & -> & Ky).
    destruct (node_alike d a dk (sty s) i st (r ++ y :: q) (r ++ y' :: q')) as (u & v & N1 & N2 & N3).
    + intros _. destruct r as [|z r]; [|reflexivity]. cbn [app]. exact (same_before_ct _ _ _ Ky).
    + rewrite N1, N2. apply same_below; assumption.
Qed.
Lemma page_later p n m : later sty p n m -> forall d h5, same_before p (page sty d h5 n) (page sty d h5 m).
Proof.
  intros H d h5. unfold page. pose proof (format_later p n m H d (mkArea (Some (nval (disp_width d))) (Some (nval (disp_height d))) 0 0 None)) as Mv.
  set (f1 := format sty d _ n) in *. set (f2 := format sty d _ m) in *. clearbody f1 f2.
  assert (Hd : forall mt mr mb ml bt br bb bl pt pr pb pl w h lf tp ct cb mt' mr' mb' ml' bt' br' bb' bl' pt' pr' pb' pl' w' h' lf' tp' ct' cb',
    same_but_height (mkUsed mt mr mb ml bt br bb bl pt pr pb pl w h lf tp ct cb) (mkUsed mt' mr' mb' ml' bt' br' bb' bl' pt' pr' pb' pl' w' h' lf' tp' ct' cb') ->
    same_but_height (mkUsed mt mr mb ml bt br bb bl pt pr pb pl w (if h5 then Some (nval (disp_height d) - Z2Qc ct - Z2Qc cb) else h) lf (tp + Z2Qc ct) ct cb)
      (mkUsed mt' mr' mb' ml' bt' br' bb' bl' pt' pr' pb' pl' w' (if h5 then Some (nval (disp_height d) - Z2Qc ct' - Z2Qc cb') else h') lf' (tp' + Z2Qc ct') ct' cb')).
  { intros *. intros (H1 & H2 & H3 & H4). cbn in *. injection H1 as -> -> -> ->. injection H2 as -> -> -> ->. injection H3 as -> -> -> ->. injection H4 as -> -> -> ->. repeat split. }
  inversion Mv as [u v b r r' E|q u v b x x' r r' E M|q x Hx]; subst.
  - destruct u, v. apply same_here, Hd, E.
  - destruct u, v. apply same_below; [apply Hd, E|exact M].
  - destruct Hx as [-> | ->]; apply same_away; auto.
Qed.

(** C131. *)
Theorem C131_later_changes : forall d h5 p (n m n' m' : node), history sty n -> history sty m -> later sty p n m ->
  layout sty d h5 n = (n', Ok tt) -> layout sty d h5 m = (m', Ok tt) ->
  exists t t', shows n' t /\ shows m' t' /\ same_before p t t'.
Proof.
  intros d h5 p n m n' m' Hn Hm R Ln Lm. exists (page sty d h5 n), (page sty d h5 m).
  split; [apply (C122_any_history sty); assumption|]. split; [apply (C122_any_history sty); assumption|apply page_later, R].
Qed.
(** New documents: absolute positions too. *)
Theorem C131_absolute : forall d h5 p (n m n' m' : node), boxed n -> boxed m -> later sty p n m ->
  layout sty d h5 n = (n', Ok tt) -> layout sty d h5 m = (m', Ok tt) ->
  exists t t', laid_out_as 0 0 n' t /\ laid_out_as 0 0 m' t' /\ same_before p t t'.
Proof.
  intros d h5 p n m n' m' Hn Hm R Ln Lm. exists (page sty d h5 n), (page sty d h5 m).
  split; [apply (C112_every_layout_is_the_reference sty); [apply boxed_ready, Hn|left; exact Hn|exact Ln]|].
  split; [apply (C112_every_layout_is_the_reference sty); [apply boxed_ready, Hm|left; exact Hm|exact Lm]|apply page_later, R].
Qed.

(** ** C132 *)
Lemma laid_placed d h5 (n n' : node) p k : history sty n -> layout sty d h5 n = (n', Ok tt) -> laid sty n' (Some p) k ->
  exists a u t us, format sty d a k = UNode u us /\ shows k (UNode (move_down t u) us) /\ (exists b, n_box p = Some b /\ is_size (content_width b) (a_w a))
    /\ (st_position (sty (n_style p)) <> PRelative -> a_h a = Some 0)
    /\ a_spec_h a = match st_height (sty (n_style p)) with Auto => None | Len x => Some x end.
Proof.
  intros Hi H Lk. inversion Lk as [|op p0 k0 L I D B]; subst.
  destruct (laid_used sty d h5 n n' op p Hi H L) as (a & u & v & us & F & Al & Shp & Ar & _). destruct p as [s i bx ks]. rewrite format_split in F.
  destruct (st_display (sty s)) as [dk|] eqn:Dk; [|discriminate]. set (inner := inner_of d a dk (sty s) i) in *. set (st := stacks_ sty dk ks) in *.
  unfold node_of in F. cbv zeta in F. injection F as Eu Eus. subst us. inversion Shp as [s0 i0 b0 ks0 u0 us0 Hu Fs| |]; subst s0 i0 ks0 u0 us0.
  cbn [n_kids] in I. destruct (forall2_both _ _ _ _ k (kids_placed sty d inner st ks) Fs I) as (t & It & P & Sk).
  assert (Bk : st && negb (block_level (sty (n_style k))) = false).
  { destruct (block_level (sty (n_style k))) eqn:Bl; [apply andb_false_r|]. rewrite andb_true_r. destruct B as [B|B]; [|unfold block_level, is_block_level in *; congruence].
    unfold st, stacks_. destruct dk; try reflexivity.
    - assert (R : s_replaced i = false).
      { refine (proj1 (laid_width sty d h5 n n' op (Node s i bx ks) H L _)). unfold is_block_level. cbn [n_style]. rewrite Dk. reflexivity. }
      unfold establishes_inline, is_block_container in B. cbn [n_style n_intr n_kids] in B. rewrite Dk, R in B. cbn [negb] in B. apply negb_true_iff in B. exact B.
    - assert (R : s_replaced i = false).
      { refine (proj1 (laid_width sty d h5 n n' op (Node s i bx ks) H L _)). unfold is_block_level. cbn [n_style]. rewrite Dk. reflexivity. }
      unfold establishes_inline, is_block_container in B. cbn [n_style n_intr n_kids] in B. rewrite Dk, R in B. cbn [negb] in B. apply negb_true_iff in B. exact B. }
  unfold MoveProps.laid_kid in P. rewrite Bk in P. assert (Fk : exists u' us', format sty d inner k = UNode u' us').
  { destruct k as [s1 i1 b1 ks1]. rewrite format_split. unfold displayed in D. cbn [n_style] in D. destruct (st_display (sty s1)); [|contradiction]. unfold node_of. cbv zeta. eauto. }
  destruct Fk as (u' & us' & Fk). rewrite Fk in P. inversion P as [u1 us1 tp E1 E2| |]; subst. exists inner, u', tp, us'.
  split; [exact Fk|]. split; [exact Sk|]. split; [|split; [|reflexivity]].
  - exists b0. split; [reflexivity|]. pose proof (hu_w _ _ Hu) as W. destruct Al as (_ & _ & _ & _ & _ & _ & _ & _ & _ & _ & Aw). rewrite Aw in W. exact W.
  - cbn [n_style]. intros N. unfold inner, inner_of, isrel. cbn [a_h]. destruct (st_position (sty s)); try reflexivity. contradiction.
Qed.
Lemma format_around d w h l1 l2 t1 t2 sp1 sp2 n : own_offsets (sty (n_style n)) -> own_height (sty (n_style n)) \/ sp1 = sp2 ->
  format sty d (mkArea w h l1 t1 sp1) n = format sty d (mkArea w h l2 t2 sp2) n.
Proof.
  destruct n as [s0 i bx ks]. cbn [n_style]. intros O Hs. rewrite !format_split. destruct (st_display (sty s0)) as [dk|]; [|reflexivity]. set (s := sty s0) in *.
  assert (E2 : wmargins d (mkArea w h l1 t1 sp1) dk s i = wmargins d (mkArea w h l2 t2 sp2) dk s i) by reflexivity.
  assert (E3 : forall last, hgt d (mkArea w h l1 t1 sp1) dk s i last = hgt d (mkArea w h l2 t2 sp2) dk s i last).
  { intros last. unfold hgt. rewrite E2. cbn [a_h a_spec_h]. destruct (isinl dk); [reflexivity|]. f_equal. unfold used_block_height.
    replace (spec_height d (or0 h) sp1 s) with (spec_height d (or0 h) sp2 s); [reflexivity|]. destruct Hs as [Hs| ->]; [|reflexivity].
    unfold spec_height, own_height in *. destruct (st_height s) as [|u]; [reflexivity|]. f_equal.
    rewrite (len_no_pct d (match sp2 with Some pu => len d (or0 h) pu | None => or0 h end) (match sp1 with Some pu => len d (or0 h) pu | None => or0 h end) u); [reflexivity|].
    unfold no_pct. destruct (u_kind u); try reflexivity. contradiction. }
  assert (E4 : lefts d (mkArea w h l1 t1 sp1) dk s i = lefts d (mkArea w h l2 t2 sp2) dk s i) by reflexivity.
  assert (E5 : edges d (mkArea w h l1 t1 sp1) dk s = edges d (mkArea w h l2 t2 sp2) dk s) by reflexivity.
  assert (E7 : inner_of d (mkArea w h l1 t1 sp1) dk s i = inner_of d (mkArea w h l2 t2 sp2) dk s i) by (unfold inner_of; rewrite E2, E3, E4, E5; reflexivity).
  assert (E8 : forall e p q a b, In a [st_left s; st_right s; st_top s; st_bottom s] -> In b [st_left s; st_right s; st_top s; st_bottom s] -> shift d p e a b = shift d q e a b).
  { intros e p q a b Ia Ib. destruct a, b; try reflexivity; exfalso; apply O; assumption. }
  rewrite E7. unfold node_of. cbv zeta. cbn [a_w a_h a_left a_top]. rewrite E2, E3, E4, E5.
  rewrite (E8 w l1 l2 (st_left s) (st_right s)) by (cbn; auto). rewrite (E8 h t1 t2 (st_top s) (st_bottom s)) by (cbn; auto).
  change (bottoms d (mkArea w h l1 t1 sp1) dk s i) with (bottoms d (mkArea w h l2 t2 sp2) dk s i). reflexivity.
Qed.
(** C132. *)
Theorem C132_same_in_same_width : forall d h5 h5' (n1 n2 n1' n2' p1 p2 k1 k2 : node) w,
  history sty n1 -> history sty n2 -> layout sty d h5 n1 = (n1', Ok tt) -> layout sty d h5' n2 = (n2', Ok tt) ->
  laid sty n1' (Some p1) k1 -> laid sty n2' (Some p2) k2 -> inputs k1 = inputs k2 ->
  wide p1 w -> wide p2 w -> st_position (sty (n_style p1)) <> PRelative -> st_position (sty (n_style p2)) <> PRelative ->
  own_offsets (sty (n_style k1)) -> own_height (sty (n_style k1)) \/ st_height (sty (n_style p1)) = st_height (sty (n_style p2)) ->
  exists u us t1 t2, shows k1 (UNode (move_down t1 u) us) /\ shows k2 (UNode (move_down t2 u) us).
Proof.
  intros d h5 h5' n1 n2 n1' n2' p1 p2 k1 k2 w Hi1 Hi2 L1 L2 K1 K2 E W1 W2 P1 P2 O Hh.
  destruct (laid_placed d h5 n1 n1' p1 k1 Hi1 L1 K1) as (a1 & u1 & t1 & us1 & F1 & S1 & (b1 & B1 & A1) & H1 & Sp1).
  destruct (laid_placed d h5' n2 n2' p2 k2 Hi2 L2 K2) as (a2 & u2 & t2 & us2 & F2 & S2 & (b2 & B2 & A2) & H2 & Sp2).
  specialize (H1 P1). specialize (H2 P2).
  assert (Wd : forall (p : node) b a, wide p w -> n_box p = Some b -> is_size (content_width b) (a_w a) -> a_w a = Some w).
  { intros p b a (b' & x & Eb & Ec & Ew) B A. rewrite B in Eb. injection Eb as <-. rewrite Ec in A. destruct (a_w a) as [y|]; cbn in A; [|discriminate].
    destruct A as (z & Ez & <-). injection Ez as <-. rewrite Ew. reflexivity. }
  pose proof (Wd p1 b1 a1 W1 B1 A1) as Wa1. pose proof (Wd p2 b2 a2 W2 B2 A2) as Wa2.
  assert (F : format sty d a1 k1 = format sty d a2 k2).
  { rewrite <- (format_inputs sty d k1 k2 E). destruct a1 as [w1 h1 l1 y1 sp1], a2 as [w2 h2 l2 y2 sp2]. cbn [a_w a_h a_spec_h] in *. subst.
    apply format_around; [exact O|]. destruct Hh as [Hh| ->]; auto. }
  rewrite F, F2 in F1. injection F1 as <- <-. exists u2, us2, t1, t2. auto.
Qed.
End L.
Print Assumptions C131_later_changes.
Print Assumptions C131_absolute.
Print Assumptions C132_same_in_same_width.

(** ** Examples *)
(** The second block gets other children after its first one, the third block is replaced. *)
Definition list_v (rest1 rest2 : list doc) : doc :=
  el (vmargin 4 4 block_style) ([el (vmargin 9 8 (hpx 10 block_style)) []; el block_style ([el (hpx 5 block_style) []] ++ rest1)] ++ rest2).
Definition list_1 : doc := list_v [] [el (hpx 30 block_style) []].
Definition list_2 : doc := list_v [el (vmargin 1 2 (hpx 70 block_style)) []; el (hpx 6 block_style) []] [].
Definition tops (n : doc) : list Q := map (fun k => this (nval (content_top (bx k)))) (n_kids n).
Example C131_example : history idsty list_1 /\ history idsty list_2 /\ boxed list_1 /\ boxed list_2 /\ later idsty [1%nat; 1%nat] list_1 list_2
  /\ layout idsty screen false list_1 = (out false list_1, Ok tt) /\ layout idsty screen false list_2 = (out false list_2, Ok tt)
  /\ tops (out false list_1) = [0; 18; 23]%Q /\ tops (out false list_2) = [0; 18]%Q
  /\ lq (content_height (bx (kid 1 (out false list_1)))) = Some 5%Q /\ lq (content_height (bx (kid 1 (out false list_2)))) = Some 84%Q.
Proof.
  split; [apply history_new; solve_new|]. split; [apply history_new; solve_new|]. split; [solve_boxed|]. split; [solve_boxed|]. split.
  { apply (later_below idsty [1%nat] (vmargin 4 4 block_style) size0 (Some box0) (Some box0) [el (vmargin 9 8 (hpx 10 block_style)) []] [el (vmargin 9 8 (hpx 10 block_style)) []]).
    - reflexivity.
    - apply (later_here idsty block_style size0 (Some box0) (Some box0) [el (hpx 5 block_style) []] [el (hpx 5 block_style) []]); [reflexivity|left; reflexivity].
    - left. reflexivity. }
  split; [apply ok_layout; vm_compute; reflexivity|]. split; [apply ok_layout; vm_compute; reflexivity|]. repeat (split; [vm_compute; reflexivity|]). vm_compute. reflexivity.
Qed.
(** A card, in a 300px wide box and in a box that is 300px wide because of its margins, below another card. *)
Definition card : doc := el (s_padding (pxu 3) (pxu 4) (pxu 5) (pxu 6) (s_margin (Len (pxu 7)) Auto (Len (pxu 7)) Auto (s_size (Len (pctu 50)) Auto block_style))) [el (hpx 10 block_style) []; el (hpx 20 block_style) []].
Definition cards_1 : doc := el block_style [el (s_size (Len (pxu 300)) Auto block_style) [card]].
Definition cards_2 : doc := el (hpx 500 block_style) [el (s_margin Auto (Len (pxu 350)) Auto (Len (pxu 350)) block_style) [card; card]].
Example C132_example : exists p1 p2 k1 k2, history idsty cards_1 /\ history idsty cards_2
  /\ layout idsty screen false cards_1 = (out false cards_1, Ok tt) /\ layout idsty screen true cards_2 = (out true cards_2, Ok tt)
  /\ laid idsty (out false cards_1) (Some p1) k1 /\ laid idsty (out true cards_2) (Some p2) k2 /\ inputs k1 = inputs k2
  /\ wide p1 (Z2Qc 300) /\ wide p2 (Z2Qc 300) /\ st_position (n_style p1) <> PRelative /\ st_position (n_style p2) <> PRelative
  /\ own_offsets (n_style k1) /\ own_height (n_style k1)
  /\ this (nval (content_top (bx k1))) = 3%Q /\ this (nval (content_top (bx k2))) = 48%Q /\ lq (content_width (bx k1)) = Some 150%Q /\ lq (content_width (bx k2)) = Some 150%Q
  /\ this (nval (content_left (bx k1))) = 76%Q /\ this (nval (content_left (bx k2))) = 76%Q.
Proof.
  exists (kid 0 (out false cards_1)), (kid 0 (out true cards_2)), (kid 0 (kid 0 (out false cards_1))), (kid 1 (kid 0 (out true cards_2))).
  split; [apply history_new; solve_new|]. split; [apply history_new; solve_new|]. split; [apply ok_layout; vm_compute; reflexivity|]. split; [apply ok_layout; vm_compute; reflexivity|].
  split; [laid_tac|]. split; [laid_tac|]. split; [vm_compute; reflexivity|].
  split; [do 2 eexists; split; [vm_compute; reflexivity|]; split; [vm_compute; reflexivity|]; apply Qc_is_canon; vm_compute; reflexivity|].
  split; [do 2 eexists; split; [vm_compute; reflexivity|]; split; [vm_compute; reflexivity|]; apply Qc_is_canon; vm_compute; reflexivity|].
  split; [vm_compute; discriminate|]. split; [vm_compute; discriminate|]. split; [vm_compute; intuition discriminate|]. split; [vm_compute; exact I|].
  repeat (split; [vm_compute; reflexivity|]). vm_compute. reflexivity.
Qed.
