(** * From whole layouts to single nodes *)
From Coq Require Import ZArith QArith Qcanon Qround Lqa Lia Bool List.
From Verif Require Import PyNum NumFacts Units BoxModel BoxSpec BoxFacts Engine EnginePure EngineFacts EngineSpec.
Import ListNotations.
Open Scope Z_scope.

(** ** Frames of the phases *)
Definition same_h (b b' : box) : Prop :=
  margin_left b' = margin_left b /\ margin_right b' = margin_right b
  /\ border_left_width b' = border_left_width b /\ border_right_width b' = border_right_width b
  /\ border_top_width b' = border_top_width b /\ border_bottom_width b' = border_bottom_width b
  /\ padding_left b' = padding_left b /\ padding_right b' = padding_right b
  /\ padding_top b' = padding_top b /\ padding_bottom b' = padding_bottom b
  /\ content_width b' = content_width b.
Lemma same_h_refl b : same_h b b. Proof. repeat split. Qed.
Lemma same_h_trans a b c : same_h a b -> same_h b c -> same_h a c.
Proof. unfold same_h. intros. intuition congruence. Qed.

Definition keeps {A} (R : box -> box -> Prop) (m : BM A) : Prop := forall b, R b (fst (m b)).
Lemma keeps_bind {A B} (R : box -> box -> Prop) (m : BM A) (f : A -> BM B) :
  (forall a b c, R a b -> R b c -> R a c) -> keeps R m -> (forall a, keeps R (f a)) -> keeps R (bbind m f).
Proof.
  intros T Hm Hf b. unfold bbind. specialize (Hm b). destruct (m b) as [b' [a|e]]; [|exact Hm].
  eapply T; [exact Hm|apply Hf].
Qed.
Lemma keeps_id {A} (R : box -> box -> Prop) (m : BM A) :
  (forall a, R a a) -> (forall b, fst (m b) = b) -> keeps R m.
Proof. intros Rr H b. rewrite H. apply Rr. Qed.

Definition hv (b b' : box) : Prop := same_h b b' /\ content_left b' = content_left b.
Lemma hv_refl b : hv b b. Proof. repeat split. Qed.
Lemma hv_trans a b c : hv a b -> hv b c -> hv a c.
Proof. intros [H1 H2] [H3 H4]. split; [eapply same_h_trans; eassumption|congruence]. Qed.

Ltac keep :=
  repeat first
  [ apply keeps_bind; [exact hv_trans| |intros ?]
  | apply keeps_id; [exact hv_refl|intros; reflexivity]
  | match goal with |- keeps _ (match ?x with _ => _ end) => destruct x end
  | match goal with |- keeps hv (bmod ?f) =>
      let bb := fresh "bb" in intros bb; unfold bmod; cbn [fst]; destruct bb; unfold set_margin_top, set_margin_bottom, set_collapse_bottom;
      repeat match goal with |- context[if ?x then _ else _] => destruct x end; repeat split end ].

Lemma calculate_height_hv s i ph last c : keeps hv (calculate_height s i ph last c).
Proof.
  unfold calculate_height, inline_replaced_height, inline_non_replaced_height, block_non_replaced_height,
    block_content_height, top_edge, auto_top0, auto_bottom0. keep.
Qed.

Lemma hphase_hv s i ph last c b b' : hphase s i ph last c b = Ok b' -> hv b b'.
Proof.
  unfold hphase, run. intros H. pose proof (calculate_height_hv s i ph last c b) as K.
  destruct (calculate_height s i ph last c b) as [b1 [a|e]]; [|discriminate]. apply Ok_inj in H. subst b'.
  eapply hv_trans; [exact K|]. cbn [fst]. unfold move_top. destruct b1; repeat split.
Qed.

Section Tree.
Context {S : Type} (sty : S -> style).
Notation node := (node S).
Notation cblock := (@cblock S).
Notation plb := (plb sty).

Lemma shift_box_same_h d f (cb : cblock) s b b' : shift_box d f cb s b = Ok b' -> same_h b b'.
Proof.
  unfold shift_box. destruct (is_relative s); intros H; inv_ok; subst; [|apply same_h_refl].
  unfold move_top, move_left. destruct b; repeat split.
Qed.
Lemma shift_box_static d f (cb : cblock) s b b' : shift_box d f cb s b = Ok b' -> is_relative s = false -> b' = b.
Proof. unfold shift_box. intros H R. rewrite R in H. apply Ok_inj in H. congruence. Qed.

(** ** Inversion of a successful layout of one node *)
Lemma plb_inv fuel d f cb s0 i bx ks n' : plb (Datatypes.S fuel) d f cb (Node s0 i bx ks) = Ok n' ->
  st_display (sty s0) <> None ->
  exists b1 b2 ks' b3 b4 b5,
    n' = Node s0 i (Some b5) ks'
    /\ wphase (sty s0) i (hctx d f cb) (vctx d f cb) (match bx with Some b => b | None => box0 end) = Ok b1
    /\ (if is_relative (sty s0) then hphase (sty s0) i (cb_style_height sty cb) (last_box ks) (vctx d f cb) b1
        else Ok b1) = Ok b2
    /\ is_abspos (sty s0) = false /\ is_float (sty s0) = false
    /\ pchildren sty (plb fuel d f) s0 i b2 ks = Ok (ks', b3)
    /\ hphase (sty s0) i (cb_style_height sty cb) (last_box ks') (vctx d f cb) b3 = Ok b4
    /\ shift_box d f cb (sty s0) b4 = Ok b5.
Proof.
  intros H Hd. cbn [EnginePure.plb] in H. destruct (st_display (sty s0)) as [dk|]; [|congruence].
  inv_ok. destruct (is_abspos (sty s0)); [discriminate|]. destruct (is_float (sty s0)); [discriminate|].
  destruct x1 as [ks' b3]. cbn [fst snd] in *. exists x, x0, ks', b3, x2, x3. auto 10.
Qed.

Lemma plb_hidden fuel d f cb n n' : plb fuel d f cb n = Ok n' ->
  st_display (sty (n_style n)) = None -> n' = with_box None n.
Proof.
  destruct fuel; [discriminate|]. destruct n as [s i bx ks]. cbn [EnginePure.plb n_style]. intros H E. rewrite E in H. apply Ok_inj in H.
  rewrite <- H. reflexivity.
Qed.

(** ** Block formatting contexts *)
Definition blk (k : node) : bool := is_block_level (sty (n_style k)).

Inductive flowed (lay : box -> node -> res node) :
  list node -> box -> num -> option Z -> list node -> box -> Prop :=
| flowed_done ks b off bm : (forall k, In k ks -> blk k = false) -> flowed lay ks b off bm ks b
| flowed_cons k ks b off bm k1 kb kb' b' off' bm' ks2 b2 :
    blk k = true -> lay b k = Ok k1 -> n_box k1 = Some kb ->
    pplace kb b off bm = Ok (kb', b', off', bm') ->
    flowed lay ks b' off' bm' ks2 b2 ->
    flowed lay (k :: ks) b off bm (with_box (Some kb') k1 :: ks2) b2.

Lemma pflow_pend lay ks b off bm r : pflow sty lay ks true b off bm = Ok r ->
  fst r = ks /\ snd r = b /\ (forall k, In k ks -> blk k = false).
Proof.
  revert r. induction ks as [|k ks IH]; intros r H; cbn [pflow] in H.
  - inv_ok. subst r. split; [reflexivity|]. split; [reflexivity|]. intros k [].
  - destruct (is_block_level (sty (n_style k))) eqn:E; [discriminate|].
    apply bindr_ok in H. destruct H as (x & Hx & H). apply Ok_inj in H. subst r. cbn [fst snd].
    destruct (IH _ Hx) as (-> & -> & F). split; [reflexivity|]. split; [reflexivity|].
    intros k' [<-|Hk]; [exact E|apply F, Hk].
Qed.
Lemma pflow_flowed lay ks b off bm ks' b' : pflow sty lay ks false b off bm = Ok (ks', b') ->
  flowed lay ks b off bm ks' b'.
Proof.
  revert b off bm ks' b'. induction ks as [|k ks IH]; intros b off bm ks' b' H; cbn [pflow] in H.
  - inv_ok. apply flowed_done. intros k [].
  - destruct (is_block_level (sty (n_style k))) eqn:E.
    + apply bindr_ok in H. destruct H as (k1 & Hk1 & H). destruct (n_box k1) as [kb|] eqn:Ek; [|discriminate].
      apply bindr_ok in H. destruct H as ([[[kb' b1] off'] bm'] & Hq & H).
      apply bindr_ok in H. destruct H as ([ks2 b2] & Hr & H). apply Ok_inj in H. cbn [fst snd] in H. injection H as <- <-.
      eapply flowed_cons; try eassumption. apply IH, Hr.
    + apply bindr_ok in H. destruct H as (r & Hr & H). apply pflow_pend in Hr. destruct Hr as (R1 & R2 & R3).
      apply Ok_inj in H. injection H as <- <-. rewrite R1, R2. apply flowed_done.
      intros k' [<-|Hk]; [exact E|apply R3, Hk].
Qed.

Lemma pall_forall2 lay (ks ks' : list node) : pall lay ks = Ok ks' -> Forall2 (fun k k' => lay k = Ok k') ks ks'.
Proof.
  revert ks'. induction ks as [|k ks IH]; intros ks' H; cbn [pall] in H.
  - inv_ok. subst. constructor.
  - inv_ok. subst ks'. constructor; [assumption|]. apply IH. assumption.
Qed.

Lemma pplace_frame kb b off bm kb' b' off' bm' : pplace kb b off bm = Ok (kb', b', off', bm') ->
  (exists t, kb' = upd_content_top t kb) /\ (exists k, b' = upd_collapse_top k b).
Proof.
  unfold pplace. intros H. apply bindr_ok in H. destruct H as (o & _ & H).
  apply bindr_ok in H. destruct H as (h & _ & H). apply Ok_inj in H. injection H as <- <- <- <-.
  split; [eexists; reflexivity|].
  destruct bm; [|eexists; reflexivity]. exists (collapse_top b). destruct b; reflexivity.
Qed.

(** Kids of a laid node, seen one at a time. *)
Lemma flowed_kid lay ks b off bm ks' b' : flowed lay ks b off bm ks' b' ->
  (exists k, b' = upd_collapse_top k b)
  /\ forall k', In k' ks' -> blk k' = true ->
     exists kt k k1 kb t, In k ks /\ lay (upd_collapse_top kt b) k = Ok k1 /\ n_box k1 = Some kb
       /\ (forall x y, lay x y = lay x y)
       /\ k' = with_box (Some (upd_content_top t kb)) k1.
Proof.
  induction 1 as [ks b off bm F|k ks b off bm k1 kb kb' b' off' bm' ks2 b2 Hb Hl Hk Hp Hf IH].
  - split; [exists (collapse_top b); destruct b; reflexivity|]. intros k' Hk' E. rewrite (F _ Hk') in E. discriminate.
  - apply pplace_frame in Hp. destruct Hp as [[t ->] [kt ->]]. destruct IH as [[k2 ->] IH]. split.
    + exists k2. destruct b; reflexivity.
    + intros k' [<-|Hk'] E.
      * exists (collapse_top b), k, k1, kb, t. split; [left; reflexivity|].
        split; [|split; [exact Hk|split; reflexivity]]. destruct b; exact Hl.
      * destruct (IH k' Hk' E) as (kt' & k0 & k0' & kb0 & t0 & I & L & B & _ & EE).
        exists kt', k0, k0', kb0, t0. split; [right; exact I|]. split; [|auto].
        replace (upd_collapse_top kt' b) with (upd_collapse_top kt' (upd_collapse_top kt b)) by (destruct b; reflexivity).
        exact L.
Qed.

(** [final k0 k]: [k] is the node [k0] laid out by its parent, after the parent
    (or the root step) has moved it vertically (and fitted its height). *)
Definition moved (k0 k : node) : Prop :=
  exists b t, n_box k0 = Some b /\ k = with_box (Some (upd_content_top t b)) k0.

Lemma moved_refl (k : node) b : n_box k = Some b -> moved k k.
Proof.
  intros H. exists b, (content_top b). split; [exact H|]. rewrite upd_content_top_same.
  destruct k; cbn in *; congruence.
Qed.

Lemma pchildren_kid lay s i b ks ks' b' : pchildren sty lay s i b ks = Ok (ks', b') ->
  (exists k, b' = upd_collapse_top k b) /\
  forall k', In k' ks' -> (establishes_inline sty (Node s i (Some b) ks) = true \/ blk k' = true) ->
    exists kt k k1, In k ks /\ lay (CBNode s (upd_collapse_top kt b)) k = Ok k1
      /\ (k' = k1 \/ moved k1 k').
Proof.
  unfold pchildren. intros H. destruct (establishes_inline sty (Node s i (Some b) ks)) eqn:E.
  - apply bindr_ok in H. destruct H as (x & Hx & H). apply Ok_inj in H. injection H as <- <-.
    split; [exists (collapse_top b); destruct b; reflexivity|]. intros k' Hk' _.
    apply pall_forall2 in Hx. clear E. revert Hk'. induction Hx as [|k k1 l l' H1 H2 IH]; intros Hk'; [destruct Hk'|].
    destruct Hk' as [<-|Hk'].
    + exists (collapse_top b), k, k1. split; [left; reflexivity|]. split; [|left; reflexivity]. destruct b; exact H1.
    + destruct (IH Hk') as (kt & k0 & k2 & I & R). exists kt, k0, k2. split; [right; exact I|exact R].
  - apply pflow_flowed in H. apply flowed_kid in H. destruct H as [H1 H2]. split; [exact H1|].
    intros k' Hk' [Hx|Hx]; [discriminate|]. destruct (H2 k' Hk' Hx) as (kt & k & k1 & kb & t & I & L & B & _ & EE).
    exists kt, k, k1. split; [exact I|]. split; [exact L|]. right. exists kb, t. auto.
Qed.

(** Styles and structure survive. *)
Lemma with_box_style b (n : node) : n_style (with_box b n) = n_style n. Proof. destruct n; reflexivity. Qed.
Lemma with_box_kids b (n : node) : n_kids (with_box b n) = n_kids n. Proof. destruct n; reflexivity. Qed.
Lemma with_box_intr b (n : node) : n_intr (with_box b n) = n_intr n. Proof. destruct n; reflexivity. Qed.
Lemma with_box_box b (n : node) : n_box (with_box b n) = b. Proof. destruct n; reflexivity. Qed.

Lemma plb_style fuel d f cb n n' : plb fuel d f cb n = Ok n' -> n_style n' = n_style n /\ n_intr n' = n_intr n.
Proof.
  intros H. destruct (st_display (sty (n_style n))) eqn:Ed.
  - destruct fuel; [discriminate|]. destruct n as [s i bx ks]. apply plb_inv in H; [|cbn in Ed; congruence].
    destruct H as (b1 & b2 & ks' & b3 & b4 & b5 & -> & _). split; reflexivity.
  - apply plb_hidden in H; [|exact Ed]. subst n'. rewrite with_box_style, with_box_intr. auto.
Qed.

Lemma plb_inputs fuel : forall d f cb n n', plb fuel d f cb n = Ok n' -> inputs n' = inputs n.
Proof.
  induction fuel as [|fuel IH]; intros d f cb n n' H; [discriminate|].
  destruct (st_display (sty (n_style n))) eqn:Ed.
  2:{ apply plb_hidden in H; [|exact Ed]. subst n'. destruct n; reflexivity. }
  destruct n as [s i bx ks]. apply plb_inv in H; [|cbn in Ed; congruence].
  destruct H as (b1 & b2 & ks' & b3 & b4 & b5 & -> & _ & _ & _ & _ & Hc & _). cbn [inputs]. f_equal. clear Ed.
  unfold pchildren in Hc. destruct (establishes_inline sty _).
  - apply bindr_ok in Hc. destruct Hc as (x & Hx & Hc). apply Ok_inj in Hc. injection Hc as <- <-.
    apply pall_forall2 in Hx. induction Hx as [|k k1 l l' H1 H2 IHx]; [reflexivity|]. cbn [map].
    f_equal; [eapply IH, H1|exact IHx].
  - apply pflow_flowed in Hc. induction Hc as [|k ks b off bm k1 kb kb' b' off' bm' ks2 b2' Hb Hl Hk Hp Hf IHf]; [reflexivity|].
    cbn [map]. f_equal; [|exact IHf]. rewrite <- (IH _ _ _ _ _ Hl). destruct k1; reflexivity.
Qed.
Lemma inputs_style (n n' : node) : inputs n = inputs n' -> n_style n = n_style n' /\ n_intr n = n_intr n'.
Proof. destruct n, n'. cbn. intros [= -> -> _]. auto. Qed.
Lemma inputs_blk (ks ks' : list node) : map inputs ks = map inputs ks' ->
  existsb (fun k => is_block_level (sty (n_style k))) ks = existsb (fun k => is_block_level (sty (n_style k))) ks'.
Proof.
  revert ks'. induction ks as [|k ks IH]; intros [|k' ks'] H; try discriminate; [reflexivity|].
  cbn in H. injection H as H1 H2. apply inputs_style in H1. destruct H1 as [H1 _]. cbn. rewrite H1, (IH _ H2). reflexivity.
Qed.
Lemma inputs_establishes (n n' : node) : inputs n = inputs n' -> establishes_inline sty n = establishes_inline sty n'.
Proof.
  destruct n as [s i b ks], n' as [s' i' b' ks']. cbn [inputs]. intros [= -> -> H]. unfold establishes_inline.
  cbn [n_style n_intr n_kids]. rewrite (inputs_blk _ _ H). reflexivity.
Qed.

(** Fresh trees: every displayed node (with displayed ancestors) has a box in
    its initial state, or none. *)
Inductive fresh : node -> Prop :=
| fresh_hidden n : st_display (sty (n_style n)) = None -> n_box n = None \/ n_box n = Some box0 -> fresh n
| fresh_node s i bx ks : bx = None \/ bx = Some box0 -> (forall k, In k ks -> fresh k) -> fresh (Node s i bx ks).


(** The height children of a relatively positioned node see while they are
    laid out. *)
Definition rel_ref (s : style) (b : box) : lval :=
  match is_block_level s, st_height s with true, Auto => l0 | _, _ => content_height b end.

(** The containing block as seen by [layout_box] when it laid out a child of
    [op]; [F] says that the layout started from a fresh tree, [G] that the
    height of [op] is the one computed by [layout_box]. *)
Inductive cb_for (F G : Prop) : option node -> cblock -> Prop :=
| cb_view : cb_for F G None CBView
| cb_node p b bc : n_box p = Some b -> same_h bc b ->
    (F -> is_relative (sty (n_style p)) = false -> content_height bc = l0) ->
    (F -> G -> is_relative (sty (n_style p)) = true -> content_height bc = rel_ref (sty (n_style p)) b) ->
    cb_for F G (Some p) (CBNode (n_style p) bc).
Lemma cb_for_weaken (F G G' : Prop) op cb : (G' -> G) -> cb_for F G op cb -> cb_for F G' op cb.
Proof. intros H C. destruct C; [constructor|]. econstructor; eauto. Qed.

Definition final (d : display_t) (h5 : bool) (op : option node) (k0 k : node) : Prop :=
  match op with None => pfinish d h5 k0 = Ok k | Some _ => moved k0 k end.

Lemma final_same d h5 op (k0 k : node) : final d h5 op k0 k ->
  n_style k = n_style k0 /\ n_intr k = n_intr k0 /\ n_kids k = n_kids k0
  /\ exists b0 b, n_box k0 = Some b0 /\ n_box k = Some b /\ same_h b0 b /\ content_left b = content_left b0
     /\ margin_top b = margin_top b0 /\ margin_bottom b = margin_bottom b0
     /\ collapse_top b = collapse_top b0 /\ collapse_bottom b = collapse_bottom b0 /\ dirty b = dirty b0.
Proof.
  destruct op as [p|]; cbn [final].
  - intros (b & t & H & ->). rewrite with_box_style, with_box_intr, with_box_kids, with_box_box.
    repeat (split; [reflexivity|]). exists b, (upd_content_top t b). split; [exact H|]. split; [reflexivity|].
    destruct b; repeat split.
  - destruct k0 as [s i [b|] ks]; [|discriminate]. cbn [pfinish]. intros H. apply Ok_inj in H. subst k.
    cbn [n_style n_intr n_kids n_box]. repeat (split; [reflexivity|]). do 2 eexists. split; [reflexivity|].
    split; [reflexivity|]. unfold move_top. destruct h5, b; repeat split.
Qed.

Lemma displayed_box fuel d f cb k k1 : plb fuel d f cb k = Ok k1 -> displayed sty k1 -> exists b, n_box k1 = Some b.
Proof.
  intros H D. pose proof (plb_style _ _ _ _ _ _ H) as [Hs _]. unfold displayed in D. rewrite Hs in D.
  destruct fuel; [discriminate|]. destruct k as [s i bx ks]. apply plb_inv in H; [|exact D].
  destruct H as (b1 & b2 & ks' & b3 & b4 & b5 & -> & _). cbn. eauto.
Qed.

Lemma copy_edges_fix s hz vt b r : run (copy_edges s hz vt) b = Ok r ->
  content_top (fst r) = content_top b /\ content_height (fst r) = content_height b /\ dirty (fst r) = dirty b
  /\ content_left (fst r) = content_left b.
Proof.
  destruct r as [b1 u]. intros E1. apply copy_edges_run in E1.
  destruct E1 as (mt & mr & mb & ml & bt & br & bb & bl & pt & pr & pb & pl & C1 & C2 & C3 & C4 & C5 & C6 & C7 & C8 & C9 & C10 & C11 & C12 & ->).
  destruct b; repeat split.
Qed.

Definition cfix (b b' : box) : Prop :=
  content_top b' = content_top b /\ content_height b' = content_height b /\ dirty b' = dirty b
  /\ margin_top b' = margin_top b /\ margin_bottom b' = margin_bottom b
  /\ collapse_top b' = collapse_top b /\ collapse_bottom b' = collapse_bottom b
  /\ content_left b' = content_left b.
Lemma cfix_refl b : cfix b b. Proof. repeat split. Qed.
Lemma cfix_trans a b c : cfix a b -> cfix b c -> cfix a c.
Proof. unfold cfix. intros. intuition congruence. Qed.
Ltac keepc :=
  repeat first
  [ apply keeps_bind; [exact cfix_trans| |intros ?]
  | apply keeps_id; [exact cfix_refl|intros; reflexivity]
  | match goal with |- keeps _ (match ?x with _ => _ end) => destruct x end
  | match goal with |- keeps cfix (add_unless_auto _ ?f) =>
      let bb := fresh "bb" in intros bb; unfold add_unless_auto; destruct (is_auto (f bb)); apply cfix_refl end
  | match goal with |- keeps cfix (bmod ?f) =>
      let bb := fresh "bb" in intros bb; unfold bmod; cbn [fst]; destruct bb; unfold set_margin_left, set_margin_right;
      repeat match goal with |- context[if ?x then _ else _] => destruct x end; repeat split end ].
Lemma calculate_width_cfix s i c : keeps cfix (calculate_width s i c).
Proof.
  unfold calculate_width, inline_replaced_width, inline_non_replaced_width, block_non_replaced_width,
    drop_auto_margins, solve_right, solve_left, split_margins, left_edge, avail_width, auto_left0, auto_right0.
  keepc.
Qed.

Lemma wphase_fix s i hz vt b b' : wphase s i hz vt b = Ok b' ->
  content_top b' = content_top b /\ content_height b' = content_height b /\ dirty b' = dirty b.
Proof.
  unfold wphase. intros H. destruct (run (copy_edges s hz vt) b) as [p|] eqn:E1; [|discriminate].
  cbn [bindr] in H. apply copy_edges_fix in E1. destruct E1 as (E1 & E2 & E3 & E4).
  unfold run in H. pose proof (calculate_width_cfix s i hz (fst p)) as K.
  destruct (calculate_width s i hz (fst p)) as [b2 [ol|]]; [|discriminate]. cbn [bindr fst snd] in *.
  apply Ok_inj in H. subst b'. unfold cfix in K.
  replace (content_top match ol with Some l => move_left l b2 | None => b2 end) with (content_top b2)
    by (destruct ol; unfold move_left; destruct b2; reflexivity).
  replace (content_height match ol with Some l => move_left l b2 | None => b2 end) with (content_height b2)
    by (destruct ol; unfold move_left; destruct b2; reflexivity).
  replace (dirty match ol with Some l => move_left l b2 | None => b2 end) with (dirty b2)
    by (destruct ol; unfold move_left; destruct b2; reflexivity).
  intuition congruence.
Qed.

Lemma fresh_box s i bx ks : fresh (Node s i bx ks) -> st_display (sty s) <> None ->
  match bx with Some b => b | None => box0 end = box0 /\ forall k, In k ks -> fresh k.
Proof. intros H D. inversion H as [|? ? ? ? [->| ->]]; subst; [cbn in *; congruence|auto..]. Qed.
Lemma fresh_nbox k : fresh k -> n_box k = None \/ n_box k = Some box0.
Proof. intros H. inversion H; subst; cbn; auto. Qed.

(** The height phase of a node whose height does not come from its children. *)
Lemma hphase_again s i ph last1 last2 vt b b' c c' :
  hphase s i ph last1 vt b = Ok b' -> hphase s i ph last2 vt c = Ok c' ->
  content_width b = content_width c -> ~ (is_block_level s = true /\ st_height s = Auto) ->
  content_height b' = content_height c'.
Proof.
  intros H1 H2 Hw Hn. destruct (is_block_level s) eqn:Eb.
  - apply hphase_block in H1; [|exact Eb]. apply hphase_block in H2; [|exact Eb].
    destruct H1 as (h & kt & kb & t & B1 & -> & _), H2 as (h' & kt' & kb' & t' & B2 & -> & _).
    assert (h = h').
    { destruct B1 as [| | |u h0 h E1 E2 E3]; try (elim Hn; split; [reflexivity|assumption]).
      destruct B2 as [| | |u' h0' h' E1' E2' E3']; try (elim Hn; split; [reflexivity|assumption]).
      rewrite E1 in E1'. injection E1' as <-. rewrite E2 in E2'. apply Ok_inj in E2'. subst h0'.
      revert E3 E3'. destruct (st_max_height s); intros E3 E3'; [|congruence]. destruct E3 as (m & M1 & ->), E3' as (m' & M1' & ->).
      rewrite M1 in M1'. apply Ok_inj in M1'. subst m'. reflexivity. }
    subst h'. destruct b, c; reflexivity.
  - unfold hphase, run, calculate_height in *. rewrite Eb in *.
    destruct (is_float s); [discriminate|]. destruct (is_abspos s); [discriminate|].
    destruct (is_inline s); [|destruct (is_inline_block s); discriminate].
    assert (K : forall m : BM num, forall x x', (q <-r match m x with (b'0, Ok a) => Ok (b'0, a) | (_, Err e) => Err e end ;;
        Ok (move_top (nadd (content_top (fst q)) (snd q)) (fst q))) = Ok x' ->
        exists a, m x = (fst (m x), Ok a) /\ content_height x' = content_height (fst (m x))).
    { intros m x x' H. destruct (m x) as [y [a|]]; [|discriminate]. cbn [bindr fst snd] in *. apply Ok_inj in H. subst x'.
      exists a. split; [reflexivity|]. unfold move_top. destruct y; reflexivity. }
    apply K in H1, H2. destruct H1 as (a1 & A1 & ->), H2 as (a2 & A2 & ->). clear K.
    destruct (s_replaced i).
    + (* replaced *)
      unfold inline_replaced_height in *. 
      set (mm := match st_height s with Auto => _ | Len u => _ end) in *.
      assert (M : forall x y, content_width x = content_width y -> (fst (mm x) = x /\ fst (mm y) = y /\ snd (mm x) = snd (mm y))).
      { intros x y E. unfold mm, bbind, bret, blift, bnum.
        destruct (st_height s); [|auto]. destruct (st_width s); destruct (s_height i); destruct (s_ratio i) as [r0|]; auto;
        repeat match goal with |- context[if ?t then _ else _] => destruct t end;
        rewrite ?E; destruct (content_width y); auto. }
      clearbody mm.
      assert (T : forall x, exists x1 x', auto_top0 x = (x1, Ok tt) /\ auto_bottom0 x1 = (x', Ok tt)
          /\ content_width x' = content_width x).
      { intros x. do 2 eexists. unfold auto_top0, auto_bottom0, bmod. (split; [reflexivity|]). (split; [reflexivity|]).
        destruct x; cbn. destruct margin_top; cbn; destruct margin_bottom; reflexivity. }
      destruct (T b) as (xb1 & xb & T1 & T2 & T3), (T c) as (xc1 & xc & U1 & U2 & U3).
      unfold bbind in *. rewrite T1, T2 in A1 |- *. rewrite U1, U2 in A2 |- *.
      destruct (M xb xc) as (M1 & M2 & M3); [congruence|].
      destruct (mm xb) as [yb [rb|]]; destruct (mm xc) as [yc [rc|]]; cbn [fst snd] in *; try discriminate. subst yb yc.
      apply Ok_inj in M3. subst rc. unfold bmod, top_edge, bnum, bget, bbind, bret in *.
      repeat match goal with |- context[as_num ?t] => destruct (as_num t) end; cbn [fst]; destruct xb, xc; reflexivity.
    + unfold inline_non_replaced_height, top_edge, bmod, bbind, bnum, bget, bret.
      repeat match goal with |- context[as_num ?t] => destruct (as_num t) end; cbn [fst]; destruct b, c; reflexivity.
Qed.

Lemma pchildren_nonempty lay s i b ks ks' b' k' : pchildren sty lay s i b ks = Ok (ks', b') -> In k' ks' -> ks <> [].
Proof.
  intros H I E. subst ks. unfold pchildren in H. destruct (establishes_inline sty _).
  - cbn in H. apply Ok_inj in H. injection H as <- _. destruct I.
  - cbn in H. apply Ok_inj in H. injection H as <- _. destruct I.
Qed.

Lemma kid_step (F : Prop) d h5 fuel cb pin p0 pop p k :
  plb (Datatypes.S fuel) d dummy_font cb pin = Ok p0 -> (F -> fresh pin) -> final d h5 pop p0 p ->
  In k (n_kids p) -> displayed sty k ->
  (establishes_inline sty p = true \/ is_block_level (sty (n_style k)) = true) ->
  exists fuel cb' kin k0,
    plb (Datatypes.S fuel) d dummy_font cb' kin = Ok k0 /\ (F -> fresh kin)
    /\ final d h5 (Some p) k0 k /\ cb_for F (pop <> None \/ h5 = false) (Some p) cb'.
Proof.
  intros Hp Fp Hfin Hk D Hbl.
  pose proof (final_same _ _ _ _ _ Hfin) as (S1 & S2 & S3 & b0 & bp & B0 & Bp & Hsh & _).
  destruct pin as [s i bx ks].
  destruct (st_display (sty s)) eqn:Ed.
  2:{ apply plb_hidden in Hp; [|exact Ed]. subst p0. cbn in B0. discriminate. }
  assert (Ed' : st_display (sty s) <> None) by congruence.
  pose proof (plb_inputs _ _ _ _ _ _ Hp) as Hin.
  apply plb_inv in Hp; [|exact Ed'].
  destruct Hp as (b1 & b2 & ks' & b3 & b4 & b5 & -> & W1 & W2 & A1 & A2 & Hc & W4 & W5).
  cbn [n_style n_intr n_kids n_box] in *. injection B0 as <-.
  rewrite S3 in Hk. pose proof (pchildren_nonempty _ _ _ _ _ _ _ _ Hc Hk) as Hne.
  apply pchildren_kid in Hc. destruct Hc as [[kt3 Hb3] Hc].
  assert (Hest : establishes_inline sty p = establishes_inline sty (Node s i (Some b2) ks)).
  { transitivity (establishes_inline sty (Node s i (Some b5) ks')).
    - unfold establishes_inline. cbn [n_style n_intr n_kids]. rewrite S1, S2, S3. reflexivity.
    - apply inputs_establishes. exact Hin. }
  destruct (Hc k Hk) as (kt & kin & k1 & I1 & L1 & M1).
  { rewrite <- Hest. exact Hbl. }
  destruct fuel as [|fuel]; [discriminate|].
  exists fuel, (CBNode s (upd_collapse_top kt b2)), kin, k1. split; [exact L1|]. split.
  { intros f. destruct (fresh_box _ _ _ _ (Fp f) Ed') as [_ G]. apply G, I1. }
  split.
  { cbn [final]. destruct M1 as [->|M1]; [|exact M1].
    destruct (displayed_box _ _ _ _ _ _ L1 D) as [b Hb]. eapply moved_refl, Hb. }
  rewrite <- S1. eapply cb_node; [exact Bp| | |].
  - eapply same_h_trans; [|exact Hsh].
    apply shift_box_same_h in W5. apply hphase_hv in W4. destruct W4 as [W4 _].
    eapply same_h_trans; [|exact W5]. eapply same_h_trans; [|exact W4]. rewrite Hb3. destruct b2; repeat split.
  - intros f Hr. rewrite S1 in Hr. rewrite Hr in W2. apply Ok_inj in W2. subst b2.
    destruct (fresh_box _ _ _ _ (Fp f) Ed') as [Ebx _]. rewrite Ebx in W1. apply wphase_fix in W1. destruct W1 as (_ & W1 & _).
    change (content_height b1 = l0) in W1. rewrite <- W1. destruct b1; reflexivity.
  - intros f g Hr. rewrite S1 in *. rewrite Hr in W2.
    replace (content_height (upd_collapse_top kt b2)) with (content_height b2) by (destruct b2; reflexivity).
    destruct (fresh_box _ _ _ _ (Fp f) Ed') as [Ebx Fk]. rewrite Ebx in *.
    unfold rel_ref.
    assert (Case : (is_block_level (sty s) = true /\ st_height (sty s) = Auto) \/
                   ~ (is_block_level (sty s) = true /\ st_height (sty s) = Auto)).
    { destruct (is_block_level (sty s)), (st_height (sty s)); (left; split; congruence) || (right; intros [? ?]; congruence). }
    destruct Case as [[C1 C2]|C].
    + rewrite C1, C2. apply hphase_block in W2; [|exact C1]. destruct W2 as (h & kt0 & kb0 & t & BH & -> & _).
      assert (h = n0).
      { destruct BH as [lb h E1 E2 E3|E1 E2 E3|u h E1 E2|u h0 h E1 E2 E3]; [|reflexivity| |congruence].
        - unfold last_box in E2. destruct (rev ks) as [|kl kr] eqn:Er; [discriminate|]. injection E2 as E2.
          assert (In kl ks) by (rewrite in_rev, Er; left; reflexivity).
          destruct (fresh_nbox kl) as [Q|Q]; [apply Fk; assumption|congruence|]. rewrite E2 in Q. injection Q as ->.
          cbn in E3. injection E3 as <-. reflexivity.
        - unfold last_box in E2. destruct (rev ks) as [|kl kr] eqn:Er; [|discriminate].
          elim Hne. rewrite <- (rev_involutive ks), Er. reflexivity. }
      subst h. destruct b1; reflexivity.
    + replace (match is_block_level (sty s) with true => match st_height (sty s) with Auto => l0 | Len _ => content_height bp end | false => content_height bp end)
        with (content_height bp) by (destruct (is_block_level (sty s)), (st_height (sty s)); try reflexivity; elim C; auto).
      transitivity (content_height b4).
      * symmetry. eapply hphase_again; [exact W4|exact W2| |exact C].
        pose proof (hphase_hv _ _ _ _ _ _ _ W2) as [Q _]. unfold same_h in Q. rewrite Hb3. destruct b2. cbn in *. intuition congruence.
      * transitivity (content_height b5).
        { unfold shift_box in W5. rewrite Hr in W5. apply bindr_ok in W5. destruct W5 as (? & _ & W5).
          apply bindr_ok in W5. destruct W5 as (? & _ & W5). apply Ok_inj in W5. subst b5.
          unfold move_top, move_left. destruct b4; reflexivity. }
        destruct pop as [pp|]; cbn [final] in Hfin.
        -- destruct Hfin as (b & t & E1 & ->). cbn [n_box] in E1. injection E1 as <-.
           rewrite with_box_box in Bp. injection Bp as <-. destruct b5; reflexivity.
        -- destruct g as [g|g]; [congruence|]. subst h5. cbn [pfinish] in Hfin. apply Ok_inj in Hfin. subst p.
           cbn [n_box] in Bp. injection Bp as <-. unfold move_top. destruct b5; reflexivity.
Qed.

Lemma laid_sound d h5 R0 Rt : forall (F : Prop),
  playout sty d h5 R0 = Ok Rt -> (F -> fresh R0) ->
  forall op k, laid sty Rt op k ->
  exists fuel cb kin k0,
    plb (Datatypes.S fuel) d dummy_font cb kin = Ok k0 /\ (F -> fresh kin)
    /\ final d h5 op k0 k /\ cb_for F (h5 = false) op cb.
Proof.
  intros F HR HF op k HL. induction HL as [D|op p k HL IH Hk D Hbl].
  - unfold playout in HR. apply bindr_ok in HR. destruct HR as (k0 & H0 & H1).
    assert (exists fu, height R0 = Datatypes.S fu) as [fu Hfu] by (destruct R0; cbn; eauto).
    rewrite Hfu in H0. exists fu, CBView, R0, k0. repeat split; try assumption. constructor.
  - destruct IH as (fuel & cb & pin & p0 & Hp & Fp & Hfin & Hcb).
    destruct (kid_step F _ _ _ _ _ _ _ _ _ Hp Fp Hfin Hk D Hbl) as (fuel' & cb' & kin & k0 & K1 & K2 & K3 & K4).
    exists fuel', cb', kin, k0. repeat split; try assumption.
    eapply cb_for_weaken; [|exact K4]. auto.
Qed.
(** The same for a child of a given laid node, with the exact height seen. *)
Lemma laid_sound_kid d h5 R0 Rt : forall (F : Prop),
  playout sty d h5 R0 = Ok Rt -> (F -> fresh R0) ->
  forall op p k, laid sty Rt op p -> In k (n_kids p) -> displayed sty k ->
    (establishes_inline sty p = true \/ is_block_level (sty (n_style k)) = true) ->
  exists fuel cb kin k0,
    plb (Datatypes.S fuel) d dummy_font cb kin = Ok k0 /\ (F -> fresh kin)
    /\ final d h5 (Some p) k0 k /\ cb_for F (op <> None \/ h5 = false) (Some p) cb.
Proof.
  intros F HR HF op p k HL Hk D Hbl.
  destruct (laid_sound d h5 R0 Rt F HR HF op p HL) as (fuel & cb & pin & p0 & Hp & Fp & Hfin & _).
  eapply kid_step; eassumption.
Qed.

(** ** Transfer to the engine *)
Lemma establishes_strip' (n : node) : establishes_inline sty (strip n) = establishes_inline sty n.
Proof. destruct n as [s i b ks]. apply establishes_strip. Qed.
Lemma laid_strip (R : node) op k : laid sty R op k -> laid sty (strip R) (option_map strip op) (strip k).
Proof.
  induction 1 as [D|op p k HL IH Hk D Hb].
  - apply laid_root. unfold displayed in *. rewrite n_style_strip. exact D.
  - cbn [option_map]. eapply laid_kid; [exact IH| | |].
    + rewrite n_kids_strip. apply in_map, Hk.
    + unfold displayed in *. rewrite n_style_strip. exact D.
    + rewrite establishes_strip', n_style_strip. exact Hb.
Qed.

Lemma ready_fresh (n : node) : ready sty n -> fresh (strip (reset n)).
Proof.
  induction 1 as [n H|s i b ks Hk IH].
  - apply fresh_hidden; [rewrite n_style_strip; destruct n as [s i [b|] ks]; exact H|].
    destruct n as [s i [b|] ks]; cbn; auto.
  - cbn [reset strip option_map]. apply fresh_node; [right; reflexivity|].
    intros k Hin. apply in_map_iff in Hin. destruct Hin as (k1 & <- & Hin).
    apply in_map_iff in Hin. destruct Hin as (k2 & <- & Hin). apply IH, Hin.
Qed.

Lemma layout_playout d h5 (n n' : node) : layout sty d h5 n = (n', Ok tt) ->
  playout sty d h5 (strip (reset n)) = Ok (strip n').
Proof.
  intros H. destruct (n_box n) as [b|] eqn:E.
  - rewrite (layout_strip sty d h5 n b E), H. reflexivity.
  - unfold layout in H. rewrite E in H. discriminate.
Qed.

Lemma layout_laid d h5 (n n' : node) op k : layout sty d h5 n = (n', Ok tt) -> laid sty n' op k ->
  exists fuel cb kin k0,
    plb (Datatypes.S fuel) d dummy_font cb kin = Ok k0 /\ (ready sty n -> fresh kin)
    /\ final d h5 (option_map strip op) k0 (strip k) /\ cb_for (ready sty n) (h5 = false) (option_map strip op) cb.
Proof.
  intros H L. eapply laid_sound; [apply layout_playout, H|apply ready_fresh|apply laid_strip, L].
Qed.

Lemma layout_laid_kid d h5 (n n' : node) op p k : layout sty d h5 n = (n', Ok tt) -> laid sty n' op p ->
  In k (n_kids p) -> displayed sty k ->
  (establishes_inline sty p = true \/ is_block_level (sty (n_style k)) = true) ->
  exists fuel cb kin k0,
    plb (Datatypes.S fuel) d dummy_font cb kin = Ok k0 /\ (ready sty n -> fresh kin)
    /\ final d h5 (Some (strip p)) k0 (strip k) /\ cb_for (ready sty n) (op <> None \/ h5 = false) (Some (strip p)) cb.
Proof.
  intros H L Hk D Hb.
  destruct (laid_sound_kid d h5 _ _ (ready sty n) (layout_playout _ _ _ _ H) (ready_fresh _) _ _ (strip k) (laid_strip _ _ _ L))
    as (fuel & cb & kin & k0 & A1 & A2 & A3 & A4).
  - rewrite n_kids_strip. apply in_map, Hk.
  - unfold displayed in *. rewrite n_style_strip. exact D.
  - rewrite establishes_strip', n_style_strip. exact Hb.
  - exists fuel, cb, kin, k0. repeat split; try assumption.
    eapply cb_for_weaken; [|exact A4]. intros [Q|Q]; [left|right; exact Q]. destruct op; [discriminate|congruence].
Qed.

(** The inversion of a call, spelled out. *)
Lemma call_inv d h5 fuel cb kin k0 (F : Prop) op k :
  plb (Datatypes.S fuel) d dummy_font cb kin = Ok k0 -> (F -> fresh kin) -> final d h5 op k0 (strip k) ->
  exists s i bx ks b1 b2 ks' b3 b4 b5 b,
    n_style k = s /\ n_intr k = i /\ map strip (n_kids k) = ks' /\ n_box k = Some b
    /\ kin = Node s i bx ks
    /\ st_display (sty s) <> None
    /\ final d h5 op (Node s i (Some b5) ks') (strip k)
    /\ (F -> match bx with Some b => b | None => box0 end = box0 /\ forall k, In k ks -> fresh k)
    /\ wphase (sty s) i (hctx d dummy_font cb) (vctx d dummy_font cb) (match bx with Some b => b | None => box0 end) = Ok b1
    /\ (if is_relative (sty s) then hphase (sty s) i (cb_style_height sty cb) (last_box ks) (vctx d dummy_font cb) b1
        else Ok b1) = Ok b2
    /\ is_abspos (sty s) = false /\ is_float (sty s) = false
    /\ pchildren sty (plb fuel d dummy_font) s i b2 ks = Ok (ks', b3)
    /\ hphase (sty s) i (cb_style_height sty cb) (last_box ks') (vctx d dummy_font cb) b3 = Ok b4
    /\ shift_box d dummy_font cb (sty s) b4 = Ok b5.
Proof.
  intros Hp Hf Hfin.
  pose proof (final_same _ _ _ _ _ Hfin) as (S1 & S2 & S3 & b0 & bk & B0 & Bk & _).
  destruct kin as [s i bx ks].
  assert (Dk : st_display (sty s) <> None).
  { intros E. apply plb_hidden in Hp; [|exact E]. subst k0. discriminate. }
  apply plb_inv in Hp; [|exact Dk].
  destruct Hp as (b1 & b2 & ks' & b3 & b4 & b5 & -> & W1 & W2 & A1 & A2 & Hc & W4 & W5).
  cbn [n_style n_intr n_kids n_box] in *. rewrite n_style_strip in S1. rewrite n_intr_strip in S2. rewrite n_kids_strip in S3.
  rewrite n_box_strip in Bk. destruct (n_box k) as [b|] eqn:Ek; [|discriminate].
  exists s, i, bx, ks, b1, b2, ks', b3, b4, b5, b.
  repeat (split; [assumption || reflexivity|]). split.
  { intros r. eapply fresh_box; [exact (Hf r)|exact Dk]. }
  auto 10.
Qed.
End Tree.
