(** * C123-C125: which documents can be laid out *)
From Coq Require Import ZArith QArith Qcanon Lia Bool List String.
From Verif Require Import PyNum NumFacts Units BoxModel BoxSpec BoxFacts Engine EnginePure EngineFacts EngineSpec
  EngineTree EngineInv EngineFuel EngineExamples RefLayout RefFacts RefProps HistSpec HistProps OkSpec OkFacts.
Import ListNotations.

Section Ok.
Context {S : Type} (sty : S -> style).
Notation node := (node S).

(** ** The condition does not see the contents of boxes *)
Inductive same_boxes : node -> node -> Prop :=
| same_boxes_node s i bx bx' ks ks' : some bx = some bx' -> Forall2 same_boxes ks ks' -> same_boxes (Node s i bx ks) (Node s i bx' ks').
Lemma same_style n m : same_boxes n m -> n_style m = n_style n /\ n_intr m = n_intr n /\ some (n_box m) = some (n_box n).
Proof. intros H. inversion H; subst; cbn; auto. Qed.
Lemma Forall2_rev_ {A} (R : A -> A -> Prop) l l' : Forall2 R l l' -> Forall2 R (rev l) (rev l').
Proof. induction 1; cbn; [constructor|]. apply Forall2_app; auto. Qed.
Definition alike (k k' : node) : Prop := n_style k' = n_style k /\ n_intr k' = n_intr k.
Lemma block_child_alike k k' : alike k k' -> block_child sty k' = block_child sty k.
Proof. intros [E _]. unfold block_child. rewrite E. reflexivity. Qed.
Lemma exists_alike ks ks' : Forall2 alike ks ks' -> existsb (block_child sty) ks' = existsb (block_child sty) ks.
Proof. induction 1 as [|k k' ks ks' H _ IH]; [reflexivity|]. cbn. rewrite (block_child_alike _ _ H), IH. reflexivity. Qed.
Lemma first_alike ks ks' : Forall2 alike ks ks' -> blocks_first sty ks' = blocks_first sty ks.
Proof. induction 1 as [|k k' ks ks' H F IH]; [reflexivity|]. cbn. rewrite (block_child_alike _ _ H), IH, (exists_alike _ _ F). reflexivity. Qed.
Lemma same_alike ks ks' : Forall2 same_boxes ks ks' -> Forall2 alike ks ks'.
Proof. induction 1 as [|k k' ks ks' H _ IH]; constructor; [|exact IH]. apply same_style in H. split; apply H. Qed.
Lemma can_lay_same n : forall m a, same_boxes n m -> can_lay sty a m = can_lay sty a n.
Proof.
  induction n as [s i bx ks IH] using node_ind'. intros m a H. inversion H as [? ? ? bx' ? ks' Eb F]; subst. cbn [can_lay].
  destruct (st_display (sty s)) as [dk|]; [|reflexivity]. destruct (kind_of (sty s) i) as [kd|]; [|reflexivity].
  pose proof (same_alike _ _ F) as Fa. rewrite (exists_alike _ _ Fa), (first_alike _ _ Fa).
  assert (L1 : last_boxed ks' = last_boxed ks).
  { unfold last_boxed. apply Forall2_rev_ in F. inversion F as [|k k' r r' Hk]; [reflexivity|]. apply same_style in Hk. destruct Hk as (_ & _ & ->). reflexivity. }
  assert (L2 : forall st, last_sized sty st ks' = last_sized sty st ks).
  { intros st. unfold last_sized. apply Forall2_rev_ in F. inversion F as [|k k' r r' Hk]; [reflexivity|]. unfold block_child. apply same_style in Hk. destruct Hk as (-> & -> & ->). reflexivity. }
  rewrite L1, L2.
  assert (G : forall inner, forallb (can_lay sty inner) ks' = forallb (can_lay sty inner) ks
    /\ forallb (fun k => if block_child sty k then can_lay sty inner k else true) ks' = forallb (fun k => if block_child sty k then can_lay sty inner k else true) ks).
  { intros inner. clear L1 L2 H. induction F as [|k k' ks ks' Hk F IHf]; [split; reflexivity|]. inversion Fa; subst. destruct IHf as [I1 I2]; [intros; apply IH; [right|]; assumption|assumption|].
    cbn [forallb]. rewrite I1, I2. rewrite (block_child_alike k k') by assumption. rewrite (IH k (or_introl eq_refl) k' inner Hk). split; reflexivity. }
  destruct (G (mkAround (width_known kd i) (if relative (sty s) then height_known kd i else true) false (match st_height (sty s) with Auto => None | Len u => Some u end))) as [-> ->].
  reflexivity.
Qed.
Lemma same_strip n : same_boxes n (strip n).
Proof.
  induction n as [s i bx ks IH] using node_ind'. cbn [strip]. constructor; [destruct bx; reflexivity|].
  clear bx. induction ks as [|k ks IHk]; constructor; [apply IH; left; reflexivity|]. apply IHk. intros; apply IH; right; assumption.
Qed.
Lemma same_refl n : same_boxes n n.
Proof.
  induction n as [s i bx ks IH] using node_ind'. constructor; [reflexivity|].
  clear bx. induction ks as [|k ks IHk]; constructor; [apply IH; left; reflexivity|]. apply IHk. intros; apply IH; right; assumption.
Qed.
Lemma same_reset n : same_boxes n (reset n).
Proof.
  induction n as [s i bx ks IH] using node_ind'. destruct bx as [b|]; [|apply same_refl]. cbn [reset]. constructor; [reflexivity|].
  clear b. induction ks as [|k ks IHk]; constructor; [apply IH; left; reflexivity|]. apply IHk. intros; apply IH; right; assumption.
Qed.

(** ** The whole engine *)
Lemma view_around d : around_is sty d (mkAround true true true None) CBView.
Proof. repeat split. Qed.
Lemma plb_root d n : history sty n ->
  okb (plb sty (height (strip (reset n))) d dummy_font CBView (strip (reset n))) = can_lay sty (mkAround true true true None) n
  /\ (forall n', plb sty (height (strip (reset n))) d dummy_font CBView (strip (reset n)) = Ok n' -> was_laid sty (strip (reset n)) n').
Proof.
  intros H. assert (Fr : fresh sty (strip (reset n))) by (apply clean_fresh, reset_clean, (history_sound sty), H).
  destruct (plb_okb sty _ d CBView _ _ (le_n _) Fr (view_around d)) as [E L]. split; [|exact L]. rewrite E.
  rewrite (can_lay_same (reset n) _ _ (same_strip _)). apply can_lay_same, same_reset.
Qed.
Lemma strip_reset_node (n : node) : n_style (strip (reset n)) = n_style n /\ n_intr (strip (reset n)) = n_intr n.
Proof. destruct n as [s i [b|] ks]; split; reflexivity. Qed.

(** C123. *)
Theorem C123_exactly_when : forall d h5 (n : node), history sty n ->
  ((exists n', layout sty d h5 n = (n', Ok tt)) <-> can_lay_out sty n = true).
Proof.
  intros d h5 n H. unfold can_lay_out. destruct (n_box n) as [b|] eqn:B.
  2: { unfold layout. rewrite B. cbn. split; [intros (? & [=])|discriminate]. }
  cbn [some andb]. destruct (plb_root d n H) as [<- L]. pose proof (layout_strip sty d h5 n b B) as E. unfold playout in E.
  destruct (plb sty _ d dummy_font CBView _) as [n1|e].
  2: { cbn [bindr okb] in *. rewrite andb_false_r. split; [|discriminate]. intros (n' & Hn). rewrite Hn in E. discriminate. }
  specialize (L n1 eq_refl). unfold was_laid in L. destruct (strip_reset_node n) as [Es Ei]. rewrite Es, Ei in L. cbn [bindr okb] in *. rewrite andb_true_r.
  destruct (st_display (sty (n_style n))) as [dk|]; cbn [some].
  - split; [reflexivity|]. intros _. destruct L as (kd & b1 & _ & Hb & _). destruct n1 as [s1 i1 bx1 ks1]. cbn in Hb. subst bx1.
    cbn [pfinish] in E. destruct (layout sty d h5 n) as [n' [[]|e]]; [exists n'; reflexivity|discriminate].
  - split; [|discriminate]. intros (n' & Hn). rewrite Hn in E. destruct n1 as [s1 i1 bx1 ks1]. cbn in L. subst bx1. discriminate.
Qed.

(** C124. *)
Theorem C124_any_display : forall d h5 d' h5' (n n' : node), history sty n -> layout sty d h5 n = (n', Ok tt) ->
  exists n2, layout sty d' h5' n = (n2, Ok tt).
Proof. intros d h5 d' h5' n n' H L. apply C123_exactly_when; [exact H|]. apply (C123_exactly_when d h5); [exact H|]. eauto. Qed.

(** ** Laying out again *)
Lemma pall_kids (lay : node -> res node) ks ks' : pall lay ks = Ok ks' -> Forall2 (fun k k' => lay k = Ok k') ks ks'.
Proof.
  revert ks'. induction ks as [|k ks IH]; intros ks' H; cbn [pall] in H; [apply Ok_inj in H; subst; constructor|].
  apply bindr_ok in H. destruct H as (k' & H1 & H). apply bindr_ok in H. destruct H as (ks2 & H2 & H). apply Ok_inj in H. subst ks'. constructor; auto.
Qed.
Lemma pflow_kids (P : box -> Prop) (lay : box -> node -> res node) ks : (forall b v, P b -> P (set_collapse_top v b)) ->
  forall pend b off bm ks' b', P b -> pflow sty lay ks pend b off bm = Ok (ks', b') ->
  Forall2 (fun k k' => if block_child sty k then exists b0 k1 kb, P b0 /\ lay b0 k = Ok k1 /\ n_box k1 <> None /\ k' = with_box (Some kb) k1 else k' = k) ks ks'.
Proof.
  intros HP. induction ks as [|k ks IH]; intros pend b off bm ks' b' Pb H; cbn [pflow] in H; [apply Ok_inj in H; injection H as <- <-; constructor|].
  rewrite block_child_level in H. destruct (block_child sty k) eqn:Bk.
  - destruct pend; [discriminate|]. apply bindr_ok in H. destruct H as (k1 & L & H). destruct (n_box k1) as [kb|] eqn:Eb; [|discriminate].
    apply bindr_ok in H. destruct H as ([[[kb' b1] off1] bm1] & Hp & H). apply bindr_ok in H. destruct H as ([ks2 b2] & H2 & H). apply Ok_inj in H. injection H as <- <-. cbn [fst snd] in *.
    unfold pplace in Hp. apply bindr_ok in Hp. destruct Hp as (o & _ & Hp). apply bindr_ok in Hp. destruct Hp as (h & _ & Hp). apply Ok_inj in Hp. injection Hp as <- <- _ _.
    constructor; [|eapply IH; [|exact H2]; destruct bm; auto]. rewrite Bk. exists b, k1. eexists. split; [exact Pb|]. split; [exact L|]. split; [congruence|reflexivity].
  - apply bindr_ok in H. destruct H as ([ks2 b2] & H2 & H). apply Ok_inj in H. injection H as <- <-. cbn [fst snd] in *.
    constructor; [rewrite Bk; reflexivity|eapply IH; eassumption].
Qed.
(** A node and the result of its layout. *)
Lemma plb_shape fuel d f cb (n n' : node) : plb sty fuel d f cb n = Ok n' -> alike n n' /\ (n_box n' <> None <-> st_display (sty (n_style n)) <> None).
Proof.
  destruct fuel as [|fuel]; [discriminate|]. destruct n as [s i bx ks]. cbn [plb n_style]. destruct (st_display (sty s)).
  - intros H. repeat (apply bindr_ok in H; destruct H as (? & _ & H)). apply Ok_inj in H. subst n'. split; [split; reflexivity|]. cbn. split; congruence.
  - intros H. apply Ok_inj in H. subst n'. split; [split; reflexivity|]. cbn. split; congruence.
Qed.
Lemma can_lay_with a b (k : node) : can_lay sty a (with_box b k) = can_lay sty a k.
Proof. destruct k; reflexivity. Qed.
Lemma again fuel : forall d f cb a (n n' : node), plb sty fuel d f cb n = Ok n' -> can_lay sty a n = true -> can_lay sty a n' = true.
Proof.
  induction fuel as [|fuel IH]; intros d f cb a [s0 i bx ks] n' H C; [discriminate|]. cbn [plb] in H. cbn [can_lay] in C.
  destruct (st_display (sty s0)) as [dk|] eqn:Dk; [|apply Ok_inj in H; subst n'; cbn [can_lay]; rewrite Dk; reflexivity].
  destruct (kind_of (sty s0) i) as [kd|] eqn:K; [|discriminate]. set (s := sty s0) in *.
  set (inner := mkAround (width_known kd i) (if relative s then height_known kd i else true) false (match st_height s with Auto => None | Len u => Some u end)) in *.
  remember (match dk with DBlock | DListItem => existsb (block_child sty) ks | _ => false end) as stacks eqn:Es in *.
  apply bindr_ok in H. destruct H as (b1 & _ & H). apply bindr_ok in H. destruct H as (b2 & _ & H). apply bindr_ok in H. destruct H as ([ks' b3] & Hc & H).
  apply bindr_ok in H. destruct H as (b4 & _ & H). apply bindr_ok in H. destruct H as (b5 & _ & H). apply Ok_inj in H. subst n'. cbn [fst snd] in *.
  destruct (is_abspos s); [discriminate|]. destruct (is_float s); [discriminate|].
  assert (St : establishes_inline sty (Node s0 i (Some b2) ks) = negb stacks).
  { unfold establishes_inline, is_block_container. rewrite Es. cbn [n_style n_intr n_kids]. fold s. rewrite Dk.
    pose proof K as K'. unfold kind_of in K'. rewrite Dk in K'. destruct (st_float s), (st_position s), dk, (s_replaced i); try discriminate; reflexivity. }
  assert (Kd : Forall2 (fun k k' => alike k k' /\ (stacks && negb (block_child sty k) = true -> k' = k)
      /\ (stacks && negb (block_child sty k) = false -> (n_box k' <> None <-> st_display (sty (n_style k)) <> None)
           /\ (can_lay sty inner k = true -> can_lay sty inner k' = true))) ks ks').
  { unfold pchildren in Hc. rewrite St in Hc. destruct stacks; cbn [negb andb] in *.
    - apply (pflow_kids (fun _ => True)) in Hc; [|auto|exact I]. clear -Hc IH. induction Hc as [|k k' ks ks' Hk _ IHk]; constructor; [|exact IHk]. clear IHk.
      destruct (block_child sty k) eqn:Bk; cbn [negb].
      + destruct Hk as (b0 & k1 & kb & _ & L & N & ->). pose proof (plb_shape _ _ _ _ _ _ L) as [[A1 A2] _].
        split; [destruct k1; split; assumption|]. split; [discriminate|]. intros _. split.
        * unfold block_child in Bk. split; [intros _ Q; rewrite Q in Bk; discriminate|]. destruct k1; discriminate.
        * rewrite can_lay_with. eapply IH, L.
      + subst k'. split; [split; reflexivity|]. split; [reflexivity|discriminate].
    - apply bindr_ok in Hc. destruct Hc as (ks2 & Hc & E). apply Ok_inj in E. injection E as <- <-. apply pall_kids in Hc. clear -Hc IH.
      induction Hc as [|k k' ks ks' Hk _ IHk]; constructor; [|exact IHk]. pose proof (plb_shape _ _ _ _ _ _ Hk) as [A B].
      split; [exact A|]. split; [discriminate|]. intros _. split; [exact B|]. eapply IH, Hk. }
  assert (Fa : Forall2 alike ks ks') by (clear -Kd; induction Kd as [|k k' ks ks' H _ IH]; constructor; [apply H|exact IH]).
  cbn [can_lay]. fold s. rewrite Dk, K. fold inner. rewrite (exists_alike _ _ Fa), (first_alike _ _ Fa). rewrite <- Es.
  assert (L2 : last_sized sty stacks ks' = last_sized sty stacks ks).
  { unfold last_sized. apply Forall2_rev_ in Kd. inversion Kd as [|k k' r r' (A & B & _)]; [reflexivity|]. rewrite (block_child_alike _ _ A).
    destruct (stacks && negb (block_child sty k)); [rewrite B; reflexivity|]. destruct A as [-> ->]. reflexivity. }
  rewrite L2. apply andb_prop in C. destruct C as [C C5]. apply andb_prop in C. destruct C as [C C4]. apply andb_prop in C. destruct C as [C C3].
  rewrite C, C5. rewrite andb_true_r. cbn [andb]. apply andb_true_intro. split.
  - destruct (relative s); [|reflexivity]. apply andb_prop in C3. destruct C3 as [C3 C6]. apply andb_prop in C3. destruct C3 as [C3 C7].
    rewrite C6, C7, !andb_true_r. destruct kd; cbn [height_ok] in *; try exact C3. destruct (st_height s) as [|u]; [|exact C3].
    unfold last_boxed, last_sized in *. apply Forall2_rev_ in Kd. clear L2. destruct (rev ks) as [|k r]; [inversion Kd; exact C3|]. inversion Kd as [|? k' ? r' (A & B & D)]. clear Es.
    destruct (stacks && negb (block_child sty k)); [rewrite B by reflexivity; exact C5|]. destruct (D eq_refl) as [D1 _].
    destruct (kind_of (sty (n_style k)) (n_intr k)) eqn:Kk; [|discriminate]. apply kind_hidden in Kk. apply D1 in Kk. destruct (n_box k'); [reflexivity|contradiction].
  - destruct stacks; cbn [andb] in *.
    + apply andb_prop in C4. destruct C4 as [C4 C6]. rewrite C4. cbn [andb]. clear -Kd C6. induction Kd as [|k k' ks ks' (A & B & D) _ IH]; [reflexivity|].
      cbn [forallb] in *. apply andb_prop in C6. destruct C6 as [C6 C7]. rewrite (IH C7), andb_true_r. rewrite (block_child_alike _ _ A).
      destruct (block_child sty k); [|reflexivity]. apply D; [reflexivity|exact C6].
    + clear -Kd C4. induction Kd as [|k k' ks ks' (A & B & D) _ IH]; [reflexivity|].
      cbn [forallb] in *. apply andb_prop in C4. destruct C4 as [C4 C7]. rewrite (IH C7), andb_true_r. apply D; [reflexivity|exact C4].
Qed.

(** C125. *)
Theorem C125_again : forall d h5 d' h5' (n n' : node), history sty n -> layout sty d h5 n = (n', Ok tt) ->
  exists n2, layout sty d' h5' n' = (n2, Ok tt) /\ shows n2 (page sty d' h5' n).
Proof.
  intros d h5 d' h5' n n' H L.
  assert (H' : history sty n') by (change n' with (fst (n', Ok tt : res unit)); rewrite <- L; apply history_layout, H).
  pose proof (proj1 (C123_exactly_when d h5 n H) (ex_intro _ n' L)) as C. unfold can_lay_out in C. apply andb_prop in C. destruct C as [C1 C]. apply andb_prop in C1. destruct C1 as [C0 C1].
  destruct (n_box n) as [b|] eqn:B; [|discriminate]. pose proof (layout_strip sty d h5 n b B) as E. rewrite L in E. cbn [outcome] in E.
  unfold playout in E. apply bindr_ok in E. destruct E as (n1 & E1 & E2).
  assert (Cr : can_lay sty (mkAround true true true None) (strip (reset n)) = true).
  { rewrite (can_lay_same (reset n) _ _ (same_strip _)), (can_lay_same n _ _ (same_reset _)). exact C. }
  pose proof (again _ _ _ _ _ _ _ E1 Cr) as C2. destruct (plb_shape _ _ _ _ _ _ E1) as [[A1 A2] _].
  destruct n1 as [s1 i1 [bx1|] ks1]; [|discriminate]. cbn [pfinish] in E2. apply Ok_inj in E2.
  assert (Co : can_lay_out sty n' = true).
  { unfold can_lay_out. rewrite <- (can_lay_same n' (strip n') _ (same_strip _)). destruct (same_style _ _ (same_strip n')) as (X1 & X2 & X3). rewrite <- X1, <- X3, <- E2. cbn [n_box n_style some andb].
    cbn [n_style] in A1. rewrite (proj1 (strip_reset_node n)) in A1. subst s1. rewrite C1. exact C2. }
  destruct (proj2 (C123_exactly_when d' h5' n' H') Co) as (n2 & L2). exists n2. split; [exact L2|].
  replace (page sty d' h5' n) with (page sty d' h5' n'); [apply (C122_any_history sty); assumption|].
  unfold page. assert (Ei : inputs n' = inputs n). { pose proof (layout_inputs sty d h5 n) as Q. rewrite L in Q. exact Q. }
  rewrite (format_inputs sty d' _ _ Ei). reflexivity.
Qed.
End Ok.
Print Assumptions C123_exactly_when.
Print Assumptions C124_any_display.
Print Assumptions C125_again.

(** ** Examples *)
Definition word (w h : option num) (s : style) (ks : list doc) : doc :=
  Node (s_display (Some DInline) s) (mkSize w h true true None false) (Some box0) ks.
Definition wide (p : Z) (s : style) : style := s_size (Len (pctu p)) (st_height s) s.
(** A relatively positioned block of auto height with a row of words and of an
    image, one word containing a block, between blocks. *)
Definition article : doc :=
  el block_style
    [el (s_position PRelative (s_offsets (OLen (pxu 2)) OAuto OAuto OInherit (vmargin 5 5 block_style)))
       [word (Some (NI 40)) (Some (NI 10)) block_style [el (wide 50 block_style) []];
        Node (s_display (Some DInline) block_style) (mkSize (Some (NI 30)) (Some (NI 20)) true true None true) (Some box0) [];
        word (Some (NI 8)) (Some (NI 9)) block_style []];
     el (hpx 10 (wide 25 block_style)) []].
Example C123_example : history idsty article /\ can_lay_out idsty article = true
  /\ layout idsty screen true article = (out true article, Ok tt)
  /\ lq (content_width (bx (kid 0 (kid 0 (kid 0 (out true article)))))) = Some 20%Q.
Proof. split; [apply history_new; solve_new|]. split; [vm_compute; reflexivity|]. split; [apply ok_layout; vm_compute; reflexivity|vm_compute; reflexivity]. Qed.
(** Documents that cannot be laid out: a percentage of the unknown width of a
    word, inheriting from the display, an auto margin above a word, a hidden
    last child, a block behind a word, a float, an unsized last word. *)
Definition failures : list doc :=
  [ el block_style [word None (Some (NI 10)) block_style [word (Some (NI 1)) (Some (NI 1)) (s_padding (pctu 5) zero_px zero_px zero_px block_style) []]];
    el (s_position PRelative (s_offsets OAuto OAuto OAuto OInherit block_style)) [];
    el block_style [word (Some (NI 1)) (Some (NI 1)) (s_margin Auto (Len zero_px) (Len zero_px) (Len zero_px) block_style) []];
    el block_style [word (Some (NI 1)) (Some (NI 1)) block_style []; el (s_display None block_style) []];
    el block_style [word (Some (NI 1)) (Some (NI 1)) block_style []; el block_style []];
    el block_style [el (s_float (Some FLeft) block_style) []];
    el block_style [word (Some (NI 1)) None block_style []] ].
Example C123_failures : Forall (fun n => history idsty n /\ can_lay_out idsty n = false /\ ok true n = false /\ ok false n = false) failures.
Proof. repeat (constructor; [split; [apply history_new; solve_new|repeat (split; [vm_compute; reflexivity|]); vm_compute; reflexivity]|]). constructor. Qed.
(** A word of unknown height that is not the last child does no harm. *)
Example C123_unsized : let n := el block_style [word None None block_style []; word (Some (NI 1)) (Some (NI 1)) block_style []] in
  can_lay_out idsty n = true /\ ok false n = true.
Proof. split; vm_compute; reflexivity. Qed.

Definition phone : display_t := mkDisp (NI 300) (NI 100) (NI 0) (fun _ => NI 2).
Example C124_example : history idsty article /\ layout idsty screen true article = (out true article, Ok tt)
  /\ snd (layout idsty phone false article) = Ok tt
  /\ lq (content_width (bx (kid 1 (fst (layout idsty phone false article))))) <> lq (content_width (bx (kid 1 (out true article)))).
Proof. split; [apply history_new; solve_new|]. split; [apply ok_layout; vm_compute; reflexivity|]. split; [vm_compute; reflexivity|vm_compute; discriminate]. Qed.
(** A document with a hidden child: its box is gone after the first layout. *)
Definition partly : doc := el block_style [el (s_display None block_style) []; word (Some (NI 4)) (Some (NI 6)) block_style []].
Example C125_example : history idsty partly /\ layout idsty screen false partly = (out false partly, Ok tt)
  /\ n_box (kid 0 partly) = Some box0 /\ n_box (kid 0 (out false partly)) = None
  /\ snd (layout idsty phone true (out false partly)) = Ok tt.
Proof.
  split; [apply history_new; solve_new|]. split; [apply ok_layout; vm_compute; reflexivity|]. split; [reflexivity|]. split; vm_compute; reflexivity.
Qed.
