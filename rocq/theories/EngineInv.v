(** * Invariants of layout, also when it fails *)
From Coq Require Import ZArith QArith Qcanon Lqa Lia Bool List.
From Verif Require Import PyNum NumFacts Units BoxModel BoxSpec BoxFacts Engine EnginePure EngineFacts EngineSpec EngineTree.
Import ListNotations.
Open Scope Z_scope.

(** Box computations leave positions, origins and dirtiness alone. *)
Definition geom (b b' : box) : Prop :=
  content_top b' = content_top b /\ content_left b' = content_left b
  /\ origin_top b' = origin_top b /\ origin_left b' = origin_left b /\ dirty b' = dirty b.
Lemma geom_refl b : geom b b. Proof. repeat split. Qed.
Lemma geom_trans a b c : geom a b -> geom b c -> geom a c.
Proof. unfold geom. intros. intuition congruence. Qed.
Ltac keepg :=
  repeat first
  [ apply keeps_bind; [exact geom_trans| |intros ?]
  | apply keeps_id; [exact geom_refl|intros; reflexivity]
  | match goal with |- keeps _ (match ?x with _ => _ end) => destruct x end
  | match goal with |- keeps geom (add_unless_auto _ ?f) =>
      let bb := fresh "bb" in intros bb; unfold add_unless_auto; destruct (is_auto (f bb)); apply geom_refl end
  | match goal with |- keeps geom (bmod ?f) =>
      let bb := fresh "bb" in intros bb; unfold bmod; cbn [fst]; destruct bb;
      unfold set_margin_left, set_margin_right, set_margin_top, set_margin_bottom, set_collapse_bottom;
      repeat match goal with |- context[if ?x then _ else _] => destruct x end; repeat split end ].
Lemma copy_edges_geom s hz vt : keeps geom (copy_edges s hz vt).
Proof. unfold copy_edges. keepg. Qed.
Lemma calculate_width_geom s i c : keeps geom (calculate_width s i c).
Proof.
  unfold calculate_width, inline_replaced_width, inline_non_replaced_width, block_non_replaced_width,
    drop_auto_margins, solve_right, solve_left, split_margins, left_edge, avail_width, auto_left0, auto_right0.
  keepg.
Qed.
Lemma calculate_height_geom s i ph last c : keeps geom (calculate_height s i ph last c).
Proof.
  unfold calculate_height, inline_replaced_height, inline_non_replaced_height, block_non_replaced_height,
    block_content_height, top_edge, auto_top0, auto_bottom0.
  keepg.
Qed.

Section Inv.
Context {S : Type} (sty : S -> style).
Notation node := (node S).

(** What a relation between the tree before and after must satisfy to hold
    across [layout_box], whatever the outcome. *)
Record stable (R : node -> node -> Prop) : Prop := {
  st_refl : forall n, R n n;
  st_trans : forall a b c, R a b -> R b c -> R a c;
  st_boxc : forall s i b b' ks, geom b b' -> R (Node s i (Some b) ks) (Node s i (Some b') ks);
  st_top_ : forall v n, R n (set_content_top v n);
  st_left_ : forall v n, R n (set_content_left v n);
  st_ensure : forall n, st_display (sty (n_style n)) <> None -> R n (ensure_box n);
  st_hide : forall n, st_display (sty (n_style n)) = None -> R n (with_box None n);
  st_kids : forall s i b ks ks', st_display (sty s) <> None -> Forall2 R ks ks' -> R (Node s i (Some b) ks) (Node s i (Some b) ks') }.

Section Rel.
Variable R : node -> node -> Prop.
Hypothesis HR : stable R.
Let refl := st_refl R HR.
Let trans := st_trans R HR.

Definition mkeeps {A} (m : @M S A) : Prop := forall n, R n (fst (m n)).
Definition mkeeps_at {A} (m : @M S A) (P : node -> Prop) : Prop := forall n, P n -> R n (fst (m n)).

Lemma mkeeps_bind {A B} (m : @M S A) (f : A -> @M S B) : mkeeps m -> (forall a, mkeeps (f a)) -> mkeeps (mbind m f).
Proof.
  intros Hm Hf n. unfold mbind. specialize (Hm n). destruct (m n) as [n' [a|e]]; cbn [fst] in *; [|exact Hm].
  eapply trans; [exact Hm|apply Hf].
Qed.
Lemma mkeeps_lift {A} (r : res A) : mkeeps (mlift r). Proof. intros n. apply refl. Qed.
Lemma mkeeps_ret {A} (a : A) : mkeeps (mret a). Proof. intros n. apply refl. Qed.
Lemma mkeeps_box {A} (m : BM A) : keeps geom m -> mkeeps (on_box m).
Proof.
  intros K [s i [b|] ks]; cbn; [|apply refl]. specialize (K b). destruct (m b) as [b' r]. cbn in *. apply (st_boxc R HR), K.
Qed.
Lemma mkeeps_add_top v : mkeeps (add_content_top v).
Proof. intros n. unfold add_content_top. destruct (n_box n); cbn; [apply (st_top_ R HR)|apply refl]. Qed.
Lemma mkeeps_add_left v : mkeeps (add_content_left v).
Proof. intros n. unfold add_content_left. destruct (n_box n); cbn; [apply (st_left_ R HR)|apply refl]. Qed.
Lemma mkeeps_width c : mkeeps (calculate_width_and_margins sty c).
Proof.
  intros n. unfold calculate_width_and_margins. apply mkeeps_bind; [apply mkeeps_box, calculate_width_geom|].
  intros [l|]; [intros m; apply (st_left_ R HR)|apply mkeeps_ret].
Qed.
Lemma mkeeps_height c cb : mkeeps (calculate_height_and_margins sty c cb).
Proof.
  intros n. unfold calculate_height_and_margins. apply mkeeps_bind; [apply mkeeps_box, calculate_height_geom|].
  intros v. apply mkeeps_add_top.
Qed.
Lemma mkeeps_shift d f cb : mkeeps (relative_shift sty d f cb).
Proof.
  intros n. unfold relative_shift. destruct (is_relative (sty (n_style n))); [|apply refl].
  apply mkeeps_bind; [apply mkeeps_lift|]. intros vl. apply mkeeps_bind; [apply mkeeps_add_left|]. intros _.
  apply mkeeps_bind; [apply mkeeps_lift|]. intros vt. apply mkeeps_add_top.
Qed.

Lemma Forall2_refl_R ks : Forall2 R ks ks.
Proof. induction ks; constructor; auto. Qed.
Lemma lay_all_R lay ks : (forall n, R n (fst (lay n))) -> Forall2 R ks (fst (lay_all lay ks)).
Proof.
  intros Hl. induction ks as [|k ks IH]; cbn [lay_all]; [constructor|].
  specialize (Hl k). destruct (lay k) as [k' [u|e]]; cbn [fst] in *.
  - destruct (lay_all lay ks) as [ks'' r]. cbn [fst] in *. constructor; auto.
  - constructor; [auto|apply Forall2_refl_R].
Qed.
Lemma place_child_R (k : node) b off bm : R k (fst (fst (place_child k b off bm))) /\ geom b (snd (fst (place_child k b off bm))).
Proof.
  unfold place_child. destruct (n_box k) as [kb|]; cbn; [|split; [apply refl|apply geom_refl]].
  destruct bm as [m|].
  - destruct (bindr _ _) as [o|]; cbn; (split; [|apply geom_refl]); [apply (st_top_ R HR)|apply refl].
  - cbn. split; [apply (st_top_ R HR)|]. destruct b; repeat split.
Qed.
Lemma flow_R lay ks : (forall b n, R n (fst (lay b n))) -> forall pend b off bm,
  Forall2 R ks (fst (fst (flow sty lay ks pend b off bm))) /\ geom b (snd (fst (flow sty lay ks pend b off bm))).
Proof.
  intros Hl. induction ks as [|k ks IH]; intros pend b off bm; cbn [flow].
  { split; [constructor|apply geom_refl]. }
  destruct (is_block_level (sty (n_style k))).
  - destruct pend; [split; [apply Forall2_refl_R|apply geom_refl]|].
    pose proof (Hl b k) as H1. destruct (lay b k) as [k1 [u|e]]; cbn [fst] in H1.
    + destruct (place_child_R k1 b off bm) as [H2 H3].
      destruct (place_child k1 b off bm) as [[k2 b2] [[off' bm']|e]]; cbn [fst snd] in *.
      * destruct (IH false b2 off' bm') as [I1 I2]. destruct (flow sty lay ks false b2 off' bm') as [[ks2 b3] r]. cbn [fst snd] in *.
        split; [constructor; [eapply trans; eassumption|exact I1]|eapply geom_trans; eassumption].
      * split; [constructor; [eapply trans; eassumption|apply Forall2_refl_R]|exact H3].
    + cbn. split; [constructor; [exact H1|apply Forall2_refl_R]|apply geom_refl].
  - destruct (IH true b off bm) as [I1 I2]. destruct (flow sty lay ks true b off bm) as [[ks2 b2] r]. cbn [fst snd] in *.
    split; [constructor; [apply refl|exact I1]|exact I2].
Qed.
Lemma children_R lay n : (forall cb n, R n (fst (lay cb n))) -> st_display (sty (n_style n)) <> None ->
  R n (fst (layout_children sty lay n)).
Proof.
  intros Hl D. destruct n as [s i [b|] ks]; cbn [layout_children]; [|apply refl].
  destruct (establishes_inline sty _).
  - pose proof (lay_all_R (lay (CBNode s b)) ks (Hl _)) as H. destruct (lay_all _ ks) as [ks' r]. cbn in *.
    apply (st_kids R HR); assumption.
  - pose proof (flow_R (fun b0 => lay (CBNode s b0)) ks (fun b0 => Hl _) false b n0 None) as [H1 H2].
    destruct (flow _ _ ks false b n0 None) as [[ks' b'] r]. cbn in *.
    eapply trans; [apply (st_kids R HR); eassumption|]. apply (st_boxc R HR), H2.
Qed.

(** Styles do not change, so displayed nodes stay displayed. *)
Definition same_style (n n' : node) : Prop := n_style n' = n_style n.

Lemma layout_box_R fuel : forall d f cb n, (forall a b, R a b -> n_style b = n_style a) -> R n (fst (layout_box sty fuel d f cb n)).
Proof.
  induction fuel as [|fuel IH]; intros d f cb n Hs; cbn [layout_box]; [apply refl|].
  destruct (st_display (sty (n_style n))) as [dk|] eqn:E.
  2:{ apply (st_hide R HR), E. }
  assert (Q : forall m n0, R n n0 -> mkeeps_at m (fun x => n_style x = n_style n) -> R n (fst (m n0 : node * res unit))).
  { intros m n0 H1 H2. eapply trans; [exact H1|]. apply H2. apply Hs, H1. }
  assert (B : forall A (m1 : @M S A) (m2 : A -> @M S unit), mkeeps m1 -> (forall a, mkeeps_at (m2 a) (fun x => n_style x = n_style n)) ->
     mkeeps_at (mbind m1 m2) (fun x => n_style x = n_style n)).
  { intros A m1 m2 H1 H2 x Hx. unfold mbind. specialize (H1 x). destruct (m1 x) as [x' [a|e]]; cbn [fst] in *; [|exact H1].
    eapply trans; [exact H1|]. apply H2. rewrite (Hs _ _ H1). exact Hx. }
  unfold mbind at 1, mmod. apply Q.
  - apply (st_ensure R HR). congruence.
  - apply B; [apply mkeeps_box, copy_edges_geom|]. intros _. apply B; [apply mkeeps_width|]. intros _.
    apply B. { destruct (is_relative _); [apply mkeeps_height|apply mkeeps_ret]. } intros _.
    intros x Hx. unfold mbind at 1.
    set (m1 := if is_abspos _ then _ else _).
    assert (K : R x (fst (m1 x))).
    { unfold m1. destruct (is_abspos _); [apply refl|]. destruct (is_float _); [apply refl|].
      apply children_R; [intros; apply IH, Hs|]. rewrite Hx. congruence. }
    destruct (m1 x) as [x' [a|e]]; cbn [fst] in *; [|exact K]. eapply trans; [exact K|].
    apply mkeeps_bind; [apply mkeeps_height|]. intros _. apply mkeeps_shift.
Qed.

Lemma layout_R d h5 n : (forall a b, R a b -> n_style b = n_style a) -> R n (reset n) -> R n (fst (layout sty d h5 n)).
Proof.
  intros Hs Hr. unfold layout. destruct (n_box n); [|apply refl]. unfold mbind at 1, mmod. eapply trans; [exact Hr|].
  unfold mbind. pose proof (layout_box_R (height n) d dummy_font CBView (reset n) Hs) as H1.
  destruct (layout_box sty (height n) d dummy_font CBView (reset n)) as [n1 [u|e]]; cbn [fst] in *; [|exact H1].
  eapply trans; [exact H1|]. unfold finish_root. destruct (n_box n1) as [b1|]; [|apply refl].
  assert (K : mkeeps (if h5 then on_box (bmod (upd_content_height
              (LNum (nsub (nsub (disp_height d) (NI (collapse_top b1))) (NI (collapse_bottom b1)))))) else mret tt)).
  { destruct h5; [|apply mkeeps_ret]. apply mkeeps_box. intros b0. destruct b0; repeat split. }
  eapply trans; [apply (st_top_ R HR)|apply K].
Qed.
End Rel.

(** ** Inputs *)
Lemma inputs_map_origin (f : node -> node) ks : (forall n, inputs (f n) = inputs n) -> map inputs (map f ks) = map inputs ks.
Proof. intros H. rewrite map_map. apply map_ext, H. Qed.
Lemma inputs_origin_top (n : node) : forall v, inputs (set_origin_top v n) = inputs n.
Proof.
  induction n as [s i bx ks IH] using node_ind'. intros v. destruct bx as [b|]; [|reflexivity]. cbn [set_origin_top].
  destruct (neqb v (origin_top b)); [reflexivity|]. cbn [inputs]. f_equal. rewrite map_map. apply map_ext_in.
  intros k Hk. apply IH, Hk.
Qed.
Lemma inputs_origin_left (n : node) : forall v, inputs (set_origin_left v n) = inputs n.
Proof.
  induction n as [s i bx ks IH] using node_ind'. intros v. destruct bx as [b|]; [|reflexivity]. cbn [set_origin_left].
  destruct (neqb v (origin_left b)); [reflexivity|]. cbn [inputs]. f_equal. rewrite map_map. apply map_ext_in.
  intros k Hk. apply IH, Hk.
Qed.
Lemma inputs_content_top v (n : node) : inputs (set_content_top v n) = inputs n.
Proof.
  destruct n as [s i [b|] ks]; [|reflexivity]. cbn [set_content_top]. destruct (neqb _ _); [reflexivity|].
  cbn [inputs]. f_equal. apply inputs_map_origin. intros. apply inputs_origin_top.
Qed.
Lemma inputs_content_left v (n : node) : inputs (set_content_left v n) = inputs n.
Proof.
  destruct n as [s i [b|] ks]; [|reflexivity]. cbn [set_content_left]. destruct (neqb _ _); [reflexivity|].
  cbn [inputs]. f_equal. apply inputs_map_origin. intros. apply inputs_origin_left.
Qed.
Lemma inputs_reset (n : node) : inputs (reset n) = inputs n.
Proof.
  induction n as [s i bx ks IH] using node_ind'. destruct bx; [|reflexivity]. cbn [reset inputs]. f_equal.
  rewrite map_map. apply map_ext_in. intros k Hk. apply IH, Hk.
Qed.
Lemma inputs_ensure (n : node) : inputs (ensure_box n) = inputs n.
Proof.
  unfold ensure_box. destruct n as [s i [b|] ks]; [reflexivity|]. cbn. f_equal. rewrite map_map. apply map_ext.
  intros k. rewrite inputs_origin_left. apply inputs_origin_top.
Qed.
Lemma stable_inputs : stable (fun n n' => inputs n' = inputs n).
Proof.
  split.
  - reflexivity.
  - intros. congruence.
  - reflexivity.
  - intros. apply inputs_content_top.
  - intros. apply inputs_content_left.
  - intros. apply inputs_ensure.
  - intros [s i b ks] _. reflexivity.
  - intros s i bx ks ks' _ F. cbn. f_equal. induction F; cbn; congruence.
Qed.
Lemma layout_inputs d h5 n : inputs (fst (layout sty d h5 n)) = inputs n.
Proof.
  apply (layout_R _ stable_inputs).
  - intros a b H. apply inputs_style in H. apply H.
  - apply inputs_reset.
Qed.

(** ** Consistency *)
(** Displayed nodes with displayed ancestors keep their boxes and their
    origins. *)
Definition keeps_origin (n n' : node) : Prop :=
  match n_box n, n_box n' with
  | Some b, Some b' => nval (origin_top b') = nval (origin_top b) /\ nval (origin_left b') = nval (origin_left b)
  | _, None => True
  | None, Some _ => False
  end.
Definition cons_step (n n' : node) : Prop :=
  n_style n' = n_style n /\
  (ready sty n -> ready sty n' /\ keeps_origin n n' /\ (consistent n -> consistent n')
     /\ (st_display (sty (n_style n)) <> None -> n_box n' <> None)).

Inductive same_shape : node -> node -> Prop :=
| same_shape_node s i bx i' bx' ks ks' : (bx = None <-> bx' = None) -> Forall2 same_shape ks ks' ->
    same_shape (Node s i bx ks) (Node s i' bx' ks').
Lemma Forall2_map_r {A B} (P : A -> B -> Prop) (f : A -> B) l : (forall x, In x l -> P x (f x)) -> Forall2 P l (map f l).
Proof. induction l; intros H; constructor; [apply H; left; reflexivity|apply IHl; intros; apply H; right; assumption]. Qed.
Lemma Forall2_in_r {A B} (P : A -> B -> Prop) l l' y : Forall2 P l l' -> In y l' -> exists x, In x l /\ P x y.
Proof. induction 1; intros []; subst; [exists x; split; [left; reflexivity|assumption]|]. destruct IHForall2 as (z & ? & ?); auto. exists z. split; [right; assumption|assumption]. Qed.
Lemma same_shape_refl (n : node) : same_shape n n.
Proof.
  induction n as [s i bx ks IH] using node_ind'. constructor; [tauto|].
  clear bx. induction ks as [|k ks IHk]; constructor; [apply IH; left; reflexivity|apply IHk; intros; apply IH; right; assumption].
Qed.
Lemma same_shape_origin_top (n : node) : forall v, same_shape n (set_origin_top v n).
Proof.
  induction n as [s i bx ks IH] using node_ind'. intros v. destruct bx as [b|]; [|apply same_shape_refl]. cbn [set_origin_top].
  destruct (neqb v (origin_top b)); [apply same_shape_refl|]. constructor; [split; discriminate|].
  apply Forall2_map_r. intros. apply IH. assumption.
Qed.
Lemma same_shape_origin_left (n : node) : forall v, same_shape n (set_origin_left v n).
Proof.
  induction n as [s i bx ks IH] using node_ind'. intros v. destruct bx as [b|]; [|apply same_shape_refl]. cbn [set_origin_left].
  destruct (neqb v (origin_left b)); [apply same_shape_refl|]. constructor; [split; discriminate|].
  apply Forall2_map_r. intros. apply IH. assumption.
Qed.
Lemma same_shape_content_top v (n : node) : same_shape n (set_content_top v n).
Proof.
  destruct n as [s i [b|] ks]; [|apply same_shape_refl]. cbn [set_content_top]. destruct (neqb _ _); [apply same_shape_refl|].
  constructor; [split; discriminate|]. apply Forall2_map_r. intros. apply same_shape_origin_top.
Qed.
Lemma same_shape_content_left v (n : node) : same_shape n (set_content_left v n).
Proof.
  destruct n as [s i [b|] ks]; [|apply same_shape_refl]. cbn [set_content_left]. destruct (neqb _ _); [apply same_shape_refl|].
  constructor; [split; discriminate|]. apply Forall2_map_r. intros. apply same_shape_origin_left.
Qed.
Lemma same_shape_reset (n : node) : same_shape n (reset n).
Proof.
  induction n as [s i bx ks IH] using node_ind'. destruct bx as [b|]; [|apply same_shape_refl]. cbn [reset].
  constructor; [split; discriminate|]. apply Forall2_map_r. exact IH.
Qed.
Lemma ready_shape (n n' : node) : ready sty n -> same_shape n n' -> ready sty n'.
Proof.
  intros R. revert n'. induction R as [n H|s i b ks Hk IH]; intros n' Sh.
  - apply ready_hidden. inversion Sh; subst. exact H.
  - inversion Sh as [s0 i0 bx0 i' bx' ks0 ks' Hb F]; subst. destruct bx' as [b'|]; [|exfalso; destruct Hb as [_ Hb]; specialize (Hb eq_refl); discriminate].
    apply ready_boxed. intros k' I. destruct (Forall2_in_r _ _ _ _ F I) as (k & I1 & P). eapply IH; eassumption.
Qed.
Lemma stable_cons : stable cons_step.
Proof.
  split.
  - intros n. split; [reflexivity|]. intros R. split; [exact R|]. split; [unfold keeps_origin; destruct (n_box n); auto|]. split; [auto|].
    intros D. inversion R; subst; [contradiction|]. discriminate.
  - intros a b c [S1 H1] [S2 H2]. split; [congruence|]. intros R. destruct (H1 R) as (R1 & O1 & C1 & B1).
    destruct (H2 R1) as (R2 & O2 & C2 & B2). split; [exact R2|]. split; [|split; [auto|]].
    + unfold keeps_origin in *. destruct (n_box a), (n_box b), (n_box c); auto; try tauto. intuition congruence.
    + intros D. apply B2. rewrite S1. exact D.
  - intros s i b b' ks (G1 & G2 & G3 & G4 & _). split; [reflexivity|]. intros R. split; [|split; [|split]].
    + inversion R as [? H|]; subst; [apply ready_hidden; exact H|apply ready_boxed; assumption].
    + cbn. rewrite G3, G4. auto.
    + intros C. eapply consistent_kids; [exact C| |discriminate]. intros x y [= <-] [= <-].
      unfold absolute_content_top, absolute_content_left. rewrite G1, G2, G3, G4. auto.
    + discriminate.
  - intros v n. split; [destruct n as [s i [b|] ks]; cbn; [destruct (neqb _ _)|]; reflexivity|]. intros R. split; [|split; [|split]].
    + eapply ready_shape; [exact R|apply same_shape_content_top].
    + unfold keeps_origin. destruct n as [s i [b|] ks]; cbn; [|trivial]. destruct (neqb _ _); cbn; [auto|]. destruct b; auto.
    + apply consistent_content_top.
    + intros D. inversion R as [? H|]; subst; [contradiction|]. cbn. destruct (neqb _ _); discriminate.
  - intros v n. split; [destruct n as [s i [b|] ks]; cbn; [destruct (neqb _ _)|]; reflexivity|]. intros R. split; [|split; [|split]].
    + eapply ready_shape; [exact R|apply same_shape_content_left].
    + unfold keeps_origin. destruct n as [s i [b|] ks]; cbn; [|trivial]. destruct (neqb _ _); cbn; [auto|]. destruct b; auto.
    + apply consistent_content_left.
    + intros D. inversion R as [? H|]; subst; [contradiction|]. cbn. destruct (neqb _ _); discriminate.
  - intros n D. split; [destruct n as [s i [b|] ks]; reflexivity|]. intros R. inversion R as [? H|]; subst; [contradiction|]. cbn.
    split; [exact R|]. split; [auto|]. split; [auto|discriminate].
  - intros [s i bx ks] D. split; [reflexivity|]. intros R. cbn in *. split; [apply ready_hidden; exact D|].
    split; [unfold keeps_origin; cbn; destruct bx; trivial|]. split; [|intros D'; contradiction].
    intros C. eapply consistent_kids; [exact C|discriminate|auto].
  - intros s i b ks ks' D F. split; [reflexivity|]. intros R. inversion R as [? H|s0 i0 b1 ks0 Hk]; subst; [contradiction|].
    split; [|split; [|split]].
    + apply ready_boxed. intros k' I. destruct (Forall2_in_r _ _ _ _ F I) as (k & I1 & P). destruct P as [_ P]. apply P, Hk, I1.
    + cbn. auto.
    + intros C. apply consistent_iff in C. destruct C as [C1 C2]. apply consistent_iff. split.
      * intros k' I. destruct (Forall2_in_r _ _ _ _ F I) as (k & I1 & [_ P]). apply (P (Hk _ I1)). apply C1, I1.
      * intros b0 k' kb' [= <-] I Ekb. destruct (Forall2_in_r _ _ _ _ F I) as (k & I1 & [_ P]).
        destruct (P (Hk _ I1)) as (_ & O & _). unfold keeps_origin in O. rewrite Ekb in O.
        destruct (n_box k) as [kb|] eqn:Ek; [|contradiction]. destruct O as [O1 O2].
        destruct (C2 b k kb eq_refl I1 Ek) as [L1 L2]. split; congruence.
    + discriminate.
Qed.
Lemma layout_step d h5 n : cons_step (reset n) (fst (layout sty d h5 n)).
Proof.
  unfold layout. destruct n as [s i [b|] ks]; [|apply (st_refl _ stable_cons)].
  cbn [n_box]. unfold mbind at 1, mmod.
  set (n := Node s i (Some b) ks) in *.
  unfold mbind. pose proof (layout_box_R _ stable_cons (height n) d dummy_font CBView (reset n) (fun a b H => proj1 H)) as H1.
  destruct (layout_box sty (height n) d dummy_font CBView (reset n)) as [n1 [u|e]]; cbn [fst] in *; [|exact H1].
  eapply st_trans; [apply stable_cons|exact H1|]. unfold finish_root. destruct (n_box n1) as [b1|] eqn:E1; [|apply (st_refl _ stable_cons)].
  unfold mbind, mmod.
  assert (K : mkeeps cons_step (if h5 then on_box (bmod (upd_content_height
              (LNum (nsub (nsub (disp_height d) (NI (collapse_top b1))) (NI (collapse_bottom b1)))))) else mret tt)).
  { destruct h5; [|apply (mkeeps_ret _ stable_cons)]. apply (mkeeps_box _ stable_cons). intros b0. destruct b0; repeat split. }
  eapply st_trans; [apply stable_cons|apply (st_top_ _ stable_cons)|apply K].
Qed.
Lemma reset_ready n : ready sty n -> ready sty (reset n).
Proof. intros R. eapply ready_shape; [exact R|apply same_shape_reset]. Qed.
Lemma layout_cons d h5 n : ready sty n -> consistent (reset n) -> consistent (fst (layout sty d h5 n)).
Proof. intros R. apply (layout_step d h5 n), reset_ready, R. Qed.
Lemma layout_keeps_ready d h5 n : ready sty n -> ready sty (fst (layout sty d h5 n)).
Proof. intros R. apply (layout_step d h5 n), reset_ready, R. Qed.

(** ** History *)
Lemma boxed_reset (n m : node) : boxed n -> boxed m -> inputs n = inputs m -> reset n = reset m.
Proof.
  intros Bn. revert m. induction Bn as [s i b ks Hk IH]. intros m Bm E. inversion Bm as [s' i' b' ks' Hk']; subst.
  cbn in E. injection E as -> -> E. cbn [reset]. f_equal. clear Bm. revert ks' Hk' E.
  induction ks as [|k ks IHk]; intros [|k' ks'] Hk' E; try discriminate; [reflexivity|]. cbn in E. injection E as E1 E2.
  cbn [map]. f_equal.
  - apply IH; [left; reflexivity|apply Hk'; left; reflexivity|exact E1].
  - apply IHk; try assumption; intros; [apply Hk|apply IH|apply Hk']; try right; assumption.
Qed.
Lemma height_inputs (n : node) : height (inputs n) = height n.
Proof.
  induction n as [s i bx ks IH] using node_ind'. cbn [inputs height]. do 2 f_equal. rewrite map_map. apply map_ext_in. exact IH.
Qed.
Lemma layout_boxed d h5 (n m : node) : boxed n -> boxed m -> inputs n = inputs m -> layout sty d h5 n = layout sty d h5 m.
Proof.
  intros Bn Bm E. unfold layout, mbind, mmod.
  rewrite (boxed_reset _ _ Bn Bm E), <- (height_inputs n), E, height_inputs.
  destruct Bn, Bm. reflexivity.
Qed.

(** Documents without hidden nodes keep all their boxes. *)
Lemma all_displayed_inputs (n m : node) : all_displayed sty n -> inputs n = inputs m -> all_displayed sty m.
Proof.
  intros A. revert m. induction A as [s i bx ks D Hk IH]. intros [s' i' bx' ks'] E. cbn in E. injection E as -> -> E.
  constructor; [exact D|]. clear D bx bx'. revert ks' E. induction ks as [|k ks IHk]; intros [|k' ks'] E k0 I; try discriminate; [destruct I|].
  cbn in E. injection E as E1 E2. destruct I as [<-|I].
  - eapply IH; [left; reflexivity|exact E1].
  - eapply IHk; [| |exact E2|exact I]; intros; [apply Hk|eapply IH]; try right; eassumption.
Qed.
Lemma boxed_consistent (n : node) : boxed n -> consistent (reset n).
Proof.
  induction 1 as [s i b ks Hk IH]. cbn [reset]. constructor.
  - intros k I. apply in_map_iff in I. destruct I as (k0 & <- & I). auto.
  - intros b0 k kb [= <-] I E. apply in_map_iff in I. destruct I as (k0 & <- & I). rewrite n_box_reset in E.
    destruct (n_box k0); [|discriminate]. injection E as <-. split; reflexivity.
Qed.
Lemma boxed_ready' (n : node) : boxed n -> ready sty n.
Proof. induction 1. apply ready_boxed. assumption. Qed.
Lemma ready_displayed_boxed (n : node) : ready sty n -> all_displayed sty n -> boxed n.
Proof.
  induction 1 as [n H|s i b ks Hk IH]; intros A; inversion A; subst; [contradiction|]. constructor. auto.
Qed.
End Inv.
