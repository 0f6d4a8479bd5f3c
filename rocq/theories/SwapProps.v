(** * Operations on different properties can be reordered: C180 *)
From Coq Require Import ZArith QArith Qcanon Bool String Ascii List Permutation Lia.
From Verif Require ParserProps.
From Verif Require Import PyNum NumFacts PyStr Units BoxModel Engine Values Parser Choices Shorthand Decl DeclSpec DeclFacts DeclProps GrammarSpec GrammarProps
  Computed ComputedSpec ComputedFacts ComputedProps ShortSpec ShortProps TableSpec TableProps EditSpec EditProps SwapSpec.
Import ListNotations.
Open Scope string_scope.

(** *** An operation writes only what it is about, and gives only accepted values *)
Definition honest (E : effect) (P : longhand -> Prop) : Prop :=
  (forall q, ~ P q -> E q = Keep) /\ forall q v, E q = Give v -> accepted q v.
Lemma untouched_honest E P : untouched E -> honest E P.
Proof. intros U. split; intros q; rewrite (U q); [reflexivity|discriminate]. Qed.
Lemma side_in d s : In (side_prop d s) (longhands_of (Dir d)).
Proof. destruct d, s; cbn; auto. Qed.
Lemma side_of d q : In q (longhands_of (Dir d)) -> exists s, q = side_prop d s.
Proof. destruct d; cbn; intros [<- | [<- | [<- | [<- | []]]]]; eauto. Qed.
Lemma parts_accepted sh ks l (E : effect) k q v (P : comp -> Prop) : Forall2 (fits sh) ks l -> In k ks -> P k ->
  Forall2 (fun k part => P k -> forall q, In q (component sh k) -> E q = Give part) ks l -> In q (component sh k) -> E q = Give v -> accepted q v.
Proof.
  intros F I PK G. induction G as [|j x ks l G1 G IH]; [destruct I|]. inversion F as [|? ? ? ? F1 F2]; subst. intros C X. destruct I as [-> | I]; [|auto].
  rewrite (G1 PK q C) in X. injection X as <-. apply F1, C.
Qed.
Lemma comp_in_dec (k : comp) ks : In k ks \/ ~ In k ks.
Proof. destruct (in_dec (fun a b : comp => ltac:(decide equality) : {a = b} + {a <> b}) k ks); auto. Qed.
Lemma assigning_honest p v E r : assigning p v E r -> honest E (fun q => In q (longhands_of p)).
Proof.
  intros A. destruct A as [q v E NQ A G K|q v E e NQ A R U|d v f E SO A G K|d v f done s E e SO ST R G K|d v E SO U|sh v l ks E PG FI NA G R K|sh v l ks E NO PG FI AN U|v l ks E PG FI AN G R K|sh v E e N R U]; try (apply untouched_honest; exact U).
  - split; [intros r N; apply K; intros ->; apply N; left; reflexivity|]. intros r w X. destruct (longhand_eq_dec r q) as [->|N]; [congruence|rewrite (K r N) in X; discriminate].
  - split; [intros q N; apply K; intros s ->; apply N, side_in|]. intros q w X. destruct (in_dec longhand_eq_dec q (longhands_of (Dir d))) as [I|N].
    + apply side_of in I. destruct I as [s ->]. rewrite G in X. injection X as <-. apply A.
    + rewrite K in X; [discriminate|]. intros s ->. apply N, side_in.
  - split; [intros q N; apply K; intros r _ ->; apply N, side_in|]. intros q w X. destruct (in_dec longhand_eq_dec q (map (side_prop d) done)) as [I|N].
    + apply in_map_iff in I. destruct I as (r & <- & I). rewrite (G r I) in X. injection X as <-. destruct ST as (_ & ST & _). exact (ST r I).
    + rewrite K in X; [discriminate|]. intros r I ->. apply N, in_map, I.
  - split; [exact K|]. intros q w X. destruct (in_dec longhand_eq_dec q (longhands_of (Short sh))) as [I|N]; [|rewrite (K q N) in X; discriminate].
    apply long_component in I. destruct I as [k I]. destruct (comp_in_dec k ks) as [J|J]; [|rewrite (R k q J I) in X; discriminate].
    apply (parts_accepted sh ks l E k q w (fun _ => True)); [apply FI|exact J|exact Logic.I| |exact I|exact X].
    clear -G. induction G; constructor; auto.
  - split; [intros q N; apply K; intros ->; apply N; cbn; auto|]. intros q w X.
    assert (C : exists k, k <> CWidth /\ In q (component S_outline k)).
    { destruct (longhand_eq_dec q L_outline_color) as [->|N1]; [exists CColor; split; [discriminate|cbn; auto]|]. destruct (longhand_eq_dec q L_outline_style) as [->|N2]; [exists CStyle; split; [discriminate|cbn; auto]|].
      rewrite (K q N1 N2) in X. discriminate. }
    destruct C as (k & NW & I). destruct (comp_in_dec k ks) as [J|J]; [|rewrite (R k q J I) in X; discriminate].
    exact (parts_accepted S_outline ks l E k q w (fun k => k <> CWidth) (proj2 FI) J NW G I X).
Qed.
Lemma deleting_honest p E : deleting p E -> honest E (fun q => In q (longhands_of p)).
Proof. intros [R K]. split; [exact K|]. intros q v X. destruct (in_dec longhand_eq_dec q (longhands_of p)) as [I|N]; [rewrite (R q I) in X|rewrite (K q N) in X]; discriminate. Qed.
Lemma honest_more E (P Q : longhand -> Prop) : honest E P -> (forall q, P q -> Q q) -> honest E Q.
Proof. intros [H1 H2] I. split; [intros q N; apply H1; auto|exact H2]. Qed.
Lemma honest_over E F G P : honest E P -> honest F P -> followed_by E F G -> honest G P.
Proof.
  intros [E1 E2] [F1 F2] B. split; intros q; rewrite (B q).
  - intros N. rewrite (E1 q N), (F1 q N). reflexivity.
  - intros v X. destruct (F q) eqn:FQ; cbn [over] in X; [exact (E2 q v X)|discriminate|]. apply F2. congruence.
Qed.
Lemma updating_honest l E r : updating l E r -> honest E (about (OpUpdate l)).
Proof.
  assert (I : forall name v E r, updating_item name v E r -> honest E (fun q => exists p, names_prop name p /\ In q (longhands_of p))).
  { intros name v F x U. destruct U as [name p v F x N NV A|name p F N D|name v F N U].
    - apply (honest_more _ _ _ (assigning_honest _ _ _ _ A)). eauto.
    - apply (honest_more _ _ _ (deleting_honest _ _ D)). eauto.
    - apply untouched_honest, U. }
  intros U. induction U as [E U|name v l E F G r U1 U IH B|name v l E e U1].
  - apply untouched_honest, U.
  - apply (honest_over E F G); [|apply (honest_more _ _ _ IH); intros q (m & w & p & X & Y); exists m, w, p; split; [right; exact X|exact Y]|exact B].
    apply (honest_more _ _ _ (I _ _ _ _ U1)). intros q (p & X). exists name, v, p. split; [left; reflexivity|exact X].
  - apply (honest_more _ _ _ (I _ _ _ _ U1)). intros q (p & X). exists name, v, p. split; [left; reflexivity|exact X].
Qed.
Lemma operating_honest o E r : operating o E r -> honest E (about o).
Proof.
  intros O. destruct O as [p v E r A|p E D|l E r U|name p v E r N A|name v E N U|name p E N D|name E N U|node E U]; try (apply untouched_honest; exact U).
  - exact (assigning_honest _ _ _ _ A).
  - exact (deleting_honest _ _ D).
  - exact (updating_honest _ _ _ U).
  - apply (honest_more _ _ _ (assigning_honest _ _ _ _ A)). cbn. eauto.
  - apply (honest_more _ _ _ (deleting_honest _ _ D)). cbn. eauto.
Qed.
Lemma program_accepted l E rs : program l E rs -> forall q v, E q = Give v -> accepted q v.
Proof.
  induction 1 as [E U|o l E F G r rs O P IH B]; intros q v X; [rewrite (U q) in X; discriminate|]. rewrite (B q) in X.
  destruct (F q) eqn:FQ; cbn [over] in X; [exact (proj2 (operating_honest _ _ _ O) q v X)|discriminate|]. apply IH. congruence.
Qed.

(** *** Exchanging two operations *)
Lemma program_same l E F rs : program l E rs -> (forall q, E q = F q) -> program l F rs.
Proof.
  intros P X. destruct P as [E U|o l E1 E2 E r rs O P B].
  - constructor. intros q. rewrite <- X. apply U.
  - apply (program_step o l E1 E2); [exact O|exact P|]. intros q. rewrite <- X. apply B.
Qed.
Lemma over_assoc a b c : over a (over b c) = over (over a b) c.
Proof. destruct a, b, c; reflexivity. Qed.
Lemma apart E F (P Q : longhand -> Prop) q : honest E P -> honest F Q -> (forall q, P q -> Q q -> False) -> over (E q) (F q) = over (F q) (E q).
Proof.
  intros [E1 _] [F1 _] D. destruct (E q) eqn:EQ; [destruct (F q); reflexivity| |].
  - assert (N : ~ ~ P q) by (intros N; rewrite (E1 q N) in EQ; discriminate). rewrite (F1 q) by (intros X; apply N; intros Y; exact (D q Y X)). reflexivity.
  - assert (N : ~ ~ P q) by (intros N; rewrite (E1 q N) in EQ; discriminate). rewrite (F1 q) by (intros X; apply N; intros Y; exact (D q Y X)). reflexivity.
Qed.
Lemma swapped l1 a b l2 E rs : independent a b -> program (l1 ++ a :: b :: l2) E rs ->
  exists rs', program (l1 ++ b :: a :: l2) E rs' /\ Permutation (combine (l1 ++ a :: b :: l2) rs) (combine (l1 ++ b :: a :: l2) rs').
Proof.
  intros D. revert E rs. induction l1 as [|o l1 IH]; cbn [List.app]; intros E rs P; inversion P as [|x y E1 F G r rs1 O P1 B]; subst.
  - inversion P1 as [|x y E2 F2 G r2 rs2 O2 P2 B2]; subst. exists (r2 :: r :: rs2). split.
    + apply (program_step b (a :: l2) E2 (fun q => over (E1 q) (F2 q))); [exact O2| |].
      * apply (program_step a l2 E1 F2); [exact O|exact P2|intros q; reflexivity].
      * intros q. rewrite (B q), (B2 q), !over_assoc. f_equal. exact (apart E1 E2 _ _ q (operating_honest _ _ _ O) (operating_honest _ _ _ O2) D).
    + cbn [combine]. apply perm_swap.
  - destruct (IH F rs1 P1) as (rs' & P' & Q). exists (r :: rs'). split; [exact (program_step o _ E1 F E r rs' O P' B)|]. cbn [combine]. apply perm_skip, Q.
Qed.
Lemma reorder_program l m E rs : reordered l m -> program l E rs -> exists rs', program m E rs' /\ Permutation (combine l rs) (combine m rs').
Proof.
  intros R. revert rs. induction R as [l|l1 a b l2 D|k l m R1 IH1 R2 IH2]; intros rs P.
  - exists rs. split; [exact P|apply Permutation_refl].
  - exact (swapped l1 a b l2 E rs D P).
  - destruct (IH1 rs P) as (r1 & P1 & Q1), (IH2 r1 P1) as (r2 & P2 & Q2). exists r2. split; [exact P2|exact (Permutation_trans Q1 Q2)].
Qed.
Lemma reorder_perm l m : reordered l m -> Permutation l m.
Proof.
  induction 1 as [l|l1 a b l2 D|k l m R1 IH1 R2 IH2]; [apply Permutation_refl|apply Permutation_app_head, perm_swap|exact (Permutation_trans IH1 IH2)].
Qed.
Lemma reorder_layouts l m : reordered l m -> with_layouts l -> with_layouts m.
Proof. intros R W I. apply W. exact (Permutation_in _ (Permutation_sym (reorder_perm l m R)) I). Qed.
Lemma reorder_forall (P : op -> Prop) l m : reordered l m -> Forall P l -> Forall P m.
Proof. intros R F. apply Forall_forall. intros x I. apply (proj1 (Forall_forall P l) F). exact (Permutation_in _ (Permutation_sym (reorder_perm l m R)) I). Qed.

(** C180. *)
Theorem C180_reorder : forall ho l m c n, valid_order ho -> with_layouts l -> Forall spares_quotes l -> reordered l m -> reachable ho c n -> has_layout c ->
  Permutation (combine l (exceptions ho l c n)) (combine m (exceptions ho m c n))
  /\ forall q, exists x, shows_change ho c (fst (run_ops ho l c n)) q x /\ shows_change ho c (fst (run_ops ho m c n)) q x.
Proof.
  intros ho l m c n V W S R RE L. destruct (C166_total l S) as (E & rs & P), (reorder_program l m E rs R P) as (rs' & P' & Q).
  destruct (proj1 (C166_table ho l E rs V W P) c n RE L) as [-> A], (proj1 (C166_table ho m E rs' V (reorder_layouts l m R W) P') c n RE L) as [-> B].
  split; [exact Q|]. intros q. exists (E q). split; [apply A|apply B].
Qed.
Print Assumptions C180_reorder.

Lemma document_more {S T} (R Q : S -> T -> Prop) : (forall a b, R a b -> Q a b) -> forall n m, same_document R n m -> same_document Q n m.
Proof.
  intros I. fix IH 3. intros n m [s t i bx ks ls H F]. constructor; [apply I, H|]. induction F as [|k l ks ls K F IHF]; constructor; [apply IH, K|exact IHF].
Qed.
Theorem C180_layout : forall ho d html5 n m, valid_order ho -> same_document (made_reordered ho) n m ->
  same_result (layout_css ho d html5 n) (layout_css ho d html5 m).
Proof.
  intros ho d html5 n m V S. apply (C167_edits ho ho d html5 n m V V). revert n m S. apply document_more.
  intros a b (l & m & W & SQ & L & R & -> & ->). destruct (C166_total l SQ) as (E & rs & P), (reorder_program l m E rs R P) as (rs' & P' & _).
  exists l, m, E, E, rs, rs'. split; [exact L|]. split; [exact (reorder_forall _ l m R L)|]. split; [exact W|]. split; [exact (reorder_layouts l m R W)|]. split; [exact P|]. split; [exact P'|].
  split; [reflexivity|]. split; [reflexivity|]. intros q _. destruct (E q) as [| |v] eqn:EQ; cbn [over].
  - exists (css_initial q), (css_initial q). split; [constructor|]. split; [constructor|left; reflexivity].
  - exists (css_initial q), (css_initial q). split; [constructor|]. split; [constructor|left; reflexivity].
  - destruct (program_accepted l E rs P q v EQ) as (k & w & j & A). exists w, w. split; [exact (means_given q v k w j A)|]. split; [exact (means_given q v k w j A)|left; reflexivity].
Qed.
Print Assumptions C180_layout.
(** Example: three operations, one of which fails, in two orders; and two
    operations that are not independent, where the order counts. *)
Definition three : list op := [OpSet (Dir D_margin) (VTuple [VStr "4px"; VStr "6px"]); OpUpdate [("padding-top", VStr "bad"); ("width", VInt 5)]; OpSetItem "height" (VStr "7px")].
Definition turned : list op := [OpSetItem "height" (VStr "7px"); OpSet (Dir D_margin) (VTuple [VStr "4px"; VStr "6px"]); OpUpdate [("padding-top", VStr "bad"); ("width", VInt 5)]].
Definition margin_last (ho : hash_order) (l : list op) : option pyval := c_store (fst (run_ops ho l fresh_css first_free)) (L_margin STop).
Example C180_example : with_layouts three /\ Forall spares_quotes three /\ Forall library_op three /\ reordered three turned
  /\ exceptions plain_order three fresh_css first_free = [None; Some ValueError; None]
  /\ exceptions plain_order turned fresh_css first_free = [None; None; Some ValueError]
  /\ (exists a b, made_reordered plain_order a b /\ c_store a L_height = Some (VUnit (ParserProps.unit_of "7px")))
  /\ ~ independent (OpSet (Dir D_margin) (VTuple [VStr "4px"; VStr "6px"])) (OpDel (Long (L_margin STop)))
  /\ margin_last plain_order [OpSet (Dir D_margin) (VTuple [VStr "4px"; VStr "6px"]); OpDel (Long (L_margin STop))] = None
  /\ margin_last plain_order [OpDel (Long (L_margin STop)); OpSet (Dir D_margin) (VTuple [VStr "4px"; VStr "6px"])] = Some (VUnit (ParserProps.unit_of "4px")).
Proof.
  assert (W : with_layouts three) by (intros N; cbn in N; intuition discriminate).
  assert (SQ : Forall spares_quotes three).
  { constructor; [discriminate|]. constructor; [intros name v [X|[X|[]]] N; injection X as <- <-; vm_compute in N; discriminate|]. constructor; [intros N; vm_compute in N; discriminate|constructor]. }
  assert (L : Forall library_op three).
  { constructor. { intros u H. inversion H as [|x y k z M I J]; subst. destruct M as [M|[M|M]]; try discriminate. injection M as <-. destruct I as [<- | [<- | []]]; exact (text_library _ u J). }
    constructor; [|constructor; [apply text_library|constructor]].
    intros name v [X|[X|[]]]; injection X as <- <-; [apply text_library|]. intros u H. inversion H as [|x y k z M]; subst. destruct M as [M|[M|M]]; discriminate. }
  assert (HT : forall p, names_prop "height" p -> p = Long L_height).
  { intros p N. apply named in N. vm_compute in N. injection N as <-. reflexivity. }
  assert (R : reordered three turned).
  { apply reordered_then with [OpSet (Dir D_margin) (VTuple [VStr "4px"; VStr "6px"]); OpSetItem "height" (VStr "7px"); OpUpdate [("padding-top", VStr "bad"); ("width", VInt 5)]].
    - apply (reordered_swap [OpSet (Dir D_margin) (VTuple [VStr "4px"; VStr "6px"])]). intros q (name & v & p & I & N & J) (p' & N' & J'). apply HT in N'. subst p'. destruct J' as [<- | []].
      destruct I as [X|[X|[]]]; injection X as <- <-; apply named in N; vm_compute in N; injection N as <-; destruct J as [J|[]]; discriminate J.
    - apply (reordered_swap []). intros q J (p' & N' & J'). apply HT in N'. subst p'. destruct J' as [<- | []]. cbn in J. intuition discriminate. }
  split; [exact W|]. split; [exact SQ|]. split; [exact L|]. split; [exact R|]. split; [vm_compute; reflexivity|]. split; [vm_compute; reflexivity|].
  split; [|split; [intros N; apply (N (L_margin STop)); cbn; auto|split; vm_compute; reflexivity]].
  exists (fst (run_ops plain_order three fresh_css first_free)), (fst (run_ops plain_order turned fresh_css first_free)). split; [|vm_compute; reflexivity].
  exists three, turned. auto 10.
Qed.
