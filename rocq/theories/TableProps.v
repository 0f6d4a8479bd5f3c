(** * A declaration is a table: C166 *)
From Coq Require Import ZArith Bool String Ascii List Lia.
From Verif Require Import PyNum PyStr StrFacts Units Values Parser Choices Shorthand Decl DeclSpec DeclFacts DeclProps DeclNorm DeclErrors ParseSpec AcceptSpec AcceptProps RaiseSpec RaiseProps ParserProps GrammarSpec GrammarProps ShortSpec ShortProps TableSpec.
Import ListNotations.
Open Scope string_scope.

Definition out (r : option exn) : res unit := match r with None => Ok tt | Some e => Err e end.
Lemma comp_eq_dec (a b : comp) : {a = b} + {a <> b}.
Proof. decide equality. Qed.

Section Table.
Context (ho : hash_order) (V : valid_order ho).

Definition did (a c : css) (q : longhand) (x : change) : Prop :=
  match x with
  | Keep => c_store c q = c_store a q
  | Reset => c_store c q = None
  | Give v => q <> L_quotes /\ took ho c q v
  end.
Lemma did_over a b c q x y : did a b q x -> did b c q y -> did a c q (over x y).
Proof.
  destruct y as [| |v]; cbn [over did]; [|auto..]. intros D E. destruct x as [| |v]; cbn [did] in *; [congruence..|].
  destruct D as [N T]. split; [exact N|]. apply (took_store ho b); [congruence|exact T].
Qed.
Lemma did_untouched E c q : untouched E -> did c c q (E q).
Proof. intros U. rewrite U. reflexivity. Qed.
Lemma accepted_any q v : q <> L_quotes -> accepted q v -> forall n, exists w m, validate (ho_set ho) (choices_of q) n v = Ok (w, m).
Proof.
  intros NQ (n0 & w0 & m0 & W) n. apply accepts_written in W; [|exact NQ]. apply (validate_accepts ho _ _ _ _ _ V) in W. exact (validate_any _ _ _ n _ _ _ W).
Qed.
Lemma validate_accepted q v n w m : q <> L_quotes -> validate (ho_set ho) (choices_of q) n v = Ok (w, m) -> accepted q v.
Proof. intros NQ W. exists n, w, m. apply accepts_written; [exact NQ|]. apply (validate_accepts ho _ _ _ _ _ V), W. Qed.
Lemma refused q v e : q <> L_quotes -> ~ accepted q v -> refusal q v e -> forall c n, set_long ho q v c n = (c, n, Err e).
Proof.
  intros NQ NA R c n. rewrite set_long_eq. destruct (validate (ho_set ho) (choices_of q) n v) as [[w m]|x] eqn:W; [destruct NA; exact (validate_accepted _ _ _ _ _ NQ W)|].
  destruct R as [R|[R ->]].
  - apply (raises_validate ho q n) in R. destruct R as [R X]. rewrite W in R. injection R as ->. rewrite X. reflexivity.
  - destruct (is_value_error x) eqn:X; [reflexivity|]. destruct (R x). exact (validate_raises _ _ _ _ _ NQ W X).
Qed.
Lemma refusal_exists q v (n : nat) : q <> L_quotes -> ~ accepted q v -> exists e, refusal q v e.
Proof.
  intros NQ NA. destruct (validate (ho_set ho) (choices_of q) n v) as [[w m]|x] eqn:W; [destruct NA; exact (validate_accepted _ _ _ _ _ NQ W)|].
  destruct (is_value_error x) eqn:X; [|exists x; left; exact (validate_raises _ _ _ _ _ NQ W X)]. exists ValueError. right. split; [|reflexivity].
  intros y R. apply (raises_validate ho q n) in R. destruct R. congruence.
Qed.

Lemma assigning_sim p v E r : assigning p v E r -> forall c n, has_layout c ->
  exists c' n', set_prop ho p v c n = (c', n', out r) /\ forall q, did c c' q (E q).
Proof.
  intros A c n L. destruct A as [q v E NQ A G K|q v E e NQ A R U|d v f E SO A G K|d v f done s E e SO S R G K|d v E SO U|sh v l ks E P F NA G RS K|sh v l ks E NO P F A U|v l ks E P F A G RS K|sh v E e N R U]; cbn [out].
  - destruct (accepted_any q v NQ A n) as (w & m & W). destruct (set_long_accepts ho _ _ c n _ _ L W) as (c' & E1 & _). exists c', m. split; [exact E1|]. intros r.
    destruct (longhand_eq_dec r q) as [->|N]; [rewrite G; split; [exact NQ|exact (set_long_took _ _ _ _ _ _ _ V E1)]|]. rewrite K by exact N. exact (set_long_other _ _ _ _ _ _ _ _ _ E1 N).
  - exists c, n. split; [apply refused; assumption|]. intros; apply did_untouched, U.
  - pose proof (set_dir_sides ho d v) as SD. rewrite SO in SD. destruct SD as (t & r & b & l & SD & FS).
    assert (ND4 : NoDup [STop; SRight; SBottom; SLeft]) by (repeat constructor; cbn; intuition discriminate).
    destruct (each_done ho V d f _ ND4 (fun s _ => A s) c n L) as (c' & n' & E' & _ & T & Fr). exists c', n'. split.
    { cbn [set_prop]. rewrite SD, (sides_each ho d f t r b l FS). exact E'. }
    assert (X : forall q, (exists s, q = side_prop d s) \/ forall s, q <> side_prop d s).
    { intros q. destruct (longhand_eq_dec q (side_prop d STop)), (longhand_eq_dec q (side_prop d SRight)), (longhand_eq_dec q (side_prop d SBottom)), (longhand_eq_dec q (side_prop d SLeft)); eauto.
      right. intros []; assumption. }
    intros q. destruct (X q) as [[s ->]|N]; [rewrite G; split; [apply side_not_quotes|apply T; destruct s; cbn; auto]|]. rewrite K by exact N. apply Fr. intros; apply N.
  - pose proof (set_dir_sides ho d v) as SD. rewrite SO in SD. destruct SD as (t & r & b & l & SD & FS). destruct S as ((rest & OR) & W & N).
    assert (ND4 : NoDup [STop; SRight; SBottom; SLeft]) by (repeat constructor; cbn; intuition discriminate).
    assert (ND : NoDup done).
    { rewrite <- OR in ND4. apply NoDup_remove in ND4. destruct ND4 as [Z _]. clear -Z. induction done as [|x y IH]; [constructor|]. inversion Z as [|? ? NI Z']; subst. constructor; [intros I; apply NI, in_or_app; auto|auto]. }
    destruct (each_done ho V d f _ ND W c n L) as (c' & n' & E' & _ & T & Fr). exists c', n'. split.
    { cbn [set_prop]. rewrite SD, (sides_each ho d f t r b l FS), <- OR, each_app, E'. cbn [each]. unfold bind.
      rewrite (refused _ (f s) e); [reflexivity|apply side_not_quotes|intros (i & x & j & Y); exact (N i x j Y)|exact R]. }
    assert (X : forall q, (exists r, In r done /\ q = side_prop d r) \/ forall r, In r done -> q <> side_prop d r).
    { intros q. clear. induction done as [|x done [(r & I & ->)|IH]]; [right; intros r []|left; exists r; cbn; auto|].
      destruct (longhand_eq_dec q (side_prop d x)) as [->|Z]; [left; exists x; cbn; auto|]. right. intros r [<- | I]; auto. }
    intros q. destruct (X q) as [(x & I & ->)|Z]; [rewrite G by exact I; split; [apply side_not_quotes|apply T, I]|]. rewrite K by exact Z. apply Fr, Z.
  - pose proof (set_dir_sides ho d v) as SD. rewrite SO in SD. exists c, n. split; [cbn [set_prop]; rewrite SD; reflexivity|]. intros; apply did_untouched, U.
  - destruct (short_accepted ho sh v l ks c n V L P F NA) as (c' & n' & E1 & T & N & O). exists c', n'. split; [exact E1|]. intros q.
    destruct (in_dec longhand_eq_dec q (longhands_of (Short sh))) as [I|I]; [|rewrite K by exact I; apply O, I]. apply long_component in I. destruct I as (k & I).
    assert (D : In k ks \/ ~ In k ks) by (destruct (in_dec comp_eq_dec k ks); auto). destruct D as [D|D]; [|rewrite (RS k q D I); exact (N k q D I)].
    clear -G T D I. revert T. induction G as [|x y ks l G1 G IH]; intros T; [destruct D|]. inversion T as [|? ? ? ? T1 T2]; subst. destruct D as [<- | D]; [|auto].
    rewrite (G1 q I). split; [exact (not_quotes _ _ _ I)|auto].
  - destruct (short_angle ho sh v l ks c n V L P F A) as (c' & n' & E1 & X & _). rewrite (X NO) in E1. exists c, n'. split; [exact E1|]. intros; apply did_untouched, U.
  - destruct (short_angle ho S_outline v l ks c n V L P F A) as (c' & n' & E1 & _ & X). destruct (X eq_refl) as (T & N & O). exists c', n'. split; [exact E1|]. intros q.
    assert (D : q = L_outline_color \/ q = L_outline_style \/ (q <> L_outline_color /\ q <> L_outline_style)) by (destruct (longhand_eq_dec q L_outline_color), (longhand_eq_dec q L_outline_style); auto).
    assert (Y : forall k, k <> CWidth -> In q (component S_outline k) -> did c c' q (E q)).
    { intros k NW I. assert (DK : In k ks \/ ~ In k ks) by (destruct (in_dec comp_eq_dec k ks); auto). destruct DK as [DK|DK]; [|rewrite (RS k q DK I); exact (N k q DK I)].
      clear -G T DK I NW. revert T. induction G as [|x y ks l G1 G IH]; intros T; [destruct DK|]. inversion T as [|? ? ? ? T1 T2]; subst. destruct DK as [<- | DK]; [|auto].
      rewrite (G1 NW q I). split; [exact (not_quotes _ _ _ I)|auto]. }
    destruct D as [->|[->|[D1 D2]]]; [apply (Y CColor); [discriminate|cbn; auto]|apply (Y CStyle); [discriminate|cbn; auto]|]. rewrite (K q D1 D2). exact (O q D1 D2).
  - exists c, n. split; [|intros; apply did_untouched, U]. destruct R as [R|[R ->]]; [exact (C164_raises ho sh v c n e V R)|].
    destruct (C164_rejected ho sh v c n V N) as (x & E1 & [->|X]); [exact E1|destruct (R x X)].
Qed.

(** *** Programs *)
Lemma layout_set p v c n : has_layout c -> has_layout (fst (fst (set_prop ho p v c n))).
Proof.
  revert c n. apply (keeps_set_prop ho has_layout).
  - intros q w c n L. destruct (set_long ho q w c n) as [[c' n'] r] eqn:E. exact (set_long_layout _ _ _ _ _ _ _ _ L E).
  - intros q c n L. apply del_long_layout, L.
  - intros c n L. unfold dirty. pose proof (mark_dirty_layout c L) as X. destruct (mark_dirty c). exact X.
Qed.
Definition simulates (m : cm unit) (E : effect) (r : option exn) : Prop := forall c n, has_layout c ->
  exists c' n', m c n = (c', n', out r) /\ has_layout c' /\ forall q, did c c' q (E q).
Lemma sim_set p v E r : assigning p v E r -> simulates (set_prop ho p v) E r.
Proof.
  intros A c n L. destruct (assigning_sim p v E r A c n L) as (c' & n' & X & D). exists c', n'. split; [exact X|]. split; [|exact D].
  pose proof (layout_set p v c n L) as Y. rewrite X in Y. exact Y.
Qed.
Lemma sim_del p E : deleting p E -> simulates (del_prop p) E None.
Proof.
  intros [R K] c n L. destruct (del_prop_store p c n) as (c' & X & S & L'). exists c', n. split; [exact X|]. split; [auto|]. intros q. specialize (S q).
  destruct (existsb (lh_eqb q) (longhands_of p)) eqn:B.
  - apply existsb_exists in B. destruct B as (x & I & Q). apply lh_eqb_eq in Q. subst x. rewrite R by exact I. exact S.
  - rewrite K; [exact S|]. intros I. assert (Y : existsb (lh_eqb q) (longhands_of p) = true); [|congruence]. apply existsb_exists. exists q. split; [exact I|apply lh_eqb_refl].
Qed.
Lemma sim_none E r : untouched E -> simulates (fun c n => (c, n, out r)) E r.
Proof. intros U c n L. exists c, n. split; [reflexivity|]. split; [exact L|]. intros; apply did_untouched, U. Qed.
Lemma sim_eq m m' E r : (forall c n, m c n = m' c n) -> simulates m E r -> simulates m' E r.
Proof. intros X S c n L. rewrite <- X. auto. Qed.
Lemma named name p : names_prop name p -> prop_of_name (underscored name) = Some p.
Proof. intros N. unfold names_prop in N. rewrite underscored_with, N, <- prop_name_python. apply prop_names. Qed.
Lemma unnamed name : (forall p, ~ names_prop name p) -> prop_of_name (underscored name) = None.
Proof.
  intros N. unfold prop_of_name. pose proof (find_prop_spec all_props (underscored name)) as F. destruct (find_prop _ _) as [p|]; [|reflexivity].
  destruct F as [_ F]. destruct (N p). unfold names_prop. rewrite <- underscored_with, <- prop_name_python. congruence.
Qed.
Lemma sim_item name v E r : updating_item name v E r -> simulates (update_item ho (name, v)) E r.
Proof.
  intros [nm p w F x N NN A|nm p F N D|nm w F N U].
  - apply (sim_eq (set_prop ho p w)); [|exact (sim_set _ _ _ _ A)]. intros c n. unfold update_item. cbn [fst snd]. rewrite (named _ _ N). destruct w; try reflexivity. destruct NN; reflexivity.
  - apply (sim_eq (del_prop p)); [|exact (sim_del _ _ D)]. intros c n. unfold update_item. cbn [fst snd]. rewrite (named _ _ N). reflexivity.
  - apply (sim_eq (fun c n => (c, n, out (Some NameError)))); [|exact (sim_none _ _ U)]. intros c n. unfold update_item. cbn [fst snd]. rewrite (unnamed _ N). reflexivity.
Qed.
Lemma sim_update l E r : updating l E r -> simulates (update ho l) E r.
Proof.
  induction 1 as [E U|name v l E F G r I U IH FB|name v l E e I].
  - exact (sim_none _ None U).
  - intros c n L. destruct (sim_item _ _ _ _ I c n L) as (c1 & n1 & X & L1 & D1). destruct (IH c1 n1 L1) as (c2 & n2 & Y & L2 & D2). exists c2, n2.
    split; [unfold update in *; cbn [each]; unfold bind; rewrite X; exact Y|]. split; [exact L2|]. intros q. rewrite FB. exact (did_over _ _ _ _ _ _ (D1 q) (D2 q)).
  - intros c n L. destruct (sim_item _ _ _ _ I c n L) as (c1 & n1 & X & L1 & D1). exists c1, n1. split; [unfold update; cbn [each]; unfold bind; rewrite X; reflexivity|auto].
Qed.
Lemma sim_op o E r : operating o E r -> o <> OpBind (Some None) -> simulates (run_op ho o) E r.
Proof.
  intros [p v F x A|p F D|l F x U|name p v F x N A|name v F N U|name p F N D|name F N U|node F U] NB; cbn [run_op].
  - exact (sim_set _ _ _ _ A).
  - exact (sim_del _ _ D).
  - exact (sim_update _ _ _ U).
  - apply (sim_eq (set_prop ho p v)); [|exact (sim_set _ _ _ _ A)]. intros c n. unfold setitem. rewrite (named _ _ N). reflexivity.
  - apply (sim_eq (fun c n => (c, n, out (Some KeyError)))); [|exact (sim_none _ _ U)]. intros c n. unfold setitem. rewrite (unnamed _ N). reflexivity.
  - intros c n L. destruct (sim_del _ _ D c n L) as (c' & n' & X & Y). exists c', n'. split; [|exact Y]. unfold delitem, swallow. rewrite (named _ _ N), X. reflexivity.
  - apply (sim_eq (fun c n => (c, n, out (Some KeyError)))); [|exact (sim_none _ _ U)]. intros c n. unfold delitem. rewrite (unnamed _ N). reflexivity.
  - intros c n L. exists (mkCss (c_store c) node), n. split; [reflexivity|]. split; [unfold has_layout; cbn; intros X; apply NB; congruence|]. intros q. rewrite U. reflexivity.
Qed.
Lemma sim_program l E rs : program l E rs -> with_layouts l -> forall c n, has_layout c -> exceptions ho l c n = rs
  /\ has_layout (fst (run_ops ho l c n)) /\ forall q, did c (fst (run_ops ho l c n)) q (E q).
Proof.
  induction 1 as [E U|o l E F G r rs A P IH FB]; intros W c n L.
  - split; [reflexivity|]. split; [exact L|]. intros; apply did_untouched, U.
  - destruct (sim_op o E r A (fun X => W (or_introl X)) c n L) as (c1 & n1 & X & L1 & D1). destruct (IH (fun Y => W (or_intror Y)) c1 n1 L1) as (R & L2 & D2).
    cbn [exceptions run_ops]. rewrite X. split; [rewrite R; destruct r; reflexivity|]. split; [exact L2|]. intros q. rewrite FB. exact (did_over _ _ _ _ _ _ (D1 q) (D2 q)).
Qed.
Lemma did_shows a c n q x : reachable ho c n -> did a c q x -> shows_change ho a c q x.
Proof.
  intros R. destruct x as [| |v]; cbn [did shows_change]; [auto| |].
  - intros N. split; [exact N|]. intros F. cbn [get_prop]. rewrite (get_long_plain _ _ _ V F), N. reflexivity.
  - intros [NQ T]. exact (took_now ho V c n q v NQ R T).
Qed.

(** *** Every operation has an effect *)
Lemma effect_of {A} (g : A -> longhand) (f : A -> pyval) (l : list A) : NoDup l -> (forall a b, g a = g b -> a = b) ->
  exists E : effect, (forall a, In a l -> E (g a) = Give (f a)) /\ (forall q, (forall a, In a l -> q <> g a) -> E q = Keep).
Proof.
  intros ND I. induction ND as [|a l NI ND (E & G & K)]; [exists (fun _ => Keep); split; [intros a []|reflexivity]|].
  exists (fun q => if longhand_eq_dec q (g a) then Give (f a) else E q). split.
  - intros b [<- | B]; [destruct (longhand_eq_dec (g a) (g a)); [reflexivity|contradiction]|]. destruct (longhand_eq_dec (g b) (g a)) as [X|]; [apply I in X; subst; contradiction|auto].
  - intros q N. destruct (longhand_eq_dec q (g a)) as [X|]; [destruct (N a (or_introl eq_refl) X)|]. apply K. intros b B. apply N. right. exact B.
Qed.
Lemma component_unique sh k j q : In q (component sh k) -> In q (component sh j) -> k = j.
Proof. destruct sh, k, j; cbn; intros A B; try reflexivity; repeat destruct A as [<- | A]; try destruct A; repeat destruct B as [B|B]; try discriminate; destruct B. Qed.
Lemma effect_of_parts sh ks l : NoDup ks -> List.length ks = List.length l ->
  exists E : effect, Forall2 (fun k part => forall q, In q (component sh k) -> E q = Give part) ks l
    /\ (forall k q, ~ In k ks -> In q (component sh k) -> E q = Reset) /\ (forall q, ~ In q (longhands_of (Short sh)) -> E q = Keep).
Proof.
  intros ND. revert l. induction ND as [|k ks NI ND IH]; intros [|x l] LE; try discriminate.
  - exists (fun q => if in_dec longhand_eq_dec q (longhands_of (Short sh)) then Reset else Keep). split; [constructor|]. split.
    + intros k q _ I. destruct (in_dec longhand_eq_dec q (longhands_of (Short sh))) as [|N]; [reflexivity|]. destruct N. apply long_component. eauto.
    + intros q N. destruct (in_dec longhand_eq_dec q (longhands_of (Short sh))); [contradiction|reflexivity].
  - destruct (IH l) as (E & G & R & K); [injection LE; auto|]. exists (fun q => if in_dec longhand_eq_dec q (component sh k) then Give x else E q). split; [constructor|split].
    + intros q I. destruct (in_dec longhand_eq_dec q (component sh k)); [reflexivity|contradiction].
    + clear -G NI. induction G as [|j y ks l G1 G IH]; constructor; [|apply IH; intros X; apply NI; right; exact X].
      intros q I. destruct (in_dec longhand_eq_dec q (component sh k)) as [Q|]; [|auto]. destruct NI. left. exact (component_unique _ _ _ _ I Q).
    + intros j q N I. destruct (in_dec longhand_eq_dec q (component sh k)) as [Q|]; [destruct N; left; exact (component_unique _ _ _ _ Q I)|]. apply (R j q); [intros X; apply N; right; exact X|exact I].
    + intros q N. destruct (in_dec longhand_eq_dec q (component sh k)) as [Q|]; [destruct N; apply long_component; eauto|auto].
Qed.
Lemma accepted_dec q v : q <> L_quotes -> accepted q v \/ ~ accepted q v.
Proof.
  intros NQ. destruct (validate (ho_set ho) (choices_of q) 0 v) as [[w m]|x] eqn:W; [left; exact (validate_accepted _ _ _ _ _ NQ W)|]. right. intros A.
  destruct (accepted_any q v NQ A 0%nat) as (w & m & X). congruence.
Qed.
Lemma angle_dec part : angle_text part \/ ~ angle_text part.
Proof.
  destruct part; try (right; intros (? & ? & ? & _); discriminate). destruct (units (VStr s)) as [u|e] eqn:U.
  - destruct (u_kind u) eqn:K; try (right; intros (t & x & X & L & A); injection X as <-; apply len_units in L; rewrite U in L; injection L as <-; unfold is_angle in A; rewrite K in A; destruct A as (? & ? & A); discriminate).
    left. exists s, u. split; [reflexivity|]. split; [apply len_units, U|]. unfold is_angle. rewrite K. eauto.
  - right. intros (t & x & X & L & A). injection X as <-. apply len_units in L. congruence.
Qed.
Lemma angles_dec l : Exists angle_text l \/ ~ Exists angle_text l.
Proof.
  induction l as [|x l [IH|IH]]; [right; intros X; inversion X|left; right; exact IH|]. destruct (angle_dec x) as [A|A]; [left; left; exact A|]. right. intros X. inversion X; contradiction.
Qed.
Lemma sides_dec d (f : side -> pyval) l : (forall s, In s l -> accepted (side_prop d s) (f s))
  \/ exists done s rest, (done ++ s :: rest)%list = l /\ (forall r, In r done -> accepted (side_prop d r) (f r)) /\ ~ accepted (side_prop d s) (f s).
Proof.
  induction l as [|a l IH]; [left; intros s []|]. destruct (accepted_dec (side_prop d a) (f a)) as [A|A]; [apply side_not_quotes| |].
  - destruct IH as [IH|(done & s & rest & <- & D & N)]; [left; intros s [<- | I]; auto|]. right. exists (a :: done), s, rest. split; [reflexivity|]. split; [intros r [<- | I]; auto|exact N].
  - right. exists [], a, l. split; [reflexivity|]. split; [intros r []|exact A].
Qed.
Lemma refusal_parts_exists sh v : (forall l ks, parts_given v l -> ~ filled sh ks l) -> exists e, refusal_of_parts sh v e.
Proof.
  intros N. destruct (C164_rejected ho sh v fresh_css 0 V N) as (e & E & [->|R]); [|exists e; left; exact R]. exists ValueError. right. split; [|reflexivity].
  intros x R. rewrite (C164_raises ho sh v fresh_css 0 x V R) in E. injection E as ->. destruct R as (pre & part & post & ks & _ & _ & _ & q & _ & R).
  apply (raises_validate ho q 0) in R. destruct R as [_ R]. discriminate.
Qed.
Lemma assigning_total p v : p <> Long L_quotes -> exists E r, assigning p v E r.
Proof.
  intros NP. destruct p as [q|d|sh].
  - assert (NQ : q <> L_quotes) by congruence. destruct (accepted_dec q v NQ) as [A|A].
    + exists (fun r => if longhand_eq_dec r q then Give v else Keep), None. apply assign_long; [exact NQ|exact A| |].
      * destruct (longhand_eq_dec q q); [reflexivity|contradiction].
      * intros r N. destruct (longhand_eq_dec r q); [contradiction|reflexivity].
    + destruct (refusal_exists q v 0 NQ A) as (e & R). exists (fun _ => Keep), (Some e). apply refuse_long; auto. intros r. reflexivity.
  - destruct (sides_of v) as [f|] eqn:SO; [|exists (fun _ => Keep), (Some ValueError); apply refuse_number; [exact SO|intros r; reflexivity]].
    assert (ND4 : NoDup [STop; SRight; SBottom; SLeft]) by (repeat constructor; cbn; intuition discriminate).
    destruct (sides_dec d f [STop; SRight; SBottom; SLeft]) as [A|(done & s & rest & OR & A & N)].
    + destruct (effect_of (side_prop d) f _ ND4 (side_inj d)) as (E & G & K). exists E, None. apply (assign_sides d v f); [exact SO|intros []; apply A; cbn; auto|intros []; apply G; cbn; auto|intros q X; apply K; auto].
    + assert (ND : NoDup done).
      { rewrite <- OR in ND4. apply NoDup_remove in ND4. destruct ND4 as [Z _]. clear -Z. induction done as [|x y IH]; [constructor|]. inversion Z as [|? ? NI Z']; subst. constructor; [intros I; apply NI, in_or_app; auto|auto]. }
      destruct (effect_of (side_prop d) f _ ND (side_inj d)) as (E & G & K). destruct (refusal_exists (side_prop d s) (f s) 0 (side_not_quotes d s) N) as (e & R).
      exists E, (Some e). apply (refuse_side d v f done s); auto. split; [exists rest; exact OR|]. split; [exact A|]. intros n w m W. apply N. exists n, w, m. exact W.
  - destruct (shorthand_values v) as [l|e] eqn:SV.
    + pose proof SV as P. apply values_given in P. destruct (parse_parts (ho_set ho) (table_of sh) 3 0 no_parts l) as [[d n1]|e] eqn:PP.
      * destruct (parse_parts_classes ho V sh l 3 0 no_parts d n1 PP) as (ks & ND & F & _). assert (FI : filled sh ks l) by (split; assumption).
        destruct (effect_of_parts sh ks l ND) as (E & G & R & K); [clear -F; induction F; cbn; congruence|]. destruct (angles_dec l) as [A|A].
        -- assert (D : sh = S_outline \/ sh <> S_outline) by (destruct sh; auto; right; discriminate). destruct D as [->|D].
           ++ exists (fun q => if longhand_eq_dec q L_outline_width then Keep else E q), (Some ValueError). apply (refuse_outline_angle v l ks); try assumption.
              ** clear -G. induction G as [|k x ks l G1 G IH]; constructor; [|exact IH]. intros NW q I. destruct (longhand_eq_dec q L_outline_width) as [->|]; [|auto].
                 destruct k; cbn in I; [contradiction|destruct I as [I|[]]; discriminate..].
              ** intros k q N I. destruct (longhand_eq_dec q L_outline_width) as [->|]; [|exact (R k q N I)]. exfalso.
                 assert (k = CWidth) as -> by (apply (component_unique S_outline k CWidth L_outline_width); cbn; auto).
                 apply N. clear -V F A. apply Exists_exists in A. destruct A as (x & I & A). induction F as [|k y ks l F1 F IH]; [destruct I|]. destruct I as [-> |I]; [left; exact (angle_fits ho V S_outline k x F1 A)|right; auto].
              ** intros q N1 N2. destruct (longhand_eq_dec q L_outline_width) as [->|N3]; [reflexivity|]. apply K. cbn. intros [X|[X|[X|[]]]]; congruence.
           ++ exists (fun _ => Keep), (Some ValueError). apply (refuse_angle sh v l ks); auto. intros q. reflexivity.
        -- exists E, None. apply (assign_parts sh v l ks); assumption.
      * assert (N : forall l ks, parts_given v l -> ~ filled sh ks l).
        { intros l' ks P' F. apply values_given in P'. assert (l' = l) as -> by congruence. destruct (filled_parse ho V sh ks l 0 F) as (d & n1 & X & _). congruence. }
        destruct (refusal_parts_exists sh v N) as (x & R). exists (fun _ => Keep), (Some x). apply refuse_parts; auto. intros q. reflexivity.
    + assert (N : forall l ks, parts_given v l -> ~ filled sh ks l) by (intros l' ks P' F; apply values_given in P'; congruence).
      destruct (refusal_parts_exists sh v N) as (x & R). exists (fun _ => Keep), (Some x). apply refuse_parts; auto. intros q. reflexivity.
Qed.
Lemma deleting_total p : exists E, deleting p E.
Proof.
  exists (fun q => if in_dec longhand_eq_dec q (longhands_of p) then Reset else Keep). split; intros q I; destruct (in_dec longhand_eq_dec q (longhands_of p)); try reflexivity; contradiction.
Qed.
Lemma name_dec name : (exists p, names_prop name p) \/ forall p, ~ names_prop name p.
Proof.
  destruct (prop_of_name (underscored name)) as [p|] eqn:N; [left; exists p|right; intros p X; apply named in X; congruence].
  unfold prop_of_name in N. pose proof (find_prop_spec all_props (underscored name)) as F. rewrite N in F. destruct F as [_ F]. unfold names_prop. rewrite <- underscored_with, <- prop_name_python. congruence.
Qed.
Lemma keep_untouched : untouched (fun _ => Keep).
Proof. intros q. reflexivity. Qed.
Lemma updating_total l : (forall name v, In (name, v) l -> quotes_name name -> v = VNone) -> exists E r, updating l E r.
Proof.
  induction l as [|[name v] l IH]; intros SQ; [exists (fun _ => Keep), None; constructor; apply keep_untouched|].
  assert (I : exists E r, updating_item name v E r).
  { destruct (name_dec name) as [[p N]|N]; [|exists (fun _ => Keep), (Some NameError); apply item_unknown; [exact N|apply keep_untouched]].
    assert (D : v = VNone \/ v <> VNone) by (destruct v; auto; right; discriminate). destruct D as [->|D].
    - destruct (deleting_total p) as (E & DE). exists E, None. apply (item_delete name p); assumption.
    - destruct (assigning_total p v) as (E & r & A); [intros ->; apply D, (SQ name v (or_introl eq_refl)), N|]. exists E, r. apply (item_set name p); assumption. }
  destruct I as (E & [e|] & I); [exists E, (Some e); apply update_stop, I|]. destruct IH as (F & r & U); [intros nm w X; apply SQ; right; exact X|].
  exists (fun q => over (E q) (F q)), r. apply (update_next name v l E F); [exact I|exact U|intros q; reflexivity].
Qed.
Lemma operating_total o : spares_quotes o -> exists E r, operating o E r.
Proof.
  destruct o as [p v|p|l|name v|name|node]; cbn [spares_quotes]; intros SQ.
  - destruct (assigning_total p v SQ) as (E & r & A). exists E, r. constructor. exact A.
  - destruct (deleting_total p) as (E & D). exists E, None. constructor. exact D.
  - destruct (updating_total l SQ) as (E & r & U). exists E, r. constructor. exact U.
  - destruct (name_dec name) as [[p N]|N]; [|exists (fun _ => Keep), (Some KeyError); apply operate_setitem_unknown; [exact N|apply keep_untouched]].
    destruct (assigning_total p v) as (E & r & A); [intros ->; exact (SQ N)|]. exists E, r. apply (operate_setitem name p); assumption.
  - destruct (name_dec name) as [[p N]|N]; [|exists (fun _ => Keep), (Some KeyError); apply operate_delitem_unknown; [exact N|apply keep_untouched]].
    destruct (deleting_total p) as (E & D). exists E, None. apply (operate_delitem name p); assumption.
  - exists (fun _ => Keep), None. constructor. apply keep_untouched.
Qed.
End Table.

Lemma run_ops_app ho k l c n : run_ops ho (k ++ l) c n = let '(c', n') := run_ops ho k c n in run_ops ho l c' n'.
Proof. revert c n. induction k as [|o k IH]; intros c n; [reflexivity|]. cbn [List.app run_ops]. destruct (run_op ho o c n) as [[c' n'] r]. apply IH. Qed.

(** C166. *)
Theorem C166_table : forall ho l E rs, valid_order ho -> with_layouts l -> program l E rs ->
  (forall c n, reachable ho c n -> has_layout c -> exceptions ho l c n = rs
     /\ forall q, shows_change ho c (fst (run_ops ho l c n)) q (E q))
  /\ (exceptions ho l fresh_css first_free = rs
     /\ forall q, shows_change ho fresh_css (fst (run_ops ho l fresh_css first_free)) q (over Reset (E q))).
Proof.
  intros ho l E rs V W P. split.
  - intros c n R L. destruct (sim_program ho V l E rs P W c n L) as (X & _ & D). split; [exact X|]. intros q. destruct (run_ops ho l c n) as [c' n'] eqn:RO.
    apply (did_shows ho V c c' n'); [|apply D]. destruct R as [k R]. exists (k ++ l)%list. rewrite run_ops_app, R. exact RO.
  - assert (L : has_layout fresh_css) by discriminate. destruct (sim_program ho V l E rs P W fresh_css first_free L) as (X & _ & D). split; [exact X|]. intros q.
    destruct (run_ops ho l fresh_css first_free) as [c' n'] eqn:RO. apply (did_shows ho V fresh_css c' n'); [exists l; exact RO|].
    apply (did_over ho fresh_css fresh_css); [reflexivity|apply D].
Qed.
Print Assumptions C166_table.
(** Every program that does not assign to quotes is described. *)
Theorem C166_total : forall l, Forall spares_quotes l -> exists E rs, program l E rs.
Proof.
  induction 1 as [|o l S _ (F & rs & P)]; [exists (fun _ => Keep), []; constructor; apply keep_untouched|]. destruct (operating_total plain_order plain_valid o S) as (E & r & O).
  exists (fun q => over (E q) (F q)), (r :: rs). apply (program_step o l E F); [exact O|exact P|intros q; reflexivity].
Qed.
Print Assumptions C166_total.
Definition sample_program : list op :=
  [OpSetItem "margin-top" (VStr "5px"); OpUpdate [("padding", VTuple [VInt 1; VStr "bad"]); ("color", VStr "red")]; OpDelItem "margin"; OpSetItem "flex" (VInt 1); OpBind (Some (Some false))].
Example C166_example : with_layouts sample_program /\ Forall spares_quotes sample_program
  /\ exists E, program sample_program E [None; Some ValueError; None; Some KeyError; None]
     /\ E (L_padding STop) = Give (VInt 1) /\ E (L_padding SRight) = Keep /\ E L_color = Keep /\ E (L_margin STop) = Reset.
Proof.
  split; [intros N; cbn in N; intuition discriminate|]. split.
  { constructor; [intros N; vm_compute in N; discriminate|]. constructor; [intros name v [X|[X|[]]] N; injection X as <- <-; vm_compute in N; discriminate|].
    constructor; [exact I|]. constructor; [intros N; vm_compute in N; discriminate|]. constructor; [exact I|constructor]. }
  assert (NQ : forall s, L_padding s <> L_quotes) by discriminate.
  assert (A : forall q v w, q <> L_quotes -> validate (ho_set plain_order) (choices_of q) 0 v = Ok (w, 0%nat) -> accepted q v) by (intros q v w N W; exists 0%nat, w, 0%nat; apply computed_written; assumption).
  set (E1 := fun q => if longhand_eq_dec q (L_margin STop) then Give (VStr "5px") else Keep).
  set (E2 := fun q => if longhand_eq_dec q (L_padding STop) then Give (VInt 1) else Keep).
  set (E3 := fun q => if in_dec longhand_eq_dec q (longhands_of (Dir D_margin)) then Reset else Keep).
  set (E4 := fun _ : longhand => Keep).
  exists (fun q => over (E1 q) (over (E2 q) (over (E3 q) (over (E4 q) (over (E4 q) Keep))))). split; [|repeat split; vm_compute; reflexivity].
  eapply program_step with (E := E1); [apply (operate_setitem "margin-top" (Long (L_margin STop))); [reflexivity|]| |intros q; reflexivity].
  { apply assign_long; [discriminate| | |].
    - exact (A (L_margin STop) (VStr "5px") (VUnit (unit_of "5px")) ltac:(discriminate) ltac:(vm_compute; reflexivity)).
    - vm_compute. reflexivity.
    - intros r N. unfold E1. destruct (longhand_eq_dec r (L_margin STop)); [contradiction|reflexivity]. }
  eapply program_step with (E := E2); [|eapply program_step with (E := E3)|intros q; reflexivity].
  { apply operate_update, update_stop. apply (item_set "padding" (Dir D_padding)); [reflexivity|discriminate|].
    apply (refuse_side D_padding _ (fun s => match s with STop | SBottom => VInt 1 | SRight | SLeft => VStr "bad" end) [STop] SRight); [reflexivity| | | |].
    - split; [exists [SBottom; SLeft]; reflexivity|]. split.
      + intros r [<- | []]. exact (A (L_padding STop) (VInt 1) (VUnit (mkU KPx (PI 1))) ltac:(discriminate) ltac:(vm_compute; reflexivity)).
      + intros n w m. eapply not_written; [discriminate|]. vm_compute. reflexivity.
    - right. split; [|reflexivity]. intros x R. apply (raises_validate plain_order _ 0) in R. destruct R as [R X]. vm_compute in R. injection R as <-. discriminate.
    - intros r [<- | []]. reflexivity.
    - intros q N. unfold E2. destruct (longhand_eq_dec q (L_padding STop)) as [->|]; [destruct (N STop); cbn; auto|reflexivity]. }
  { apply (operate_delitem "margin" (Dir D_margin)); [reflexivity|]. split; intros q I; unfold E3; destruct (in_dec longhand_eq_dec q (longhands_of (Dir D_margin))); try reflexivity; contradiction. }
  2:{ intros q; reflexivity. }
  eapply program_step with (E := E4) (F := fun q => over (E4 q) Keep); [apply operate_setitem_unknown; [|intros q; reflexivity]| |intros q; reflexivity].
  { intros p. destruct p as [[]|[]|[]]; try destruct s; vm_compute; discriminate. }
  eapply program_step with (E := E4) (F := fun _ => Keep); [apply operate_bind; intros q; reflexivity|apply program_end; intros q; reflexivity|intros q; reflexivity].
Qed.
