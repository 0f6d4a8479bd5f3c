(** * C146: the order of keyword arguments does not matter *)
From Coq Require Import ZArith QArith Qcanon Bool String Ascii List Permutation Lia.
From Verif Require Import PyNum NumFacts Units Float64 PyStr StrFacts Colors Values Parser Choices Shorthand Decl DeclSpec DeclFacts DeclNorm DeclProps DeclProps2 DeclProps3 OrderSpec.
Import ListNotations.
Open Scope string_scope.
Open Scope nat_scope.

Lemma existed_list n l : (fix all l := match l with [] => True | x :: r => existed n x /\ all r end) l <-> Forall (existed n) l.
Proof. induction l as [|x l IH]; split; intros H; try constructor; try (inversion H; subst); intuition auto. Qed.
Lemma existed_seq n v l : existed n v -> sequence v = Some l -> Forall (existed n) l.
Proof. destruct v; cbn; intros E H; try discriminate; injection H as <-; apply existed_list, E. Qed.

Section Twins.
Context (ho : hash_order) (V : valid_order ho) (b1 b2 : nat) (B1 : first_free <= b1) (B2 : first_free <= b2).
(** Two values made by the same expression, the objects created since b1 and b2
    corresponding. *)
Inductive titem : pyval -> pyval -> Prop :=
| t_word s : titem (VStr s) (VStr s)
| t_uri i j x : b1 <= i -> b2 <= j -> titem (VUri (OId i) x) (VUri (OId j) x).
Inductive twin : pyval -> pyval -> Prop :=
| t_old v : existed b1 v -> existed b2 v -> twin v v
| t_color i j c : b1 <= i -> b2 <= j -> twin (VColor (OId i) c) (VColor (OId j) c)
| t_spacing i j h v : b1 <= i -> b2 <= j -> twin (VSpacing (OId i) h v) (VSpacing (OId j) h v)
| t_cursor l m : Forall2 titem l m -> twin (VCursor l) (VCursor m).
Definition old (v : pyval) : Prop := existed b1 v /\ existed b2 v.
Lemma twin_contents v w : twin v w -> same_contents v w.
Proof.
  intros []; try constructor. induction H as [|x y l m [] _ IH]; constructor; auto; constructor.
Qed.
Lemma twin_eqb v w u : twin v w -> old u -> py_eqb v u = py_eqb w u.
Proof.
  intros T [A B]. destruct T as [v E F|i j c E F|i j h v E F|l m E]; [reflexivity| | |].
  - destruct u as [| | | | |[k|k] d| | | | | | | | | ]; try reflexivity. cbn in *. destruct (Nat.eqb_spec i k), (Nat.eqb_spec j k); try reflexivity; lia.
  - destruct u as [| | | | | | | |[k|k] d e| | | | | | ]; try reflexivity. cbn in *. destruct (Nat.eqb_spec i k), (Nat.eqb_spec j k); try reflexivity; lia.
  - assert (G : forall u', Forall (existed b1) u' -> Forall (existed b2) u' -> eq_list py_eqb l u' = eq_list py_eqb m u').
    { clear A B. induction E as [|x y l m T _ IH]; intros [|z u']; try reflexivity. intros A B. inversion A; inversion B; subst. cbn [eq_list]. fold (eq_list py_eqb). rewrite IH by assumption. f_equal.
      destruct T as [s|i j t P Q]; [reflexivity|]. destruct z as [| | | | | | | | | | |[k|k] d| | | ]; try reflexivity. cbn in *. destruct (Nat.eqb_spec i k), (Nat.eqb_spec j k); try reflexivity; lia. }
    destruct u; try reflexivity; cbn [py_eqb]; cbn [existed] in A, B; apply existed_list in A; apply existed_list in B; apply G; assumption.
Qed.

(** *** Parsers and validators *)
Definition rtwin (a b : res (pyval * nat)) (n1 n2 : nat) : Prop :=
  match a, b with
  | Ok (v, m1), Ok (w, m2) => twin v w /\ n1 <= m1 /\ n2 <= m2
  | Err e, Err f => e = f
  | _, _ => False
  end.
Lemma rtwin_err e n1 n2 : rtwin (Err e) (Err e) n1 n2. Proof. reflexivity. Qed.
Lemma rtwin_as a b n1 n2 : rtwin a b n1 n2 -> rtwin (as_validation a) (as_validation b) n1 n2.
Proof. destruct a as [[]|], b as [[]|]; cbn; try tauto. intros <-. destruct (is_value_error e); reflexivity. Qed.
Lemma named_old key : old (named_color key).
Proof. unfold named_color. destruct (assoc key NAMED_COLOR) as [[[] ]|]; split; exact I. Qed.
Lemma color_twin n1 n2 v : b1 <= n1 -> b2 <= n2 -> old v -> rtwin (color n1 v) (color n2 v) n1 n2.
Proof.
  intros L1 L2 [A B]. destruct v; try reflexivity; unfold color.
  - destruct (color_text s) as [[c|k]|e]; cbn [bindr]; [| |reflexivity].
    + split; [constructor; assumption|lia].
    + split; [constructor; apply (named_old k)|lia].
  - split; [constructor; assumption|lia].
Qed.
Lemma spacing_twin n1 n2 v : b1 <= n1 -> b2 <= n2 -> rtwin (border_spacing n1 v) (border_spacing n2 v) n1 n2.
Proof.
  intros L1 L2. unfold border_spacing. match goal with |- context [bindr ?m _] => destruct m as [l|e] end; cbn [bindr]; [|reflexivity].
  destruct l as [|h [|w [|]]]; try reflexivity; destruct (units h); cbn [bindr]; try reflexivity; [split; [constructor; assumption|lia]|].
  destruct (units w); cbn [bindr]; [split; [constructor; assumption|lia]|reflexivity].
Qed.
Lemma option_word v : is_cursor_option v = true -> exists s, v = VStr s.
Proof. unfold is_cursor_option. rewrite existsb_exists. intros (s & _ & E). destruct v; try discriminate. eauto. Qed.
Lemma cursor_items_twin l : forall n1 n2 seen, b1 <= n1 -> b2 <= n2 ->
  match cursor_items n1 seen l, cursor_items n2 seen l with
  | Ok (a, m1), Ok (b, m2) => Forall2 titem a b /\ n1 <= m1 /\ n2 <= m2
  | Err e, Err f => e = f
  | _, _ => False
  end.
Proof.
  induction l as [|v l IH]; intros n1 n2 seen L1 L2; [cbn; auto|]. cbn [cursor_items].
  destruct (is_cursor_option v) eqn:O.
  - destruct seen; [reflexivity|]. specialize (IH n1 n2 true L1 L2). destruct (cursor_items n1 true l) as [[a m1]|e], (cursor_items n2 true l) as [[a' m2]|e']; cbn [bindr fst snd]; try tauto.
    destruct (option_word _ O) as (s & ->). destruct IH as (F & M1 & M2). split; [constructor; [constructor|exact F]|auto].
  - destruct seen; [reflexivity|]. destruct v; cbn [uri try_value bindr is_value_error]; try reflexivity.
    destruct (uri_text s) as [u|e] eqn:U; cbn [bindr try_value fst snd].
    + specialize (IH (S n1) (S n2) false ltac:(lia) ltac:(lia)). destruct (cursor_items (S n1) false l) as [[a m1]|e], (cursor_items (S n2) false l) as [[a' m2]|e']; cbn [bindr fst snd]; try tauto.
      destruct IH as (F & M1 & M2). split; [constructor; [constructor; assumption|exact F]|lia].
    + destruct (is_value_error e); reflexivity.
Qed.
Lemma cursor_twin n1 n2 v : b1 <= n1 -> b2 <= n2 -> rtwin (cursor n1 v) (cursor n2 v) n1 n2.
Proof.
  intros L1 L2. unfold cursor. match goal with |- context [bindr ?m _] => destruct m as [l|e] end; cbn [bindr]; [|reflexivity].
  pose proof (cursor_items_twin l n1 n2 false L1 L2) as H. destruct (cursor_items n1 false l) as [[a m1]|e], (cursor_items n2 false l) as [[a' m2]|e']; cbn [bindr fst snd]; try tauto; try exact H.
  destruct H as (F & M). split; [constructor; exact F|exact M].
Qed.
Lemma plain_quotes v r : quotes v = Ok r -> old r.
Proof.
  unfold quotes. intros H. match type of H with context [bindr ?m _] => destruct m; cbn [bindr] in H; try discriminate end.
  destruct (_ && _); [|discriminate]. destruct (quote_pairs _); cbn [bindr] in H; [|discriminate]. injection H as <-. split; exact I.
Qed.
Lemma plain_rect v r : rect v = Ok r -> old r.
Proof.
  unfold rect. destruct v; try discriminate. cbv zeta. destruct (_ && _); [|discriminate]. match goal with |- context [match ?m with Some _ => _ | None => _ end] => destruct m as [[|a [|b [|c [|d [|]]]]]|] end; try discriminate.
  destruct (units (VStr (strip a))); cbn [bindr]; [|discriminate]. destruct (units (VStr (strip b))); cbn [bindr]; [|discriminate]. destruct (units (VStr (strip c))); cbn [bindr]; [|discriminate].
  destruct (units (VStr (strip d))); cbn [bindr]; [|discriminate]. intros H. injection H as <-. split; exact I.
Qed.
Lemma validator_twin f n1 n2 v : b1 <= n1 -> b2 <= n2 -> old v -> rtwin (run_validator f n1 v) (run_validator f n2 v) n1 n2.
Proof.
  intros L1 L2 O. destruct f; cbn [run_validator].
  - destruct (as_validation (units v)); cbn [bindr]; [split; [constructor; exact I|lia]|reflexivity].
  - destruct (as_validation (units v)) as [u|]; cbn [bindr]; [|reflexivity]. destruct (u_kind u); try reflexivity. destruct (u_ltb u _); [reflexivity|split; [constructor; exact I|lia]].
  - destruct (as_validation_t (int_of v)); cbn [bindr]; [split; [constructor; exact I|lia]|reflexivity].
  - apply rtwin_as, color_twin; assumption.
  - apply rtwin_as, spacing_twin; assumption.
  - destruct (rect v) as [r|e] eqn:R; cbn [as_validation bindr]; [split; [constructor; apply (plain_rect v r R)|lia]|destruct (is_value_error e); reflexivity].
  - destruct (quotes v) as [r|e] eqn:R; cbn [as_validation bindr]; [split; [constructor; apply (plain_quotes v r R)|lia]|destruct (is_value_error e); reflexivity].
  - apply rtwin_as, cursor_twin; assumption.
Qed.
Lemma first_twin fs n1 n2 v : b1 <= n1 -> b2 <= n2 -> old v ->
  match first_valid fs n1 v, first_valid fs n2 v with
  | Ok (Some x), Ok (Some y) => rtwin (Ok x) (Ok y) n1 n2
  | Ok None, Ok None => True
  | Err e, Err f => e = f
  | _, _ => False
  end.
Proof.
  intros L1 L2 O. induction fs as [|f fs IH]; [exact I|]. cbn [first_valid]. pose proof (validator_twin f n1 n2 v L1 L2 O) as T.
  destruct (run_validator f n1 v) as [[w m]|e], (run_validator f n2 v) as [[w' m']|e']; cbn [rtwin] in T; try contradiction; [exact T|]. subst e'. destruct e; try reflexivity. exact IH.
Qed.
(** The constants are no objects. *)
Definition plain_const (v : pyval) : Prop := match v with VNone | VInt _ | VStr _ | VDefault => True | _ => False end.
Lemma plain_old v : plain_const v -> old v.
Proof. destruct v; cbn; try tauto; split; exact I. Qed.
Definition plain_choices (ch : choices) : Prop := Forall plain_const (ho_set ho (ch_constants ch)) /\ Forall plain_const (ch_defaulting ch).
Lemma order_perm l : Permutation l (ho_set ho l).
Proof. apply V. Qed.
Lemma plain_by ch : Forall plain_const (ch_constants ch) -> Forall plain_const (ch_defaulting ch) -> plain_choices ch.
Proof. intros A B. split; [|exact B]. eapply Permutation_Forall; [apply order_perm|exact A]. Qed.
Lemma plain_of p : plain_choices (choices_of p).
Proof. destruct p; apply plain_by; vm_compute; repeat constructor. Qed.
Lemma find_plain v l c : Forall plain_const l -> find_const v l = Some c -> old c.
Proof. induction 1 as [|x l P _ IH]; cbn; [discriminate|]. destruct (py_eqb v x); [intros H; injection H as <-; apply plain_old, P|exact IH]. Qed.
Lemma validate_twin ch n1 n2 v : plain_choices ch -> b1 <= n1 -> b2 <= n2 -> old v -> rtwin (validate (ho_set ho) ch n1 v) (validate (ho_set ho) ch n2 v) n1 n2.
Proof.
  intros [P Q] L1 L2 O. unfold validate. pose proof (first_twin (ch_validators ch) n1 n2 v L1 L2 O) as T.
  destruct (first_valid _ n1 v) as [[[w m]|]|e], (first_valid _ n2 v) as [[[w' m']|]|e']; cbn [bindr]; try contradiction; [exact T| |exact T].
  destruct (find_const _ (ho_set ho (ch_constants ch))) as [c|] eqn:E; [split; [constructor; apply (find_plain _ _ _ P E)|lia]|].
  destruct (find_const _ (ch_defaulting ch)) as [c|] eqn:F; [split; [constructor; apply (find_plain _ _ _ Q F)|lia]|reflexivity].
Qed.
(** A fresh colour, as a shorthand passes it on. *)
Lemma validate_color p n1 n2 i j c : b1 <= i -> b2 <= j -> rtwin (validate (ho_set ho) (choices_of p) n1 (VColor (OId i) c)) (validate (ho_set ho) (choices_of p) n2 (VColor (OId j) c)) n1 n2.
Proof.
  intros L1 L2. unfold validate.
  assert (F : forall fs, match first_valid fs n1 (VColor (OId i) c), first_valid fs n2 (VColor (OId j) c) with
    | Ok (Some x), Ok (Some y) => rtwin (Ok x) (Ok y) n1 n2 | Ok None, Ok None => True | Err e, Err f => e = f | _, _ => False end).
  { induction fs as [|f fs IH]; [exact I|]. cbn [first_valid]. destruct f; cbn; try exact IH; try reflexivity. split; [constructor; assumption|lia]. }
  specialize (F (ch_validators (choices_of p))). destruct (first_valid _ n1 _) as [[[w m]|]|e], (first_valid _ n2 _) as [[[w' m']|]|e']; cbn [bindr]; try contradiction; [exact F| |exact F].
  cbn [py_eqb]. destruct (plain_of p) as [P Q].
  assert (N : forall o l, Forall plain_const l -> find_const (VColor o c) l = None).
  { intros o l. induction 1 as [|x l Hx _ IH]; [reflexivity|]. cbn [find_const]. destruct x; cbn in Hx; try contradiction; exact IH. }
  rewrite !N by assumption. reflexivity.
Qed.
(** What a shorthand passes on. *)
Inductive arg : pyval -> pyval -> Prop :=
| arg_old v : old v -> arg v v
| arg_color i j c : b1 <= i -> b2 <= j -> arg (VColor (OId i) c) (VColor (OId j) c).
Lemma validate_arg p n1 n2 v w : b1 <= n1 -> b2 <= n2 -> arg v w -> rtwin (validate (ho_set ho) (choices_of p) n1 v) (validate (ho_set ho) (choices_of p) n2 w) n1 n2.
Proof. intros L1 L2 [u O|i j c I J]; [apply validate_twin; try assumption; apply plain_of|apply validate_color; assumption]. Qed.

(** *** Operations *)
Definition bump (f : bool) (nd : option (option bool)) : option (option bool) :=
  match nd with Some (Some b) => Some (Some (f || b)) | x => x end.
Definition otwin (x y : option pyval) : Prop := match x, y with None, None => True | Some v, Some w => twin v w | _, _ => False end.
Definition oold (x : option pyval) : Prop := match x with None => True | Some v => old v end.
Lemma otwin_refl x : oold x -> otwin x x.
Proof. destruct x; cbn; [intros []; constructor; assumption|auto]. Qed.
(** The two operations work on the longhands D only, and do the same there. *)
Definition sim (D : list longhand) (m1 m2 : cm unit) : Prop :=
  forall c1 n1 c2 n2, b1 <= n1 -> b2 <= n2 -> has_layout c1 -> has_layout c2 ->
  (forall q, In q D -> c_store c1 q = c_store c2 q /\ oold (c_store c1 q)) ->
  exists c1' n1' c2' n2' r f, m1 c1 n1 = (c1', n1', r) /\ m2 c2 n2 = (c2', n2', r) /\ n1 <= n1' /\ n2 <= n2'
    /\ (forall q, In q D -> otwin (c_store c1' q) (c_store c2' q))
    /\ (forall q, ~ In q D -> c_store c1' q = c_store c1 q /\ c_store c2' q = c_store c2 q)
    /\ c_node c1' = bump f (c_node c1) /\ c_node c2' = bump f (c_node c2).
Lemma bump_layout f c c' : c_node c' = bump f (c_node c) -> has_layout c -> has_layout c'.
Proof. unfold has_layout. intros ->. destruct (c_node c) as [[]|]; cbn; congruence. Qed.
Lemma bump_bump f g nd : bump g (bump f nd) = bump (g || f) nd.
Proof. destruct nd as [[]|]; cbn; rewrite ?orb_assoc; reflexivity. Qed.
Lemma dirty_bump c n : has_layout c -> dirty c n = (mkCss (c_store c) (bump true (c_node c)), n, Ok tt).
Proof. unfold has_layout, dirty, mark_dirty. destruct c as [st [[b|]|]]; cbn; try congruence; reflexivity. Qed.
Ltac same_state c1 n1 c2 n2 := exists c1, n1, c2, n2.
Lemma bump_false nd : bump false nd = nd. Proof. destruct nd as [[]|]; reflexivity. Qed.
Lemma sim_same D m1 m2 r : (forall c n, m1 c n = (c, n, r)) -> (forall c n, m2 c n = (c, n, r)) -> sim D m1 m2.
Proof.
  intros E1 E2 c1 n1 c2 n2 L1 L2 H1 H2 S. exists c1, n1, c2, n2, r, false. rewrite E1, E2, !bump_false.
  repeat (split; [auto|]); [|auto]. intros q I. destruct (S q I) as [<- O]. apply otwin_refl, O.
Qed.
Lemma sim_ext D m1 m2 k1 k2 : (forall c n, m1 c n = k1 c n) -> (forall c n, m2 c n = k2 c n) -> sim D k1 k2 -> sim D m1 m2.
Proof. intros E1 E2 S c1 n1 c2 n2. rewrite E1, E2. apply S. Qed.
Lemma sim_dirty D : sim D dirty dirty.
Proof.
  intros c1 n1 c2 n2 L1 L2 H1 H2 S. rewrite !dirty_bump by assumption. do 4 eexists. exists (Ok tt), true. split; [reflexivity|]. split; [reflexivity|]. cbn [c_store c_node].
  repeat (split; [auto|]); [|auto]. intros q I. destruct (S q I) as [<- O]. apply otwin_refl, O.
Qed.
Lemma sim_bind D1 D2 m1 m2 (k1 k2 : unit -> cm unit) : sim D1 m1 m2 -> sim D2 (k1 tt) (k2 tt) -> (forall q, In q D1 -> ~ In q D2) -> sim (D1 ++ D2)%list (bind m1 k1) (bind m2 k2).
Proof.
  intros M K A c1 n1 c2 n2 L1 L2 H1 H2 S.
  destruct (M c1 n1 c2 n2 L1 L2 H1 H2) as (d1 & m1' & d2 & m2' & r & f & E1 & E2 & G1 & G2 & T & O & N1 & N2); [intros q I; apply S, in_or_app; auto|].
  unfold bind. rewrite E1, E2. destruct r as [[]|e].
  - destruct (K d1 m1' d2 m2') as (e1 & k1' & e2 & k2' & r & g & F1 & F2 & G1' & G2' & T' & O' & N1' & N2'); [lia|lia|exact (bump_layout _ _ _ N1 H1)|exact (bump_layout _ _ _ N2 H2)| |].
    { intros q I. assert (X : ~ In q D1) by (intros Y; exact (A q Y I)). destruct (O q X) as [-> ->]. apply S, in_or_app; auto. }
    exists e1, k1', e2, k2', r, (g || f)%bool. split; [exact F1|]. split; [exact F2|]. split; [lia|]. split; [lia|]. split.
    + intros q I. destruct (in_dec longhand_eq_dec q D2) as [Y|Y]; [exact (T' q Y)|]. destruct (O' q Y) as [-> ->]. apply T. apply in_app_or in I. tauto.
    + split; [|rewrite N1', N2', N1, N2, !bump_bump; auto]. intros q I. assert (X : ~ In q D1) by (intros Y; apply I, in_or_app; auto). assert (Y : ~ In q D2) by (intros Z; apply I, in_or_app; auto).
      destruct (O q X), (O' q Y). split; congruence.
  - exists d1, m1', d2, m2', (Err e), f. repeat (split; [assumption || reflexivity|]). split; [|split; [|auto]].
    + intros q I. destruct (in_dec longhand_eq_dec q D1) as [Y|Y]; [exact (T q Y)|]. destruct (O q Y) as [-> ->]. destruct (S q I) as [<- Q]. apply otwin_refl, Q.
    + intros q I. apply O. intros Y. apply I, in_or_app; auto.
Qed.
Lemma sim_swallow D m1 m2 : sim D m1 m2 -> sim D (swallow m1) (swallow m2).
Proof.
  intros M c1 n1 c2 n2 L1 L2 H1 H2 S. destruct (M c1 n1 c2 n2 L1 L2 H1 H2 S) as (d1 & m1' & d2 & m2' & r & f & E1 & E2 & R).
  unfold swallow. rewrite E1, E2. exists d1, m1', d2, m2'. destruct r as [[]|[]]; eexists; exists f; (split; [reflexivity|]; split; [reflexivity|]; exact R).
Qed.
Lemma initial_old p : old (css_initial p).
Proof. unfold first_free in *. destruct p; split; cbn; try exact I; try (split; exact I); lia. Qed.
Lemma set_store_other c p v q : q <> p -> c_store (set_store c p v) q = c_store c q.
Proof. intros H. cbn. unfold lh_eqb. destruct (longhand_eq_dec q p); congruence. Qed.
Lemma set_store_here c p v : c_store (set_store c p v) p = v.
Proof. cbn. unfold lh_eqb. destruct (longhand_eq_dec p p); congruence. Qed.
Lemma sim_set p v w : arg v w -> sim [p] (set_long ho p v) (set_long ho p w).
Proof.
  intros A c1 n1 c2 n2 L1 L2 H1 H2 S. destruct (S p (or_introl eq_refl)) as [E O]. pose proof (validate_arg p n1 n2 v w L1 L2 A) as T. unfold set_long.
  destruct (validate _ _ n1 v) as [[x m1]|e], (validate _ _ n2 w) as [[y m2]|e']; cbn [rtwin] in T; try contradiction.
  - destruct T as (T & M1 & M2). assert (Q : same_value x (stored_or_initial ho c1 p) = same_value y (stored_or_initial ho c2 p)).
    { unfold stored_or_initial. rewrite <- E. destruct (c_store c1 p) as [u|]; [apply twin_eqb; assumption|]. rewrite (initial_spec _ _ V). destruct (written_initial p); try reflexivity. cbn [same_value].
      apply twin_eqb; [exact T|apply initial_old]. }
    rewrite <- Q. destruct (same_value x _).
    + exists c1, m1, c2, m2, (Ok tt), false. rewrite !bump_false. repeat (split; [auto|]); [|auto]. intros q [<- |[]]. rewrite <- E. apply otwin_refl, O.
    + rewrite !dirty_bump by (exact H1 || exact H2). do 4 eexists. exists (Ok tt), true. split; [reflexivity|]. split; [reflexivity|]. split; [exact M1|]. split; [exact M2|].
      change (c_store (mkCss ?a ?b)) with a. split; [|split; [|split; reflexivity]].
      * intros q [<- |[]]. rewrite !set_store_here. exact T.
      * intros q NI. rewrite !set_store_other by (intros ->; apply NI; left; reflexivity). auto.
  - subst e'. exists c1, n1, c2, n2. eexists. exists false. split; [reflexivity|]. split; [reflexivity|]. rewrite !bump_false. repeat (split; [auto|]); [|auto]. intros q [<- |[]]. rewrite <- E. apply otwin_refl, O.
Qed.
Lemma sim_del p : sim [p] (del_long p) (del_long p).
Proof.
  intros c1 n1 c2 n2 L1 L2 H1 H2 S. destruct (S p (or_introl eq_refl)) as [E O]. unfold del_long. rewrite <- E. destruct (c_store c1 p) as [u|] eqn:U.
  - unfold swallow. rewrite !dirty_bump by (exact H1 || exact H2). do 4 eexists. exists (Ok tt), true. split; [reflexivity|]. split; [reflexivity|]. split; [auto|]. split; [auto|].
    change (c_store (mkCss ?a ?b)) with a. split; [|split; [|split; reflexivity]].
    + intros q [<- |[]]. rewrite !set_store_here. exact I.
    + intros q NI. rewrite !set_store_other by (intros ->; apply NI; left; reflexivity). auto.
  - exists c1, n1, c2, n2, (Ok tt), false. rewrite !bump_false. repeat (split; [auto|]); [|auto]. intros q [<- |[]]. rewrite <- E, U. exact I.
Qed.
Lemma sim_sides d t r b l t' r' b' l' : arg t t' -> arg r r' -> arg b b' -> arg l l' ->
  sim (longhands_of (Dir d)) (set_sides ho d t r b l) (set_sides ho d t' r' b' l').
Proof.
  intros T R B L. assert (E : (longhands_of (Dir d) = [dir_side d STop] ++ [dir_side d SRight] ++ [dir_side d SBottom] ++ [dir_side d SLeft])%list) by (destruct d; reflexivity).
  rewrite E. unfold set_sides. repeat (apply sim_bind; [apply sim_set; assumption| |intros q; destruct d; cbn; intuition congruence]). apply sim_set, L.
Qed.
Lemma tuple_old l : old (VTuple l) -> Forall old l.
Proof. intros [A B]. cbn [existed] in A, B. apply existed_list in A. apply existed_list in B. induction A as [|x l X _ IH]; [constructor|]. inversion B; subst. constructor; [split; assumption|auto]. Qed.
Lemma sim_set_dir d v w : arg v w -> sim (longhands_of (Dir d)) (set_dir ho d v) (set_dir ho d w).
Proof.
  intros [u O|i j c I J].
  - unfold set_dir. destruct u; try (apply sim_sides; constructor; assumption). apply tuple_old in O.
    destruct l as [|t [|r [|b [|l [|]]]]]; try (apply sim_same with (r := Err ValueError); reflexivity);
      repeat match goal with H : Forall old (_ :: _) |- _ => inversion H; clear H; subst end; apply sim_sides; constructor; assumption.
  - apply sim_sides; constructor; assumption.
Qed.
Lemma sim_del_dir d : sim (longhands_of (Dir d)) (del_dir d) (del_dir d).
Proof.
  assert (E : (longhands_of (Dir d) = [dir_side d STop] ++ [dir_side d SRight] ++ [dir_side d SBottom] ++ [dir_side d SLeft] ++ [])%list) by (destruct d; reflexivity).
  rewrite E. unfold del_dir, sides. cbn [each]. repeat (apply sim_bind; [apply sim_del| |intros q; destruct d; cbn; intuition congruence]). apply sim_same with (r := Ok tt); reflexivity.
Qed.
(** The longhands a component of a shorthand stands for. *)
Definition ld_longhands (p : prop) : list longhand := match p with Short _ => [] | _ => longhands_of p end.
Lemma sim_set_ld p v w : arg v w -> sim (ld_longhands p) (set_ld ho p v) (set_ld ho p w).
Proof. intros A. destruct p; cbn [set_ld ld_longhands]; [apply sim_set, A|apply sim_set_dir, A|apply sim_same with (r := Err TypeError); reflexivity]. Qed.
Lemma sim_del_ld p : sim (ld_longhands p) (del_ld p) (del_ld p).
Proof. destruct p; cbn [del_ld ld_longhands]; [apply sim_del|apply sim_del_dir|apply sim_same with (r := Err TypeError); reflexivity]. Qed.
Lemma short_longhands sh : longhands_of (Short sh) = flat_map (fun kp => ld_longhands (snd kp)) (valid_keys sh).
Proof. destruct sh; reflexivity. Qed.
Lemma sim_each_keys sh (g h : comp * prop -> cm unit) : (forall kp, In kp (valid_keys sh) -> sim (ld_longhands (snd kp)) (g kp) (h kp)) ->
  sim (longhands_of (Short sh)) (each g (valid_keys sh)) (each h (valid_keys sh)).
Proof.
  intros H. rewrite short_longhands. assert (G : forall l, incl l (valid_keys sh) -> NoDup (flat_map (fun kp => ld_longhands (snd kp)) l) ->
    sim (flat_map (fun kp => ld_longhands (snd kp)) l) (each g l) (each h l)).
  { induction l as [|kp l IH]; intros I N; [apply sim_same with (r := Ok tt); reflexivity|]. cbn [each flat_map] in *. apply sim_bind; [apply H, I; left; reflexivity| |].
    - apply IH; [intros x X; apply I; right; exact X|]. revert N. clear. induction (ld_longhands (snd kp)) as [|x m IH]; [auto|]. intros N. inversion N; auto.
    - intros q Q1 Q2. clear -N Q1 Q2. induction (ld_longhands (snd kp)) as [|x m IH]; [destruct Q1|]. cbn [app] in N. inversion N; subst. destruct Q1 as [-> |Q1]; [apply H1, in_or_app; auto|auto]. }
  apply G; [apply incl_refl|]. destruct sh as [[]| |]; cbn; repeat (constructor; [cbn; intuition congruence|]); constructor.
Qed.
Definition ptwin (d e : parts) : Prop := forall k, match d k, e k with None, None => True | Some v, Some w => arg v w | _, _ => False end.
Lemma part_kind ch n v x m : plain_choices ch -> (forall f, In f (ch_validators ch) -> f = is_length \/ f = is_color) ->
  validate (ho_set ho) ch n v = Ok (x, m) -> plain_const x \/ (exists u, x = VUnit u) \/ exists o c, x = VColor o c.
Proof.
  intros [P Q] F H. unfold validate in H.
  assert (G : forall y k, first_valid (ch_validators ch) n v = Ok (Some (y, k)) -> plain_const y \/ (exists u, y = VUnit u) \/ exists o c, y = VColor o c).
  { clear H. intros y k. induction (ch_validators ch) as [|f fs IH]; [discriminate|]. cbn [first_valid]. destruct (run_validator f n v) as [[z j]|e] eqn:R.
    - intros E. injection E as -> ->. destruct (F f (or_introl eq_refl)) as [-> | ->]; cbn [run_validator] in R.
      + destruct (as_validation (units v)); [|discriminate]. injection R as <- <-. eauto.
      + unfold color in R. destruct v; try discriminate R.
        * destruct (color_text s) as [[c|key]|e]; cbn in R; [injection R as <- <-; eauto| |destruct (is_value_error e); discriminate].
          injection R as <- <-. unfold named_color. destruct (assoc key NAMED_COLOR) as [[[r g] b]|]; [eauto|left; exact I].
        * injection R as <- <-. eauto.
    - destruct e; try discriminate. intros E. apply IH; [|exact E]. intros f' J. apply F. right. exact J. }
  destruct (first_valid _ n v) as [[[y k]|]|e]; cbn [bindr] in H; [injection H as -> ->; eapply G; reflexivity| |discriminate].
  left. revert H. assert (W : forall u l c, Forall plain_const l -> find_const u l = Some c -> plain_const c).
  { intros u l c. induction 1 as [|z l Z _ IH]; cbn; [discriminate|]. destruct (py_eqb u z); [intros E; injection E as <-; exact Z|exact IH]. }
  cbv zeta. destruct (find_const _ (ho_set ho _)) as [c|] eqn:E; [intros H; injection H as <- <-; exact (W _ _ _ P E)|].
  destruct (find_const _ (ch_defaulting ch)) as [c|] eqn:E'; [intros H; injection H as <- <-; exact (W _ _ _ Q E')|discriminate].
Qed.
Lemma table_part sh k ch n1 n2 v : In (k, ch) (table_of sh) -> b1 <= n1 -> b2 <= n2 -> old v ->
  match validate (ho_set ho) ch n1 v, validate (ho_set ho) ch n2 v with
  | Ok (x, m1), Ok (y, m2) => arg x y /\ n1 <= m1 /\ n2 <= m2
  | Err e, Err f => e = f
  | _, _ => False
  end.
Proof.
  intros I L1 L2 O. assert (P : plain_choices ch /\ forall f, In f (ch_validators ch) -> f = is_length \/ f = is_color).
  { destruct sh; cbn in I; decompose [or] I; try contradiction; match goal with H : (_, _) = (_, _) |- _ => injection H as <- <- end;
      (split; [apply plain_by; vm_compute; repeat constructor|vm_compute; intros f Hf; intuition congruence]). }
  destruct P as [P F]. pose proof (validate_twin ch n1 n2 v P L1 L2 O) as T.
  destruct (validate _ _ n1 v) as [[x m1]|e] eqn:X, (validate _ _ n2 v) as [[y m2]|e'] eqn:Y; cbn [rtwin] in T; try contradiction; [|exact T].
  destruct T as (T & M). split; [|exact M]. destruct T as [u A B|i j c A B|i j h u A B|l m A]; [constructor; split; assumption|constructor; assumption| |];
    (exfalso; destruct (part_kind ch n1 v _ _ P F X) as [K|[[u' K]|(o & c & K)]]; [exact K|discriminate|discriminate]).
Qed.
Lemma parse_part_twin sh v : old v -> forall l, incl l (table_of sh) -> forall n1 n2 d e, b1 <= n1 -> b2 <= n2 -> ptwin d e ->
  match parse_part (ho_set ho) l n1 d v, parse_part (ho_set ho) l n2 e v with
  | Ok (d', m1), Ok (e', m2) => ptwin d' e' /\ n1 <= m1 /\ n2 <= m2
  | Err x, Err y => x = y
  | _, _ => False
  end.
Proof.
  intros O. induction l as [|[k ch] l IH]; intros I n1 n2 d e L1 L2 P; [reflexivity|]. cbn [parse_part].
  pose proof (table_part sh k ch n1 n2 v (I _ (or_introl eq_refl)) L1 L2 O) as T.
  destruct (validate _ ch n1 v) as [[x m1]|x], (validate _ ch n2 v) as [[y m2]|y]; try contradiction.
  - destruct T as (A & M). pose proof (P k) as Pk. destruct (d k), (e k); try contradiction; [reflexivity|]. split; [|exact M]. intros j. unfold set_part. destruct (comp_eqb j k); [exact A|apply P].
  - subst y. destruct (is_value_error x); [|reflexivity]. apply IH; try assumption. intros z Z. apply I. right. exact Z.
Qed.
Lemma parse_parts_twin sh l : Forall old l -> forall room n1 n2 d e, b1 <= n1 -> b2 <= n2 -> ptwin d e ->
  match parse_parts (ho_set ho) (table_of sh) room n1 d l, parse_parts (ho_set ho) (table_of sh) room n2 e l with
  | Ok (d', m1), Ok (e', m2) => ptwin d' e' /\ n1 <= m1 /\ n2 <= m2
  | Err x, Err y => x = y
  | _, _ => False
  end.
Proof.
  induction 1 as [|v l O _ IH]; intros room n1 n2 d e L1 L2 P; (destruct room as [|room]; cbn [parse_parts]); [auto|auto|exact eq_refl|].
  pose proof (parse_part_twin sh v O (table_of sh) (incl_refl _) n1 n2 d e L1 L2 P) as T.
  destruct (parse_part _ _ n1 d v) as [[d' m1]|x], (parse_part _ _ n2 e v) as [[e' m2]|y]; try contradiction; cbn [bindr fst snd]; [|exact T].
  destruct T as (P' & M1 & M2). specialize (IH room m1 m2 d' e' ltac:(lia) ltac:(lia) P').
  destruct (parse_parts _ _ room m1 d' l) as [[]|], (parse_parts _ _ room m2 e' l) as [[]|]; try contradiction; try exact IH. destruct IH as (Q & X & Y). split; [exact Q|lia].
Qed.
Lemma values_old v l : old v -> shorthand_values v = Ok l -> Forall old l.
Proof.
  intros [A B]. unfold shorthand_values. destruct (truthy v); [|discriminate].
  assert (G : forall l, sequence v = Some l -> Forall old l).
  { intros m S. pose proof (existed_seq _ _ _ A S) as X. pose proof (existed_seq _ _ _ B S) as Y. clear -X Y. induction X as [|x m P _ IH]; [constructor|]. inversion Y as [|? ? Y1 Y2]; subst. constructor; [split; assumption|exact (IH Y2)]. }
  destruct v; cbn [sequence] in *; intros E; try discriminate E; try (apply Ok_inj in E; subst l; apply G; reflexivity).
  apply Ok_inj in E. subst l. apply Forall_forall. intros x X. apply in_map_iff in X. destruct X as (y & <- & _). split; exact I.
Qed.
Lemma sim_short sh v : old v -> sim (longhands_of (Short sh)) (set_short ho sh v) (set_short ho sh v).
Proof.
  intros O c1 n1 c2 n2 L1 L2 H1 H2 S. unfold set_short, parse_shorthand.
  destruct (shorthand_values v) as [l|e] eqn:E; cbn [bindr].
  - pose proof (parse_parts_twin sh l (values_old v l O E) 3 n1 n2 no_parts no_parts L1 L2 (fun k => I)) as T.
    destruct (parse_parts _ _ 3 n1 no_parts l) as [[d m1]|x], (parse_parts _ _ 3 n2 no_parts l) as [[d' m2]|y]; try contradiction.
    + destruct T as (P & M1 & M2). rewrite <- (app_nil_r (longhands_of (Short sh))) in *.
      assert (Z : sim (longhands_of (Short sh) ++ []) (each (fun kp => match d (fst kp) with Some w => set_ld ho (snd kp) w | None => del_ld (snd kp) end) (valid_keys sh) ;;c dirty)
        (each (fun kp => match d' (fst kp) with Some w => set_ld ho (snd kp) w | None => del_ld (snd kp) end) (valid_keys sh) ;;c dirty)).
      { apply sim_bind; [|apply sim_dirty|auto]. apply sim_each_keys. intros [k p] _. cbn [fst snd]. specialize (P k). destruct (d k), (d' k); try contradiction; [apply sim_set_ld, P|apply sim_del_ld]. }
      destruct (Z c1 m1 c2 m2) as (e1 & k1 & e2 & k2 & r & f & F1 & F2 & G1 & G2 & R); try assumption; try lia. exists e1, k1, e2, k2, r, f. split; [exact F1|]. split; [exact F2|]. split; [lia|]. split; [lia|]. exact R.
    + subst y. apply (sim_same _ (fun c n => (c, n, _)) (fun c n => (c, n, _)) _ (fun c n => eq_refl) (fun c n => eq_refl)); assumption.
  - apply (sim_same _ (fun c n => (c, n, _)) (fun c n => (c, n, _)) _ (fun c n => eq_refl) (fun c n => eq_refl)); assumption.
Qed.
Lemma sim_del_short sh : sim (longhands_of (Short sh)) (del_short sh) (del_short sh).
Proof.
  unfold del_short. apply sim_each_keys. intros kp _. apply sim_swallow. rewrite <- (app_nil_r (ld_longhands _)). apply sim_bind; [apply sim_del_ld|apply sim_dirty|auto].
Qed.
Lemma sim_item p name v : names_prop name p -> old v -> sim (longhands_of p) (update_item ho (name, v)) (update_item ho (name, v)).
Proof.
  intros N O. unfold update_item. cbn [fst snd]. rewrite underscored_with, N, <- prop_name_python, (proj1 (prop_names p)).
  destruct (match v with VNone => true | _ => false end) eqn:E.
  - destruct v; try discriminate. destruct p; [apply sim_del|apply sim_del_dir|apply sim_del_short].
  - assert (X : sim (longhands_of p) (set_prop ho p v) (set_prop ho p v)). { destruct p; [apply sim_set; constructor; exact O|apply sim_set_dir; constructor; exact O|apply sim_short, O]. }
    destruct v; try discriminate; exact X.
Qed.
End Twins.

(** *** Whole updates *)
Lemma item_sym v w : same_item_contents v w -> same_item_contents w v. Proof. intros []; constructor. Qed.
Lemma item_trans u v w : same_item_contents u v -> same_item_contents v w -> same_item_contents u w.
Proof. intros [x|o o' x] H; [exact H|]. inversion H; subst; constructor. Qed.
Lemma contents_sym v w : same_contents v w -> same_contents w v.
Proof. intros []; constructor. induction H; constructor; auto. apply item_sym; assumption. Qed.
Lemma items_trans l : forall m k, Forall2 same_item_contents l m -> Forall2 same_item_contents m k -> Forall2 same_item_contents l k.
Proof. induction l as [|x l IH]; intros m k H K; inversion H; subst; inversion K; subst; constructor; [eapply item_trans; eassumption|eapply IH; eassumption]. Qed.
Lemma items_refl l : Forall2 same_item_contents l l.
Proof. induction l; constructor; [constructor|assumption]. Qed.
Lemma contents_trans u v w : same_contents u v -> same_contents v w -> same_contents u w.
Proof.
  intros [x|o o' c|o o' h x|l m F] H; [exact H| | |]; inversion H; subst; constructor; try exact F.
  eapply items_trans; eassumption.
Qed.
Definition osame (x y : option pyval) : Prop := match x, y with None, None => True | Some v, Some w => same_contents v w | _, _ => False end.
Lemma osame_trans x y z : osame x y -> osame y z -> osame x z.
Proof. destruct x, y, z; cbn; try tauto. apply contents_trans. Qed.
Lemma osame_sym x y : osame x y -> osame y x.
Proof. destruct x, y; cbn; try tauto. apply contents_sym. Qed.
Lemma osame_refl x : osame x x.
Proof. destruct x; cbn; [constructor|exact I]. Qed.
Lemma same_text v w s : same_contents v w -> py_eqb v (VStr s) = py_eqb w (VStr s).
Proof. intros []; reflexivity. Qed.
Lemma same_get ho a b q : valid_order ho -> (forall q, osame (c_store a q) (c_store b q)) ->
  match get_long ho a q, get_long ho b q with Ok v, Ok w => same_contents v w | Err e, Err f => e = f | _, _ => False end.
Proof.
  intros V S. assert (P : forall p, same_contents (plain_get ho a p) (plain_get ho b p)).
  { intros p. unfold plain_get, stored_or_initial. specialize (S p). destruct (c_store a p), (c_store b p); cbn in S; try contradiction; [exact S|]. destruct (initial_of ho p); constructor. }
  assert (I : match initial_value ho a (initial_of ho q), initial_value ho b (initial_of ho q) with Ok v, Ok w => same_contents v w | Err e, Err f => e = f | _, _ => False end).
  { destruct (initial_of ho q); cbn [initial_value]; [constructor|apply P|]. rewrite !(same_text _ _ _ (P L_direction)). destruct (py_eqb _ _); [constructor|]. destruct (py_eqb _ _); [constructor|reflexivity]. }
  unfold get_long. destruct (initial_value ho a _) as [v|], (initial_value ho b _) as [w|]; cbn [bindr]; try contradiction; [|exact I].
  specialize (S q). destruct (c_store a q), (c_store b q); cbn in S; try contradiction; [exact S|exact I].
Qed.
Lemma same_readings ho a b p : valid_order ho -> (forall q, osame (c_store a q) (c_store b q)) -> read_same (get_prop ho a p) (get_prop ho b p).
Proof.
  intros V S. destruct p as [q|d|sh]; cbn [get_prop].
  - pose proof (same_get ho a b q V S) as G. destruct (get_long ho a q), (get_long ho b q); cbn [bindr]; try contradiction; [constructor; exact G|exact G].
  - unfold get_dir, sides. cbn [map_res].
    repeat match goal with |- context [get_long ho a ?q] => pose proof (same_get ho a b q V S); destruct (get_long ho a q), (get_long ho b q); cbn [bindr]; try contradiction; try assumption end.
    constructor. repeat constructor; assumption.
  - cbn [read_same]. constructor. unfold get_short. induction (valid_keys sh) as [|[k [q|d|s]] l IH]; cbn [flat_map snd app]; [constructor| |exact IH|exact IH].
    apply Forall2_app; [|exact IH]. specialize (S q). destruct (c_store a q), (c_store b q); cbn in S; try contradiction; repeat constructor. exact S.
Qed.

Section Update.
Context (ho : hash_order) (V : valid_order ho) (c0 : css) (n0 : nat) (N0 : first_free <= n0).
Context (O0 : forall q v, c_store c0 q = Some v -> existed n0 v).
Definition longs (x : string * pyval) : list longhand := match prop_of_name (underscored (fst x)) with Some p => longhands_of p | None => [] end.
Definition clean : css := mkCss (c_store c0) (Some (Some false)).
Definition ref (x : string * pyval) : css * nat * res unit := update_item ho x clean n0.
Definition ref_ok (x : string * pyval) : Prop := snd (ref x) = Ok tt.
Definition ref_dirty (x : string * pyval) : bool := match c_node (fst (fst (ref x))) with Some (Some true) => true | _ => false end.
Lemma name_found name p : prop_of_name (underscored name) = Some p -> names_prop name p.
Proof.
  unfold prop_of_name. intros H. pose proof (find_prop_spec all_props (underscored name)) as F. rewrite H in F. destruct F as [_ F]. unfold names_prop. rewrite <- underscored_with, <- prop_name_python. congruence.
Qed.
Lemma step x c n : existed n0 (snd x) -> n0 <= n -> has_layout c -> (forall q, In q (longs x) -> c_store c q = c_store c0 q) ->
  exists c' n' , update_item ho x c n = (c', n', snd (ref x)) /\ n <= n'
    /\ (forall q, In q (longs x) -> osame (c_store (fst (fst (ref x))) q) (c_store c' q))
    /\ (forall q, ~ In q (longs x) -> c_store c' q = c_store c q) /\ c_node c' = bump (ref_dirty x) (c_node c).
Proof.
  intros E L H S. destruct x as [name v]. cbn [snd] in E. unfold longs in S |- *. cbn [fst] in S |- *. destruct (prop_of_name (underscored name)) as [p|] eqn:P.
  - apply name_found in P. destruct (sim_item ho V n0 n0 N0 N0 p name v P (conj E E) clean n0 c n) as (c1 & m1 & c2 & m2 & r & f & E1 & E2 & M1 & M2 & T & U & D1 & D2); [lia|exact L|discriminate|exact H| |].
    { intros q I. cbn [c_store clean]. rewrite (S q I). split; [reflexivity|]. destruct (c_store c0 q) as [u|] eqn:Q; [|exact Logic.I]. split; exact (O0 q u Q). }
    unfold ref_dirty, ref. rewrite E1. cbn [fst snd]. exists c2, m2. split; [exact E2|]. split; [exact M2|]. split; [|split].
    + intros q I. specialize (T q I). destruct (c_store c1 q), (c_store c2 q); cbn in T |- *; try contradiction; [apply twin_contents in T; exact T|exact Logic.I].
    + intros q I. apply U, I.
    + rewrite D1, D2. cbn [clean c_node bump]. rewrite orb_false_r. destruct f; reflexivity.
  - exists c, n. unfold ref_dirty, ref, update_item. cbn [fst snd]. rewrite P. unfold raise. cbn [fst snd clean c_node]. rewrite bump_false. repeat split; auto. intros q [].
Qed.
Lemma run l : Forall (fun x => existed n0 (snd x)) l -> ForallOrdPairs apart l -> forall c n, n0 <= n -> has_layout c ->
  (forall x q, In x l -> In q (longs x) -> c_store c q = c_store c0 q) ->
  (Forall ref_ok l -> exists c' n', update ho l c n = (c', n', Ok tt)
     /\ (forall x q, In x l -> In q (longs x) -> osame (c_store (fst (fst (ref x))) q) (c_store c' q))
     /\ (forall q, (forall x, In x l -> ~ In q (longs x)) -> c_store c' q = c_store c q)
     /\ c_node c' = bump (existsb ref_dirty l) (c_node c))
  /\ (~ Forall ref_ok l -> exists c' n' e, update ho l c n = (c', n', Err e)).
Proof.
  induction l as [|x l IH]; intros EX AP c n L H S.
  - split; [|intros X; destruct X; constructor]. intros _. exists c, n. split; [reflexivity|]. split; [intros x q []|]. split; [auto|]. cbn. rewrite bump_false. reflexivity.
  - inversion EX as [|? ? E EX']; subst. inversion AP as [|? ? A AP']; subst. destruct (step x c n E L H (fun q I => S x q (or_introl eq_refl) I)) as (c1 & n1 & U & M & T & O & D).
    assert (DJ : forall y q, In y l -> In q (longs y) -> ~ In q (longs x)).
    { intros y q Y Q X. rewrite Forall_forall in A. specialize (A y Y). unfold longs in Q, X. destruct (prop_of_name (underscored (fst y))) as [py|] eqn:PY; [|destruct Q].
      destruct (prop_of_name (underscored (fst x))) as [px|] eqn:PX; [|destruct X]. exact (A px py (name_found _ _ PX) (name_found _ _ PY) q X Q). }
    cbn [update each]. unfold bind. rewrite U. destruct (snd (ref x)) as [[]|e] eqn:RX.
    + destruct (IH EX' AP' c1 n1) as [G B]; [lia|exact (bump_layout _ _ _ D H)| |].
      { intros y q Y Q. rewrite O by (exact (DJ y q Y Q)). apply (S y q); [right; exact Y|exact Q]. }
      split.
      * intros F. inversion F as [|? ? _ F']; subst. destruct (G F') as (c' & n' & U' & T' & O' & D'). exists c', n'. split; [exact U'|]. split; [|split].
        -- intros y q [<- |Y] Q; [|exact (T' y q Y Q)]. rewrite O' by (intros y Y Q'; exact (DJ y q Y Q' Q)). exact (T q Q).
        -- intros q N. rewrite O' by (intros y Y; apply N; right; exact Y). apply O, N. left. reflexivity.
        -- rewrite D', D, bump_bump. cbn [existsb]. rewrite orb_comm. reflexivity.
      * intros F. apply B. intros F'. apply F. constructor; [exact RX|exact F'].
    + split; [|intros _; eauto]. intros F. inversion F as [|? ? K _]; subst. unfold ref_ok in K. congruence.
Qed.
End Update.
Lemma apart_sym x y : apart x y -> apart y x.
Proof. intros A p q P Q l I J. exact (A q p Q P l J I). Qed.
Lemma apart_perm l m : Permutation l m -> ForallOrdPairs apart l -> ForallOrdPairs apart m.
Proof.
  induction 1 as [|x l m P IH|x y l|l m k P1 IH1 P2 IH2]; intros A; [exact A| | |auto].
  - inversion A; subst. constructor; [eapply Permutation_Forall; eassumption|auto].
  - inversion A as [|? ? B C]; subst. inversion B; subst. inversion C; subst. repeat constructor; try assumption. apply apart_sym; assumption.
Qed.
Lemma existsb_perm {A} (f : A -> bool) l m : Permutation l m -> existsb f l = existsb f m.
Proof. induction 1; cbn; [reflexivity|congruence|destruct (f x), (f y); reflexivity|congruence]. Qed.
Theorem C146_any_order : forall ho c n l l', valid_order ho -> has_layout c -> first_free <= n ->
  (forall q v, c_store c q = Some v -> existed n v) -> Forall (fun x => existed n (snd x)) l ->
  ForallOrdPairs apart l -> Permutation l l' ->
  match update ho l c n, update ho l' c n with
  | (a, _, Ok _), (b, _, Ok _) => (forall p, read_same (get_prop ho a p) (get_prop ho b p)) /\ keys ho a = keys ho b /\ c_node a = c_node b
  | (_, _, Err _), (_, _, Err _) => True
  | _, _ => False
  end.
Proof.
  intros ho c n l l' V H N O E A P.
  pose proof (run ho V c n N O l E A c n (le_n _) H (fun x q _ _ => eq_refl)) as [G B].
  pose proof (run ho V c n N O l' (Permutation_Forall P E) (apart_perm _ _ P A) c n (le_n _) H (fun x q _ _ => eq_refl)) as [G' B'].
  assert (D : Forall (ref_ok ho c n) l \/ ~ Forall (ref_ok ho c n) l).
  { clear. induction l as [|x l [F|F]]; [left; constructor| |right; intros K; inversion K; auto]. unfold ref_ok at 1. destruct (snd (ref ho c n x)) as [[]|e] eqn:R; [left; constructor; assumption|].
    right. intros K. inversion K as [|? ? K' _]; subst. unfold ref_ok in K'. congruence. }
  destruct D as [F|F].
  - destruct (G F) as (a & na & -> & T & U & D). destruct (G' (Permutation_Forall P F)) as (b & nb & -> & T' & U' & D').
    assert (S : forall q, osame (c_store a q) (c_store b q)).
    { intros q. assert (X : (exists x, In x l /\ In q (longs x)) \/ forall x, In x l -> ~ In q (longs x)).
      { clear. induction l as [|x l [(y & Y & Q)|N]]; [right; intros x []|left; exists y; split; [right; exact Y|exact Q]|].
        destruct (in_dec longhand_eq_dec q (longs x)) as [I|I]; [left; exists x; split; [left; reflexivity|exact I]|right; intros y [<- |Y]; auto]. }
      destruct X as [(x & X & Q)|X].
      - eapply osame_trans; [apply osame_sym, (T x q X Q)|]. apply (T' x q); [eapply Permutation_in; eassumption|exact Q].
      - rewrite (U q X), U'; [apply osame_refl|]. intros x I. apply X. eapply Permutation_in; [apply Permutation_sym; exact P|exact I]. }
    split; [intros p; apply same_readings; assumption|]. split.
    + unfold keys. clear -S. induction (ho_names ho) as [|p m IH]; [reflexivity|]. cbn [flat_map]. rewrite IH. f_equal. destruct p as [q| |]; try reflexivity. cbn [stored_attr]. specialize (S q).
      destruct (c_store a q), (c_store b q); cbn in S; try contradiction; reflexivity.
    + rewrite D, D'. f_equal. apply existsb_perm, P.
  - destruct (B F) as (a & na & e & ->). destruct B' as (b & nb & e' & ->); [|exact I]. intros K. apply F. eapply Permutation_Forall; [apply Permutation_sym; exact P|exact K].
Qed.
Print Assumptions C146_any_order.
Theorem C146_construct : forall ho n l l', valid_order ho -> first_free <= n ->
  Forall (fun x => existed n (snd x)) l -> ForallOrdPairs apart l -> Permutation l l' ->
  match construct ho l n, construct ho l' n with
  | (a, _, Ok _), (b, _, Ok _) => (forall p, read_same (get_prop ho a p) (get_prop ho b p)) /\ keys ho a = keys ho b
  | (_, _, Err _), (_, _, Err _) => True
  | _, _ => False
  end.
Proof.
  intros ho n l l' V N E A P. unfold construct. pose proof (C146_any_order ho fresh_css n l l' V) as H.
  destruct (update ho l fresh_css n) as [[a na] [|]], (update ho l' fresh_css n) as [[b nb] [|]]; try (apply H; auto; discriminate).
  split; apply H; auto; discriminate.
Qed.
Print Assumptions C146_construct.
(** A colour, a border colour and a margin shorthand, given in two orders, to a
    declaration which already has a text colour. *)
Definition given : list (string * pyval) := [("color", VStr "#FF0000"); ("margin", VTuple [VInt 1; VInt 2]); ("border-top-color", VStr "#0000FF"); ("text_align", VStr "right")].
Definition given' : list (string * pyval) := [("text_align", VStr "right"); ("border-top-color", VStr "#0000FF"); ("color", VStr "#FF0000"); ("margin", VTuple [VInt 1; VInt 2])].
Definition apartb (x y : string * pyval) : bool :=
  forallb (fun l => negb (existsb (fun k => if longhand_eq_dec l k then true else false) (longs y))) (longs x).
Lemma apartb_ok x y : apartb x y = true -> apart x y.
Proof.
  intros H p q P Q l I J. assert (EP : forall z r, names_prop (fst z) r -> longs z = longhands_of r).
  { intros z r R. unfold longs. rewrite underscored_with. unfold names_prop in R. rewrite R, <- prop_name_python, (proj1 (prop_names r)). reflexivity. }
  unfold apartb in H. rewrite (EP x p P), (EP y q Q) in H. rewrite forallb_forall in H. specialize (H l I). apply negb_true_iff in H.
  assert (X : existsb (fun k => if longhand_eq_dec l k then true else false) (longhands_of q) = true); [|congruence].
  apply existsb_exists. exists l. split; [exact J|]. destruct (longhand_eq_dec l l); congruence.
Qed.
Example C146_example :
  (has_layout sample /\ first_free <= sample_n /\ (forall q v, c_store sample q = Some v -> existed sample_n v))
  /\ Forall (fun x => existed sample_n (snd x)) given /\ ForallOrdPairs apart given /\ Permutation given given'
  /\ snd (update plain_order given sample sample_n) = Ok tt
  /\ c_store (fst (fst (update plain_order given sample sample_n))) L_color <> c_store (fst (fst (update plain_order given' sample sample_n))) L_color.
Proof.
  split; [|split; [|split; [|split; [|split]]]].
  - split; [vm_compute; discriminate|]. split; [vm_compute; lia|]. intros q v. destruct q as [[]|[]|[]|[]|[]| | |[]| | | | | | | | | | | | | | | | | | | | | | | | | | | | | | | | | | | | | | ]; vm_compute; intros E; try discriminate; injection E as <-; cbn; try exact Logic.I; try lia.
  - repeat constructor; exact Logic.I.
  - repeat constructor; apply apartb_ok; vm_compute; reflexivity.
  - unfold given, given'. eapply perm_trans; [|apply perm_trans with (l' := [("text_align", VStr "right"); ("color", VStr "#FF0000"); ("margin", VTuple [VInt 1; VInt 2]); ("border-top-color", VStr "#0000FF")])].
    + eapply perm_trans; [apply Permutation_app_comm with (l := [("color", VStr "#FF0000"); ("margin", VTuple [VInt 1; VInt 2]); ("border-top-color", VStr "#0000FF")]) (l' := [("text_align", VStr "right")])|]. reflexivity.
    + constructor. apply Permutation_refl.
    + constructor. apply Permutation_app_comm with (l := [("color", VStr "#FF0000"); ("margin", VTuple [VInt 1; VInt 2])]) (l' := [("border-top-color", VStr "#0000FF")]).
  - vm_compute. reflexivity.
  - vm_compute. discriminate.
Qed.
