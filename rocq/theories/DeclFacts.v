(** * Facts about declarations *)
From Coq Require Import ZArith QArith Qcanon Bool String Ascii List Permutation Lia.
From Verif Require Import PyNum NumFacts Units Float64 PyStr Colors Values Parser Choices Shorthand Decl DeclSpec.
Import ListNotations.
Open Scope string_scope.

(** ** Maps *)
Lemma lh_eqb_refl p : lh_eqb p p = true.
Proof. unfold lh_eqb. destruct (longhand_eq_dec p p); congruence. Qed.
Lemma lh_eqb_neq p q : p <> q -> lh_eqb p q = false.
Proof. unfold lh_eqb. destruct (longhand_eq_dec p q); congruence. Qed.
Lemma lh_eqb_eq p q : lh_eqb p q = true -> p = q.
Proof. unfold lh_eqb. destruct (longhand_eq_dec p q); congruence. Qed.
Lemma store_same c p v : c_store (set_store c p v) p = v.
Proof. cbn. rewrite lh_eqb_refl. reflexivity. Qed.
Lemma store_other c p v q : q <> p -> c_store (set_store c p v) q = c_store c q.
Proof. intros H. cbn. rewrite lh_eqb_neq by assumption. reflexivity. Qed.

(** ** Equality *)
Lemma xeqb_spec x y : xeqb x y = true <-> same_number x y.
Proof.
  unfold same_number. destruct x as [x|s|], y as [y|t|]; cbn; split; try discriminate; try (intros [E _]; discriminate).
  - intros E. split; [f_equal; apply Qc_eq_bool_correct, E|discriminate].
  - intros [E _]. injection E as <-. unfold qc_eqb, Qc_eq_bool. destruct (Qc_eq_dec x x); congruence.
  - intros E. split; [f_equal; apply eqb_prop, E|discriminate].
  - intros [E _]. injection E as <-. apply eqb_reflx.
  - intros [_ E]. congruence.
Qed.
Lemma u_eqb_spec u v : u_eqb u v = true <-> same_length u v.
Proof.
  unfold u_eqb, same_length, py_num_eqb. destruct (u_kind u), (u_kind v); cbv zeta;
    rewrite ?andb_true_iff, ?xeqb_spec, ?String.eqb_eq;
    (split; [try discriminate; intuition (subst; constructor) | intros [S N]; inversion S; subst; tauto]).
Qed.
Lemma u_eq_int_spec u z : u_eq_int u z = true <-> u_kind u = KPx /\ pval (u_val u) = Fin (Z2Qc z).
Proof.
  unfold u_eq_int, py_num_eqb. destruct (u_kind u); try (split; [discriminate|intros [E _]; discriminate]).
  rewrite xeqb_spec. unfold same_number. cbn [pval]. split; [intuition congruence|]. intros [_ ->]. split; [reflexivity|discriminate].
Qed.
Lemma oid_eqb_spec a b : oid_eqb a b = true <-> a = b.
Proof.
  destruct a as [s|n], b as [t|m]; cbn; try (split; discriminate).
  - rewrite String.eqb_eq. split; congruence.
  - rewrite Nat.eqb_eq. split; congruence.
Qed.
Lemma eq_pairs_spec l : forall m, eq_pairs l m = true <-> l = m.
Proof.
  induction l as [|[a b] l IH]; intros [|[c d] m]; cbn; try (split; [discriminate|discriminate]); [split; reflexivity|].
  rewrite !andb_true_iff, !String.eqb_eq, IH. split; [intros [[-> ->] ->]; reflexivity|]. intros E. injection E as <- <- <-. auto.
Qed.
Section ValueInd.
Variables (P : pyval -> Prop) (Ht : forall l, Forall P l -> P (VTuple l)) (Hl : forall l, Forall P l -> P (VList l)) (Hc : forall l, Forall P l -> P (VCursor l))
  (Ho : forall v, (forall l, v <> VTuple l) -> (forall l, v <> VList l) -> (forall l, v <> VCursor l) -> P v).
Fixpoint value_ind (v : pyval) : P v :=
  let all := fix all (l : list pyval) : Forall P l := match l with [] => Forall_nil _ | x :: r => Forall_cons x (value_ind x) (all r) end in
  match v with
  | VTuple l => Ht l (all l)
  | VList l => Hl l (all l)
  | VCursor l => Hc l (all l)
  | _ => ltac:(apply Ho; discriminate)
  end.
End ValueInd.
Lemma equals_inv a b : equals a b ->
  match a, b with
  | VNone, VNone | VDefault, VDefault => True
  | VInt x, VInt y => x = y
  | VInt x, VFloat y => same_number (Fin (Z2Qc x)) y
  | VFloat x, VInt y => same_number x (Fin (Z2Qc y))
  | VFloat x, VFloat y => same_number x y
  | VStr s, VStr t => s = t
  | VUnit u, VUnit v => same_length u v
  | VUnit u, VInt z | VInt z, VUnit u => u_kind u = KPx /\ pval (u_val u) = Fin (Z2Qc z)
  | VColor o _, VColor p _ => o = p
  | VTuple l, VTuple m => Forall2 equals l m
  | VList l, VList m | VList l, VCursor m | VCursor l, VList m | VCursor l, VCursor m => Forall2 equals l m
  | VSpacing o _ _, VSpacing p _ _ => o = p
  | VRect t r l b, VRect t' r' l' b' => same_length t t' /\ same_length r r' /\ same_length l l' /\ same_length b b'
  | VQuotes l, VQuotes m => l = m
  | VUri o _, VUri p _ => o = p
  | VObject o, VObject p => o = p
  | _, _ => False
  end.
Proof.
  intros E. destruct E as [|? ? ? ? N M S| | | | | | |? ? ? ? N M F| | | | | |]; try exact I; try reflexivity; try assumption; try tauto; auto.
  - destruct N, M; try assumption. destruct S as [S _]. apply Z2Qc_inj. congruence.
  - destruct N, M; assumption.
Qed.
Lemma py_eqb_spec : forall a b, py_eqb a b = true <-> equals a b.
Proof.
  assert (L : forall l, Forall (fun x => forall b, py_eqb x b = true <-> equals x b) l -> forall m, eq_list py_eqb l m = true <-> Forall2 equals l m).
  { induction 1 as [|x l X _ IH]; intros [|y m]; cbn; try (split; [discriminate|intros F; inversion F]); [split; constructor|].
    rewrite andb_true_iff, X, IH. split; [intros [A B]; constructor; assumption|]. intros F. inversion F; subst. auto. }
  assert (NM : forall a b x y, number a x -> number b y -> same_number x y -> equals a b) by (intros; eapply eq_number; eassumption).
  assert (LS : forall a b l m, is_list a l -> is_list b m -> Forall2 equals l m -> equals a b) by (intros; eapply eq_lists; eassumption).
  induction a as [l H|l H|l H|a HT HL HC] using value_ind; intros b.
  - destruct b; cbn [py_eqb]; try (split; [discriminate|intros E; destruct (equals_inv _ _ E)]).
    rewrite (L l H). split; [apply eq_tuple|]. apply equals_inv.
  - destruct b; cbn [py_eqb]; try (split; [discriminate|intros E; destruct (equals_inv _ _ E)]);
    rewrite (L l H); (split; [apply LS; constructor|]); intros E; exact (equals_inv _ _ E).
  - destruct b; cbn [py_eqb]; try (split; [discriminate|intros E; destruct (equals_inv _ _ E)]);
    rewrite (L l H); (split; [apply LS; constructor|]); intros E; exact (equals_inv _ _ E).
  - clear L. destruct a; try (destruct (HT _ eq_refl)); try (destruct (HL _ eq_refl)); try (destruct (HC _ eq_refl)); clear HT HL HC;
    destruct b; cbn [py_eqb]; try (split; [discriminate|intros E; destruct (equals_inv _ _ E)]);
    rewrite ?xeqb_spec, ?u_eqb_spec, ?u_eq_int_spec, ?oid_eqb_spec, ?String.eqb_eq, ?eq_pairs_spec, ?Z.eqb_eq, ?andb_true_iff, ?u_eqb_spec;
    (split; [intros E|intros E; apply equals_inv in E; try tauto; auto]); try (subst; constructor; tauto).
    + subst. eapply NM; [constructor|constructor|split; [reflexivity|discriminate]].
    + eapply NM; [constructor|constructor|exact E].
    + eapply NM; [constructor|constructor|exact E].
    + eapply NM; [constructor|constructor|exact E].
Qed.
(** ** Constants of the choices *)
Definition const_ok (c : pyval) : Prop := c = VNone \/ (exists s, c = VStr s) \/ c = VDefault.
Lemma const_eq v c : const_ok c -> py_eqb v c = true -> v = c.
Proof.
  intros [->|[[s ->]| ->]]; destruct v; cbn; try discriminate; try reflexivity. intros E. apply String.eqb_eq in E. congruence.
Qed.
Lemma const_refl c : const_ok c -> py_eqb c c = true.
Proof. intros [->|[[s ->]| ->]]; cbn; auto using String.eqb_refl. Qed.
Lemma find_const_some v l c : Forall const_ok l -> find_const v l = Some c -> c = v /\ In v l.
Proof.
  induction 1 as [|x l X _ IH]; cbn; [discriminate|]. destruct (py_eqb v x) eqn:E.
  - intros Q. injection Q as <-. apply (const_eq _ _ X) in E. subst. auto.
  - intros Q. destruct (IH Q). auto.
Qed.
Lemma find_const_in v l : Forall const_ok l -> In v l -> find_const v l = Some v.
Proof.
  induction 1 as [|x l X F IH]; cbn; [tauto|]. intros [->|I]; [rewrite (const_refl _ X); reflexivity|].
  destruct (py_eqb v x) eqn:E; [|auto]. apply (const_eq _ _ X) in E. congruence.
Qed.
Lemma find_const_perm v l m : Forall const_ok l -> Permutation l m -> find_const v l = find_const v m.
Proof.
  intros F P. assert (F' : Forall const_ok m) by (eapply Permutation_Forall; eassumption).
  destruct (find_const v l) as [c|] eqn:E.
  - apply find_const_some in E; [|assumption]. destruct E as [-> I]. symmetry. apply find_const_in; [assumption|].
    eapply Permutation_in; eassumption.
  - destruct (find_const v m) as [c|] eqn:E'; [|reflexivity]. apply find_const_some in E'; [|assumption]. destruct E' as [-> I].
    rewrite (find_const_in v l) in E; [discriminate|assumption|]. eapply Permutation_in; [apply Permutation_sym|]; eassumption.
Qed.

Definition choices_ok (ch : choices) : Prop := Forall const_ok (ch_constants ch) /\ Forall const_ok (ch_defaulting ch).
Ltac consts := repeat (apply Forall_cons; [unfold const_ok; first [left; reflexivity|right; left; eexists; reflexivity|right; right; reflexivity]|]); apply Forall_nil.
Lemma choices_of_ok p : choices_ok (choices_of p).
Proof. destruct p; split; cbn; consts. Qed.
Lemma border_table_ok k ch : In (k, ch) border_table -> choices_ok ch.
Proof. cbn. intuition; match goal with H : (_, _) = _ |- _ => injection H as <- <- end; split; cbn; consts. Qed.
Lemma outline_table_ok k ch : In (k, ch) outline_table -> choices_ok ch.
Proof. cbn. intuition; match goal with H : (_, _) = _ |- _ => injection H as <- <- end; split; cbn; consts. Qed.

Lemma validate_order o1 o2 ch n v : choices_ok ch -> (forall l, Permutation l (o1 l)) -> (forall l, Permutation l (o2 l)) ->
  validate o1 ch n v = validate o2 ch n v.
Proof.
  intros [C _] P1 P2. unfold validate. destruct (first_valid _ n v) as [[x|]|]; cbn; try reflexivity.
  rewrite <- (find_const_perm _ _ _ C (P1 (ch_constants ch))), <- (find_const_perm _ _ _ C (P2 (ch_constants ch))). reflexivity.
Qed.

(** The result of a validation: from a validator, or the constant given. *)
Lemma validate_inv o ch n v w n' : choices_ok ch -> (forall l, Permutation l (o l)) -> validate o ch n v = Ok (w, n') ->
  (exists f, In f (ch_validators ch) /\ run_validator f n v = Ok (w, n'))
  \/ (n' = n /\ first_valid (ch_validators ch) n v = Ok None
      /\ w = (if py_eqb v (VStr "none") then VNone else v) /\ (In w (ch_constants ch) \/ In w (ch_defaulting ch))).
Proof.
  intros [C D] P H. unfold validate in H. destruct (first_valid _ n v) as [[x|]|] eqn:F; cbn [bindr] in H; [| |discriminate].
  - injection H as ->. left. clear -F. induction (ch_validators ch) as [|f r IH]; cbn in F; [discriminate|].
    destruct (run_validator f n v) as [y|e] eqn:R; [injection F as ->; exists f; cbn; auto|].
    destruct e; try discriminate. destruct (IH F) as (g & G1 & G2). exists g. cbn. auto.
  - right. cbv zeta in H. set (v' := if py_eqb v (VStr "none") then VNone else v) in *.
    destruct (find_const v' (o (ch_constants ch))) as [c|] eqn:E.
    + injection H as <- <-. apply find_const_some in E; [|eapply Permutation_Forall; [apply P|exact C]]. destruct E as [-> E].
      repeat split; auto. left. eapply Permutation_in; [apply Permutation_sym, P|exact E].
    + destruct (find_const v' (ch_defaulting ch)) as [c|] eqn:E2; [|discriminate]. injection H as <- <-.
      apply find_const_some in E2; [|exact D]. destruct E2 as [-> E2]. auto.
Qed.

(** ** dirty *)
Lemma mark_dirty_store c : c_store (fst (mark_dirty c)) = c_store c.
Proof. unfold mark_dirty. destruct (c_node c) as [[d|]|]; reflexivity. Qed.
Lemma mark_dirty_ok c : has_layout c -> snd (mark_dirty c) = Ok tt.
Proof. unfold mark_dirty, has_layout. destruct (c_node c) as [[d|]|]; cbn; congruence. Qed.
Lemma mark_dirty_node c : c_node (fst (mark_dirty c)) = match c_node c with Some (Some _) => Some (Some true) | x => x end.
Proof. unfold mark_dirty. destruct (c_node c) as [[d|]|] eqn:E; cbn; congruence. Qed.
Lemma mark_dirty_layout c : has_layout c -> has_layout (fst (mark_dirty c)).
Proof. unfold has_layout. rewrite mark_dirty_node. destruct (c_node c) as [[d|]|]; congruence. Qed.
Lemma set_store_layout c p v : has_layout c -> has_layout (set_store c p v).
Proof. exact (fun H => H). Qed.

(** ** Longhand setter and deleter *)
Section Order.
Variable ho : hash_order.

Lemma set_long_eq p v c n : set_long ho p v c n =
  match validate (ho_set ho) (choices_of p) n v with
  | Err e => (c, n, Err (if is_value_error e then ValueError else e))
  | Ok (w, n') =>
      if same_value w (stored_or_initial ho c p) then (c, n', Ok tt)
      else (fst (mark_dirty (set_store c p (Some w))), n', snd (mark_dirty (set_store c p (Some w))))
  end.
Proof.
  unfold set_long, dirty. destruct (validate _ _ _ _) as [[w n']|e]; [|reflexivity]. destruct (same_value _ _); [reflexivity|].
  destruct (mark_dirty _); reflexivity.
Qed.

Lemma set_long_ok p v c n c' n' : set_long ho p v c n = (c', n', Ok tt) ->
  exists w, validate (ho_set ho) (choices_of p) n v = Ok (w, n') /\
    ((same_value w (stored_or_initial ho c p) = true /\ c' = c) \/
     (same_value w (stored_or_initial ho c p) = false /\ c' = fst (mark_dirty (set_store c p (Some w))))).
Proof.
  rewrite set_long_eq. destruct (validate _ _ _ _) as [[w n1]|e]; [|discriminate].
  destruct (same_value w _) eqn:E; intros H.
  - injection H as <- <-. exists w. auto.
  - injection H as <- <- _. exists w. auto.
Qed.

(** what a set may do to the store, whatever the outcome *)
Lemma set_long_store p v c n c' n' r : set_long ho p v c n = (c', n', r) ->
  c' = c \/ exists w, validate (ho_set ho) (choices_of p) n v = Ok (w, n') /\ c' = fst (mark_dirty (set_store c p (Some w))).
Proof.
  rewrite set_long_eq. destruct (validate _ _ _ _) as [[w n1]|e]; [|intros H; injection H as <- _ _; auto].
  destruct (same_value w _) eqn:E; intros H; injection H as <- <- _; eauto.
Qed.
Lemma set_long_other p v c n c' n' r q : set_long ho p v c n = (c', n', r) -> q <> p -> c_store c' q = c_store c q.
Proof.
  intros H N. apply set_long_store in H. destruct H as [->|(w & _ & ->)]; [reflexivity|].
  rewrite mark_dirty_store. apply store_other, N.
Qed.
Lemma set_long_fail p v c n c' n' e : has_layout c -> set_long ho p v c n = (c', n', Err e) -> c' = c /\ n' = n.
Proof.
  intros L. rewrite set_long_eq. destruct (validate _ _ _ _) as [[w n1]|x]; [|intros H; injection H as <- <- _; auto].
  destruct (same_value w _); [discriminate|]. rewrite mark_dirty_ok by exact L. discriminate.
Qed.
Lemma set_long_layout p v c n c' n' r : has_layout c -> set_long ho p v c n = (c', n', r) -> has_layout c'.
Proof.
  intros L H. apply set_long_store in H. destruct H as [->|(w & _ & ->)]; [exact L|]. apply mark_dirty_layout, L.
Qed.

Lemma del_long_eq p c n : del_long p c n =
  match c_store c p with
  | None => (c, n, Ok tt)
  | Some _ => (fst (mark_dirty (set_store c p None)), n, Ok tt)
  end.
Proof.
  unfold del_long, swallow, dirty. destruct (c_store c p); [|reflexivity]. unfold mark_dirty.
  destruct (c_node (set_store c p None)) as [[d|]|]; reflexivity.
Qed.
Lemma del_long_store p c n q : c_store (fst (fst (del_long p c n))) q = if lh_eqb q p then None else c_store c q.
Proof.
  rewrite del_long_eq. destruct (c_store c p) eqn:E; cbn [fst]; [rewrite mark_dirty_store; reflexivity|].
  destruct (lh_eqb q p) eqn:Q; [apply lh_eqb_eq in Q; congruence|reflexivity].
Qed.
Lemma del_long_ok p c n : exists c', del_long p c n = (c', n, Ok tt).
Proof. rewrite del_long_eq. destruct (c_store c p); eauto. Qed.
Lemma del_long_layout p c n : has_layout c -> has_layout (fst (fst (del_long p c n))).
Proof. intros L. rewrite del_long_eq. destruct (c_store c p); [|exact L]. apply mark_dirty_layout, L. Qed.

(** ** Reading *)
Lemma get_long_store a b q : c_store a q = c_store b q ->
  (forall p, follows q p -> c_store a p = c_store b p) -> get_long ho a q = get_long ho b q.
Proof.
  intros E F. unfold get_long. rewrite E.
  assert (I : initial_value ho a (initial_of ho q) = initial_value ho b (initial_of ho q)); [|rewrite I; reflexivity].
  unfold initial_value. destruct (initial_of ho q) eqn:Q; [reflexivity| |].
  - assert (follows q L_color) by (unfold initial_of in Q; destruct q; cbn in Q; try discriminate; try constructor;
      repeat match type of Q with context [match ?x with _ => _ end] => destruct x; try discriminate end).
    unfold plain_get, stored_or_initial. rewrite (F L_color) by assumption. reflexivity.
  - assert (follows q L_direction) by (unfold initial_of in Q; destruct q; cbn in Q; try discriminate; try constructor;
      repeat match type of Q with context [match ?x with _ => _ end] => destruct x; try discriminate end).
    unfold plain_get, stored_or_initial. rewrite (F L_direction) by assumption. reflexivity.
Qed.
Lemma get_prop_store a b p : (forall q, c_store a q = c_store b q) -> get_prop ho a p = get_prop ho b p.
Proof.
  intros E. destruct p as [l|d|s]; cbn [get_prop].
  - rewrite (get_long_store a b l); [reflexivity|apply E|intros; apply E].
  - unfold get_dir. cbn [map_res sides]. rewrite !(get_long_store a b) by (intros; apply E). reflexivity.
  - assert (G : get_short a s = get_short b s); [|rewrite G; reflexivity].
    unfold get_short. apply flat_map_ext. intros [k [l| |]]; cbn; try reflexivity. rewrite E. reflexivity.
Qed.
End Order.

(** ** Invariants of programs *)
Definition keeps {A} (I : css -> Prop) (m : cm A) : Prop := forall c n, I c -> I (fst (fst (m c n))).
Lemma keeps_ret {A} I (a : A) : keeps I (ret a).
Proof. intros c n H. exact H. Qed.
Lemma keeps_raise {A} I e : keeps I (@raise A e).
Proof. intros c n H. exact H. Qed.
Lemma keeps_bind {A B} I (m : cm A) (f : A -> cm B) : keeps I m -> (forall a, keeps I (f a)) -> keeps I (bind m f).
Proof.
  intros M F c n H. unfold bind. specialize (M c n H). destruct (m c n) as [[c' n'] [a|e]]; cbn in M |- *; [|exact M]. apply F, M.
Qed.
Lemma keeps_swallow I m : keeps I m -> keeps I (swallow m).
Proof. intros M c n H. unfold swallow. specialize (M c n H). destruct (m c n) as [[c' n'] [a|[]]]; exact M. Qed.
Lemma keeps_each {A} I (f : A -> cm unit) l : (forall x, In x l -> keeps I (f x)) -> keeps I (each f l).
Proof.
  induction l as [|x l IH]; intros F; cbn; [apply keeps_ret|]. apply keeps_bind; [apply F; cbn; auto|].
  intros _. apply IH. intros. apply F. cbn. auto.
Qed.

Section Inv.
Variable ho : hash_order.
Variable I : css -> Prop.
Hypothesis Hset : forall p v, keeps I (set_long ho p v).
Hypothesis Hdel : forall p, keeps I (del_long p).
Hypothesis Hdirty : keeps I dirty.

Lemma keeps_set_dir d v : keeps I (set_dir ho d v).
Proof.
  assert (S : forall t r b l, keeps I (set_sides ho d t r b l)).
  { intros. unfold set_sides. repeat (apply keeps_bind; [apply Hset|intros _]). apply Hset. }
  unfold set_dir. destruct v; try apply S.
  destruct l as [|a [|b [|c [|e [|f r]]]]]; try apply S; apply keeps_raise.
Qed.
Lemma keeps_del_dir d : keeps I (del_dir d).
Proof. apply keeps_each. intros. apply Hdel. Qed.
Lemma keeps_set_prop p v : keeps I (set_prop ho p v).
Proof.
  destruct p as [l|d|s]; cbn [set_prop]; [apply Hset|apply keeps_set_dir|].
  intros c n H. unfold set_short. destruct (parse_shorthand _ _ _ _) as [[d n']|e]; [|exact H].
  revert H. generalize c n'. change (keeps I (each (fun kp : comp * prop => match d (fst kp) with Some w => set_ld ho (snd kp) w | None => del_ld (snd kp) end) (valid_keys s) ;;c dirty)).
  apply keeps_bind; [|intros _; apply Hdirty]. apply keeps_each. intros [k q] _. cbn [fst snd]. destruct (d k) as [w|].
  - destruct q; cbn; [apply Hset|apply keeps_set_dir|apply keeps_raise].
  - destruct q; cbn; [apply Hdel|apply keeps_del_dir|apply keeps_raise].
Qed.
Lemma keeps_del_prop p : keeps I (del_prop p).
Proof.
  destruct p as [l|d|s]; cbn [del_prop]; [apply Hdel|apply keeps_del_dir|].
  apply keeps_each. intros [k q] _. apply keeps_swallow, keeps_bind; [|intros _; apply Hdirty].
  destruct q; cbn; [apply Hdel|apply keeps_del_dir|apply keeps_raise].
Qed.
Lemma keeps_update l : keeps I (update ho l).
Proof.
  apply keeps_each. intros [name v] _. unfold update_item. cbn [fst snd]. destruct (prop_of_name _) as [p|]; [|apply keeps_raise].
  destruct v; try apply keeps_set_prop. apply keeps_del_prop.
Qed.
Hypothesis Hbind : forall c node, I c -> I (mkCss (c_store c) node).
Lemma keeps_run_op o : keeps I (run_op ho o).
Proof.
  destruct o as [p v|p|l|name v|name|node]; cbn [run_op].
  - apply keeps_set_prop.
  - apply keeps_del_prop.
  - apply keeps_update.
  - unfold setitem. destruct (prop_of_name _); [apply keeps_set_prop|apply keeps_raise].
  - unfold delitem. destruct (prop_of_name _); [apply keeps_swallow, keeps_del_prop|apply keeps_raise].
  - intros c n H. apply Hbind, H.
Qed.
Lemma run_ops_inv l c n : I c -> I (fst (run_ops ho l c n)).
Proof.
  revert c n. induction l as [|o l IH]; intros c n H; cbn [run_ops]; [exact H|].
  pose proof (keeps_run_op o c n H) as K. destruct (run_op ho o c n) as [[c' n'] r]. apply IH, K.
Qed.
End Inv.

(** Every stored value is the result of validating some value. *)
Definition stored_by (P : longhand -> pyval -> Prop) (c : css) : Prop := forall p v, c_store c p = Some v -> P p v.
Lemma stored_by_ops ho (P : longhand -> pyval -> Prop) :
  (forall p n v w n', validate (ho_set ho) (choices_of p) n v = Ok (w, n') -> P p w) ->
  forall l c n, stored_by P c -> stored_by P (fst (run_ops ho l c n)).
Proof.
  intros V. apply (run_ops_inv ho).
  - intros p v c n H. destruct (set_long ho p v c n) as [[c' n'] r] eqn:E. cbn. apply set_long_store in E.
    destruct E as [->|(w & E & ->)]; [exact H|]. intros q x. rewrite mark_dirty_store.
    destruct (longhand_eq_dec q p) as [->|N]; [rewrite store_same; intros Q; injection Q as <-; eapply V, E|].
    rewrite store_other by exact N. apply H.
  - intros p c n H q x. rewrite del_long_store. destruct (lh_eqb q p); [discriminate|apply H].
  - intros c n H q x. unfold dirty. destruct (mark_dirty c) as [c' r] eqn:E. cbn. pose proof (mark_dirty_store c) as M.
    rewrite E in M. cbn in M. rewrite M. apply H.
  - intros c node H. exact H.
Qed.
Lemma stored_by_reachable ho (P : longhand -> pyval -> Prop) c n :
  (forall p m v w m', validate (ho_set ho) (choices_of p) m v = Ok (w, m') -> P p w) ->
  reachable ho c n -> stored_by P c.
Proof.
  intros V [l R]. pose proof (stored_by_ops ho P V l fresh_css first_free) as S. rewrite R in S. apply S. discriminate.
Qed.

(** ** Hash order *)
Lemma plain_valid : valid_order plain_order.
Proof. split; [intros l; apply Permutation_refl|apply Permutation_refl]. Qed.

Section TwoOrders.
Variables h1 h2 : hash_order.
Hypothesis V1 : valid_order h1.
Hypothesis V2 : valid_order h2.

Lemma validate_ho p n v : validate (ho_set h1) (choices_of p) n v = validate (ho_set h2) (choices_of p) n v.
Proof. apply validate_order; [apply choices_of_ok|apply V1|apply V2]. Qed.
Lemma initial_of_ho p : initial_of h1 p = initial_of h2 p.
Proof. unfold initial_of. destruct (written_initial p); try reflexivity. rewrite validate_ho. reflexivity. Qed.
Lemma stored_or_initial_ho c p : stored_or_initial h1 c p = stored_or_initial h2 c p.
Proof. unfold stored_or_initial. rewrite initial_of_ho. reflexivity. Qed.
Lemma plain_get_ho c p : plain_get h1 c p = plain_get h2 c p.
Proof. unfold plain_get. rewrite stored_or_initial_ho. reflexivity. Qed.
Lemma get_long_ho c p : get_long h1 c p = get_long h2 c p.
Proof. unfold get_long, initial_value. rewrite initial_of_ho. rewrite !plain_get_ho. reflexivity. Qed.
Lemma set_long_ho p v c n : set_long h1 p v c n = set_long h2 p v c n.
Proof. unfold set_long. rewrite validate_ho, stored_or_initial_ho. reflexivity. Qed.

Lemma bind_ext {A B} (m1 m2 : cm A) (f1 f2 : A -> cm B) : (forall c n, m1 c n = m2 c n) ->
  (forall a c n, f1 a c n = f2 a c n) -> forall c n, bind m1 f1 c n = bind m2 f2 c n.
Proof. intros M F c n. unfold bind. rewrite M. destruct (m2 c n) as [[c' n'] [a|e]]; [apply F|reflexivity]. Qed.
Lemma each_ext {A} (f g : A -> cm unit) l : (forall x, In x l -> forall c n, f x c n = g x c n) ->
  forall c n, each f l c n = each g l c n.
Proof.
  induction l as [|x l IH]; intros F c n; cbn [each]; [reflexivity|]. apply bind_ext; [apply F; cbn; auto|].
  intros _. apply IH. intros. apply F. cbn. auto.
Qed.
Lemma swallow_ext f g : (forall c n, f c n = g c n) -> forall c n, swallow f c n = swallow g c n.
Proof. intros F c n. unfold swallow. rewrite F. reflexivity. Qed.

Lemma set_sides_ho d t r b l c n : set_sides h1 d t r b l c n = set_sides h2 d t r b l c n.
Proof. unfold set_sides. repeat (apply bind_ext; [intros; apply set_long_ho|intros _; intros]). apply set_long_ho. Qed.
Lemma set_dir_ho d v c n : set_dir h1 d v c n = set_dir h2 d v c n.
Proof.
  unfold set_dir. destruct v; try apply set_sides_ho.
  destruct l as [|x [|y [|z [|w [|u r]]]]]; try apply set_sides_ho; reflexivity.
Qed.
Lemma parse_part_ho l : (forall k ch, In (k, ch) l -> choices_ok ch) -> forall n d v,
  parse_part (ho_set h1) l n d v = parse_part (ho_set h2) l n d v.
Proof.
  induction l as [|[k ch] l IH]; intros O n d v; cbn [parse_part]; [reflexivity|].
  rewrite (validate_order (ho_set h1) (ho_set h2)); [|apply (O k); cbn; auto|apply V1|apply V2].
  rewrite IH; [reflexivity|]. intros k' ch' I. apply (O k'). cbn. auto.
Qed.
Lemma parse_parts_ho table : (forall k ch, In (k, ch) table -> choices_ok ch) -> forall l room n d,
  parse_parts (ho_set h1) table room n d l = parse_parts (ho_set h2) table room n d l.
Proof.
  intros O. induction l as [|v l IH]; intros [|room] n d; cbn [parse_parts]; try reflexivity.
  rewrite parse_part_ho by exact O. destruct (parse_part _ _ _ _ _); cbn; [apply IH|reflexivity].
Qed.
Lemma table_ok sh k ch : In (k, ch) (table_of sh) -> choices_ok ch.
Proof. destruct sh; cbn [table_of]; eauto using border_table_ok, outline_table_ok. Qed.
Lemma parse_shorthand_ho sh n v : parse_shorthand (ho_set h1) (table_of sh) n v = parse_shorthand (ho_set h2) (table_of sh) n v.
Proof. unfold parse_shorthand. destruct (shorthand_values v); cbn [bindr]; [apply parse_parts_ho, table_ok|reflexivity]. Qed.
Lemma set_ld_ho p v c n : set_ld h1 p v c n = set_ld h2 p v c n.
Proof. destruct p; [apply set_long_ho|apply set_dir_ho|reflexivity]. Qed.
Lemma set_prop_ho p v c n : set_prop h1 p v c n = set_prop h2 p v c n.
Proof.
  destruct p as [l|d|s]; [apply set_long_ho|apply set_dir_ho|]. cbn [set_prop]. unfold set_short. rewrite parse_shorthand_ho.
  destruct (parse_shorthand _ _ _ _) as [[d n']|e]; [|reflexivity]. apply bind_ext; [|reflexivity].
  apply each_ext. intros [k q] _ c0 n0. cbn [fst snd]. destruct (d k); [apply set_ld_ho|reflexivity].
Qed.
Lemma run_op_ho o c n : run_op h1 o c n = run_op h2 o c n.
Proof.
  destruct o as [p v|p|l|name v|name|node]; cbn [run_op]; try reflexivity.
  - apply set_prop_ho.
  - unfold update. apply each_ext. intros [name v] _ c0 n0. unfold update_item. cbn [fst snd].
    destruct (prop_of_name _); [|reflexivity]. destruct v; try reflexivity; apply set_prop_ho.
  - unfold setitem. destruct (prop_of_name _); [apply set_prop_ho|reflexivity].
Qed.
Lemma run_ops_ho l c n : run_ops h1 l c n = run_ops h2 l c n.
Proof. revert c n. induction l as [|o l IH]; intros c n; cbn [run_ops]; [reflexivity|]. rewrite run_op_ho. destruct (run_op h2 o c n) as [[c' n'] r]. apply IH. Qed.
Lemma get_prop_ho c p : get_prop h1 c p = get_prop h2 c p.
Proof.
  destruct p; cbn [get_prop]; [rewrite get_long_ho; reflexivity| |reflexivity].
  unfold get_dir. cbn [map_res sides]. rewrite !get_long_ho. reflexivity.
Qed.
End TwoOrders.

(** ** Initial values *)
Lemma initial_plain p : initial_of plain_order p = match written_initial p with IVal _ => IVal (css_initial p) | i => i end.
Proof. destruct p; vm_compute; reflexivity. Qed.
Lemma initial_spec ho p : valid_order ho -> initial_of ho p = match written_initial p with IVal _ => IVal (css_initial p) | i => i end.
Proof. intros V. rewrite (initial_of_ho ho plain_order V plain_valid). apply initial_plain. Qed.
Lemma follower_cases p : {s | p = L_border_color s} + {p = L_text_align} + {written_initial p = IVal (match written_initial p with IVal v => v | _ => VNone end) /\ ~ follower p}.
Proof. destruct p; try (right; split; [reflexivity|intros [x H]; inversion H]); left; [left; eauto|right; reflexivity]. Qed.
Lemma plain_get_color ho c : valid_order ho -> plain_get ho c L_color = match c_store c L_color with Some v => v | None => VDefault end.
Proof. intros V. unfold plain_get, stored_or_initial. destruct (c_store c L_color); [reflexivity|]. rewrite (initial_spec _ _ V). reflexivity. Qed.
Lemma plain_get_direction ho c : valid_order ho -> plain_get ho c L_direction = match c_store c L_direction with Some v => v | None => VStr "ltr" end.
Proof. intros V. unfold plain_get, stored_or_initial. destruct (c_store c L_direction); [reflexivity|]. rewrite (initial_spec _ _ V). reflexivity. Qed.
Lemma get_long_plain ho c p : valid_order ho -> ~ follower p ->
  get_long ho c p = Ok (match c_store c p with Some v => v | None => css_initial p end).
Proof.
  intros V F. unfold get_long. rewrite (initial_spec _ _ V). destruct (follower_cases p) as [[[s ->]| ->]|[W _]].
  - destruct F. exists L_color. constructor.
  - destruct F. exists L_direction. constructor.
  - rewrite W. cbn. reflexivity.
Qed.
Lemma get_long_color ho c s : valid_order ho -> get_long ho c (L_border_color s) =
  Ok (match c_store c (L_border_color s) with Some v => v | None => match c_store c L_color with Some v => v | None => VDefault end end).
Proof.
  intros V. unfold get_long. rewrite (initial_spec _ _ V). cbn [written_initial initial_value bindr]. rewrite plain_get_color by exact V. reflexivity.
Qed.
Definition dir_stored (c : css) : Prop := forall v, c_store c L_direction = Some v -> v = VStr "ltr" \/ v = VStr "rtl".
Lemma get_long_text_align ho c : valid_order ho -> dir_stored c -> get_long ho c L_text_align =
  Ok (match c_store c L_text_align with
      | Some v => v
      | None => match c_store c L_direction with Some (VStr "rtl") => VStr "right" | _ => VStr "left" end
      end).
Proof.
  intros V D. unfold get_long. rewrite (initial_spec _ _ V). cbn [written_initial initial_value]. rewrite plain_get_direction by exact V.
  unfold dir_stored in D. destruct (c_store c L_direction) as [v|]; [|reflexivity]. destruct (D v eq_refl) as [-> | ->]; reflexivity.
Qed.

Lemma direction_stored ho c n : valid_order ho -> reachable ho c n -> dir_stored c.
Proof.
  intros V R v E. cut (L_direction = L_direction -> v = VStr "ltr" \/ v = VStr "rtl"); [auto|].
  apply (stored_by_reachable ho (fun p v => p = L_direction -> v = VStr "ltr" \/ v = VStr "rtl") c n) with (2 := R) (3 := E).
  clear - V. intros p m v w m' H ->. apply validate_inv in H; [|apply choices_of_ok|apply V].
  cbn in H. destruct H as [(f & [] & _)|(_ & _ & _ & [[<-|[<-|[]]]|[]])]; auto.
Qed.
Lemma reachable_op ho c n o : reachable ho c n -> forall c' n' r, run_op ho o c n = (c', n', r) -> reachable ho c' n'.
Proof.
  intros [l R] c' n' r E. exists (l ++ [o])%list. revert R. generalize fresh_css first_free.
  induction l as [|x l IH]; intros a k; cbn [run_ops app].
  - intros Q. injection Q as -> ->. rewrite E. reflexivity.
  - destruct (run_op ho x a k) as [[a' k'] r']. apply IH.
Qed.
(** every longhand of a reachable declaration can be read *)
Lemma get_long_ok ho c n p : valid_order ho -> reachable ho c n -> exists v, get_long ho c p = Ok v
  /\ (forall w, c_store c p = Some w -> v = w).
Proof.
  intros V R. destruct (follower_cases p) as [[[s ->]| ->]|[_ F]].
  - rewrite (get_long_color _ _ _ V). eexists. split; [reflexivity|]. intros w ->. reflexivity.
  - rewrite (get_long_text_align _ _ V (direction_stored _ _ _ V R)). eexists. split; [reflexivity|]. intros w ->. reflexivity.
  - rewrite (get_long_plain _ _ _ V F). eexists. split; [reflexivity|]. intros w ->. reflexivity.
Qed.
