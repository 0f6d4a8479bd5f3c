(** * Properties C27, C28, C97, C98: keys, items, str and copies of declarations *)
From Coq Require Import ZArith QArith Qcanon Bool String Ascii List Permutation Lia Sorted.
From Verif Require Import PyNum Units Float64 PyStr Colors Values Parser Choices Shorthand Decl DeclSpec DeclFacts DeclNorm DeclErrors DeclProps DeclProps2.
Import ListNotations.
Open Scope string_scope.

(** ** Names *)
Fixpoint nodup_b (l : list string) : bool := match l with [] => true | x :: r => negb (existsb (String.eqb x) r) && nodup_b r end.
Lemma nodup_b_ok l : nodup_b l = true -> NoDup l.
Proof.
  induction l as [|x l IH]; [constructor|]. cbn. intros H. apply andb_prop in H. destruct H as [A B]. constructor; [|auto].
  intros I. apply negb_true_iff in A. assert (existsb (String.eqb x) l = true) as Y by (apply existsb_exists; exists x; split; [exact I|apply String.eqb_refl]). congruence.
Qed.
Lemma dashed_nodup : NoDup (map (fun p => dashed (prop_name p)) all_props).
Proof. apply nodup_b_ok. vm_compute. reflexivity. Qed.
Lemma NoDup_map_inv' {A B} (f : A -> B) l : NoDup (map f l) -> NoDup l.
Proof. apply NoDup_map_inv. Qed.
Lemma names_nodup ho : valid_order ho -> NoDup (map (fun p => dashed (prop_name p)) (ho_names ho)).
Proof. intros [_ P]. eapply Permutation_NoDup; [apply Permutation_map, P|apply dashed_nodup]. Qed.
Lemma name_in ho p : valid_order ho -> In p (ho_names ho).
Proof. intros [_ P]. eapply Permutation_in; [exact P|apply all_props_in]. Qed.

Lemma items_in ho c name v : valid_order ho -> (In (name, v) (items ho c) <-> exists l, name = long_name l /\ c_store c l = Some v).
Proof.
  intros V. unfold items. rewrite in_flat_map. split.
  - intros (p & _ & H). destruct (stored_attr c p) as [w|] eqn:E; [|destruct H]. destruct H as [H|[]]. injection H as <- <-. destruct p as [l|d|s]; try discriminate. exists l. auto.
  - intros (l & -> & E). exists (Long l). split; [apply name_in, V|]. cbn [stored_attr]. rewrite E. left. reflexivity.
Qed.
Lemma items_names ho c : map fst (items ho c) = keys ho c.
Proof. unfold items, keys. induction (ho_names ho) as [|p l IH]; [reflexivity|]. cbn. rewrite map_app, IH. destruct (stored_attr c p); reflexivity. Qed.
Lemma flat_names_nodup {A} (g : prop -> option A) l : NoDup (map (fun p => dashed (prop_name p)) l) ->
  NoDup (map (fun nv => dashed (fst nv)) (flat_map (fun p => match g p with Some v => [(prop_name p, v)] | None => [] end) l)).
Proof.
  induction l as [|p l IH]; [constructor|]. cbn [map flat_map]. intros N. inversion N as [|? ? X Y]; subst. rewrite map_app. destruct (g p); [|apply IH, Y].
  cbn [map app fst]. constructor; [|apply IH, Y]. intros I. apply X. apply in_map_iff in I. destruct I as ([nm v] & E & I). apply in_flat_map in I. destruct I as (q & Q & I).
  destruct (g q); [|destruct I]. destruct I as [I|[]]. injection I as <- <-. cbn [fst] in E |- *. rewrite <- E. apply (in_map (fun p => dashed (prop_name p))), Q.
Qed.
Lemma items_dashed_nodup ho c : valid_order ho -> NoDup (map (fun nv => dashed (fst nv)) (items ho c)).
Proof. intros V. unfold items. apply flat_names_nodup, names_nodup, V. Qed.
Lemma keys_nodup ho c : valid_order ho -> NoDup (keys ho c).
Proof.
  intros V. rewrite <- items_names. pose proof (items_dashed_nodup ho c V) as H. rewrite <- map_map in H. eapply NoDup_map_inv, H.
Qed.

Lemma long_python l : python_name (Long l) = long_name l.
Proof. symmetry. apply (prop_name_python (Long l)). Qed.
Lemma long_css l : css_name (Long l) = dashed (long_name l).
Proof. symmetry. apply (prop_name_css (Long l)). Qed.

(** C27: keys() are the stored longhands.  Missing: a longhand set to its initial
    value while unset is not stored (C27_refuted, C97). *)
Theorem C27_keys_partial : forall ho c, valid_order ho ->
  NoDup (keys ho c) /\ (forall name, In name (keys ho c) <-> exists l, name = python_name (Long l) /\ c_store c l <> None).
Proof.
  intros ho c V. split; [apply keys_nodup, V|]. intros name. rewrite <- items_names, in_map_iff. split.
  - intros ([nm v] & <- & I). apply (items_in _ _ _ _ V) in I. destruct I as (l & -> & E). exists l. rewrite long_python. cbn. split; [reflexivity|congruence].
  - intros (l & -> & E). rewrite long_python. destruct (c_store c l) as [v|] eqn:X; [|congruence]. exists (long_name l, v). split; [reflexivity|]. apply (items_in _ _ _ _ V). exists l. auto.
Qed.
Print Assumptions C27_keys_partial.
Theorem C27_items : forall ho c n, valid_order ho -> reachable ho c n ->
  map fst (items ho c) = keys ho c
  /\ (forall name v, In (name, v) (items ho c) -> getitem ho c name = Ok (RValue v))
  /\ (forall name, In name (keys ho c) -> exists v, In (name, v) (items ho c)).
Proof.
  intros ho c n V R. split; [apply items_names|]. split.
  - intros name v I. apply (items_in _ _ _ _ V) in I. destruct I as (l & -> & E). unfold getitem.
    assert (prop_of_name (underscored (long_name l)) = Some (Long l)) as ->. { clear. destruct l; try destruct s; vm_compute; reflexivity. }
    cbn [get_prop]. destruct (get_long_ok ho c n l V R) as (x & -> & S). rewrite (S v E). reflexivity.
  - intros name I. rewrite <- items_names in I. apply in_map_iff in I. destruct I as ([nm v] & <- & I). exists v. exact I.
Qed.
Print Assumptions C27_items.

(** ** Sorting *)
Lemma ascii_compare_refl a : Ascii.compare a a = Eq.
Proof. unfold Ascii.compare. apply N.compare_refl. Qed.
Lemma compare_refl s : String.compare s s = Eq.
Proof. induction s as [|c s IH]; [reflexivity|]. cbn. rewrite ascii_compare_refl. exact IH. Qed.
Lemma ascii_lt_trans a b c : Ascii.compare a b = Lt -> Ascii.compare b c = Lt -> Ascii.compare a c = Lt.
Proof. unfold Ascii.compare. rewrite !N.compare_lt_iff. lia. Qed.
Lemma lt_trans_s : forall a b c, String.compare a b = Lt -> String.compare b c = Lt -> String.compare a c = Lt.
Proof.
  induction a as [|x a IH]; intros [|y b] [|z c]; cbn; try congruence.
  destruct (Ascii.compare x y) eqn:E1; try discriminate; destruct (Ascii.compare y z) eqn:E2; try discriminate.
  - apply Ascii.compare_eq_iff in E1, E2. subst. rewrite ascii_compare_refl. apply IH.
  - apply Ascii.compare_eq_iff in E1. subst. rewrite E2. reflexivity.
  - apply Ascii.compare_eq_iff in E2. subst. rewrite E1. reflexivity.
  - rewrite (ascii_lt_trans _ _ _ E1 E2). reflexivity.
Qed.
(** a comes before b in the order of strings *)
Definition before {A} (a b : string * A) : Prop := String.compare (fst a) (fst b) = Lt.
Lemma leb_before {A} (x y : string * A) : fst x <> fst y -> str_leb (fst x) (fst y) = true -> before x y.
Proof. unfold str_leb, before. destruct (String.compare (fst x) (fst y)) eqn:E; intros N H; try congruence. apply String.compare_eq_iff in E. congruence. Qed.
Lemma nleb_before {A} (x y : string * A) : str_leb (fst x) (fst y) = false -> before y x.
Proof. unfold str_leb, before. destruct (String.compare (fst x) (fst y)) eqn:E; try discriminate. intros _. rewrite String.compare_antisym, E. reflexivity. Qed.
Lemma insert_perm {A} (x : string * A) l : Permutation (x :: l) (insert_by_name x l).
Proof. induction l as [|y l IH]; cbn; [reflexivity|]. destruct (str_leb _ _); [reflexivity|]. rewrite perm_swap. constructor. exact IH. Qed.
Lemma sort_perm {A} (l : list (string * A)) : Permutation l (sort_by_name l).
Proof. induction l as [|x l IH]; cbn; [reflexivity|]. rewrite <- insert_perm. constructor. exact IH. Qed.
Lemma insert_sorted {A} (x : string * A) l : StronglySorted before l -> ~ In (fst x) (map fst l) -> StronglySorted before (insert_by_name x l).
Proof.
  induction 1 as [|y l S IH F]; intros N; cbn; [repeat constructor|]. destruct (str_leb (fst x) (fst y)) eqn:E.
  - assert (B : before x y) by (apply leb_before; [intros X; apply N; left; auto|exact E]). constructor; [constructor; assumption|]. constructor; [exact B|].
    eapply Forall_impl; [|exact F]. intros z Z. eapply lt_trans_s; eassumption.
  - constructor; [apply IH; intros I; apply N; right; exact I|]. eapply Permutation_Forall; [apply insert_perm|]. constructor; [apply nleb_before, E|exact F].
Qed.
Lemma sort_sorted {A} (l : list (string * A)) : NoDup (map fst l) -> StronglySorted before (sort_by_name l).
Proof.
  induction l as [|x l IH]; cbn; intros N; [constructor|]. inversion N as [|? ? X Y]; subst. apply insert_sorted; [apply IH, Y|].
  intros I. apply X. eapply Permutation_in; [apply Permutation_map; symmetry; apply sort_perm|exact I].
Qed.
Lemma sorted_unique {A} (l m : list (string * A)) : StronglySorted before l -> StronglySorted before m -> Permutation l m -> l = m.
Proof.
  intros S. revert m. induction S as [|x l S IH F]; intros m M P.
  - apply Permutation_nil in P. congruence.
  - destruct m as [|y m]; [symmetry in P; apply Permutation_nil in P; discriminate|]. inversion M as [|? ? M' G]; subst.
    assert (x = y) as ->.
    { assert (IX : In x (y :: m)) by (eapply Permutation_in; [exact P|left; reflexivity]). assert (IY : In y (x :: l)) by (eapply Permutation_in; [symmetry; exact P|left; reflexivity]).
      destruct IX as [|IX]; [auto|]. destruct IY as [|IY]; [auto|]. rewrite Forall_forall in F, G. specialize (F _ IY). specialize (G _ IX).
      pose proof (lt_trans_s _ _ _ F G) as X. rewrite compare_refl in X. discriminate. }
    f_equal. apply IH; [exact M'|]. eapply Permutation_cons_inv, P.
Qed.

(** C27: str().  It is the list of the stored longhands in the order of their
    (dashed) names; it depends on nothing else. *)
Theorem C27_str : forall show ho c, valid_order ho ->
  exists l, render show ho c = String.concat "; " (map (fun nv => fst nv ++ ": " ++ show (snd nv)) l)
    /\ StronglySorted before l
    /\ (forall name v, In (name, v) l <-> exists p, name = css_name (Long p) /\ c_store c p = Some v).
Proof.
  intros show ho c V. exists (sort_by_name (map (fun nv => (dashed (fst nv), snd nv)) (items ho c))). split; [reflexivity|]. split.
  - apply sort_sorted. rewrite map_map. cbn [fst]. apply items_dashed_nodup, V.
  - intros name v. split.
    + intros I. assert (I' : In (name, v) (map (fun nv => (dashed (fst nv), snd nv)) (items ho c))) by (eapply Permutation_in; [symmetry; apply sort_perm|exact I]).
      apply in_map_iff in I'. destruct I' as ([nm w] & E & I'). injection E as <- <-. apply (items_in _ _ _ _ V) in I'. destruct I' as (p & E & S). cbn in E. exists p. rewrite E, long_css. auto.
    + intros (p & -> & S). rewrite long_css. eapply Permutation_in; [apply sort_perm|]. apply in_map_iff. exists (long_name p, v). split; [reflexivity|]. apply (items_in _ _ _ _ V). exists p. auto.
Qed.
Print Assumptions C27_str.
Theorem C27_str_order : forall show h1 h2 c, valid_order h1 -> valid_order h2 -> render show h1 c = render show h2 c.
Proof.
  intros show h1 h2 c V1 V2. unfold render. f_equal. f_equal. apply sorted_unique.
  - apply sort_sorted. rewrite map_map. cbn [fst]. apply items_dashed_nodup, V1.
  - apply sort_sorted. rewrite map_map. cbn [fst]. apply items_dashed_nodup, V2.
  - rewrite <- !sort_perm. apply Permutation_map. unfold items. apply Permutation_flat_map. transitivity all_props; [symmetry; apply V1|apply V2].
Qed.
Print Assumptions C27_str_order.
Theorem C27_str_longhands : forall s p, css_name (Long p) <> css_name (Short s) /\ forall d, css_name (Long p) <> css_name (Dir d).
Proof. intros s p. split; [|intros d; destruct d]; destruct p; try destruct s0; try destruct s; try destruct s; vm_compute; discriminate. Qed.
Print Assumptions C27_str_longhands.
Example C27_example : keys plain_order sample = ["margin_top"; "margin_right"; "margin_bottom"; "direction"; "color"; "outline_width"; "outline_color"]
  /\ reachable plain_order sample sample_n /\ valid_order reverse_order
  /\ render (fun _ => "x") reverse_order sample = "color: x; direction: x; margin-bottom: x; margin-right: x; margin-top: x; outline-color: x; outline-width: x".
Proof. split; [vm_compute; reflexivity|]. split; [apply sample_reachable|]. split; [apply reverse_valid|vm_compute; reflexivity]. Qed.

(** A successful assignment of the initial value to a property that is not
    stored leaves keys() without it. *)
Theorem C27_refuted : exists c n, set_prop plain_order (Long L_width) (VStr "auto") fresh_css first_free = (c, n, Ok tt) /\ keys plain_order c = [].
Proof. apply ran; vm_compute; reflexivity. Qed.
Print Assumptions C27_refuted.

(** C97: how each operation changes keys(). *)
Theorem C97_set : forall ho p v c n c' n', valid_order ho -> set_prop ho (Long p) v c n = (c', n', Ok tt) ->
  (forall q, q <> p -> (In (python_name (Long q)) (keys ho c') <-> In (python_name (Long q)) (keys ho c)))
  /\ exists w, validate (ho_set ho) (choices_of p) n v = Ok (w, n')
     /\ (In (python_name (Long p)) (keys ho c') <-> In (python_name (Long p)) (keys ho c) \/ follower p \/ ~ equals w (css_initial p)).
Proof.
  intros ho p v c n c' n' V H. assert (K : forall d l, In (python_name (Long l)) (keys ho d) <-> c_store d l <> None).
  { intros d l. rewrite (proj2 (C27_keys_partial ho d V)). split; [|intros E; exists l; auto]. intros (m & E & X).
    assert (l = m) as <-; [|exact X]. assert (prop_of_name (prop_name (Long l)) = prop_of_name (prop_name (Long m))) as Y by (rewrite !prop_name_python, E; reflexivity).
    rewrite (proj1 (prop_names (Long l))), (proj1 (prop_names (Long m))) in Y. congruence. }
  split.
  - intros q Q. rewrite !K. cbn [set_prop] in H. rewrite (set_long_other ho p v c n c' n' (Ok tt) q H Q). reflexivity.
  - cbn [set_prop] in H. apply set_long_ok in H. destruct H as (w & W & H). exists w. split; [exact W|]. rewrite !K.
    unfold stored_or_initial in H. destruct (c_store c p) as [old|] eqn:S.
    + split; [left; discriminate|]. intros _. destruct H as [[_ ->]|[_ ->]]; [congruence|]. rewrite mark_dirty_store, store_same. discriminate.
    + rewrite (initial_spec _ _ V) in H. destruct (follower_cases p) as [[[s ->]| ->]|[Wi F]].
      * cbn in H. destruct H as [[X _]|[_ ->]]; [discriminate|]. rewrite mark_dirty_store, store_same. split; [intros _; right; left; exists L_color; constructor|discriminate].
      * cbn in H. destruct H as [[X _]|[_ ->]]; [discriminate|]. rewrite mark_dirty_store, store_same. split; [intros _; right; left; exists L_direction; constructor|discriminate].
      * rewrite Wi in H. cbn [same_value] in H. destruct H as [[X ->]|[X ->]].
        -- rewrite S. split; [congruence|]. apply py_eqb_spec in X. intros [Y|[Y|Y]]; congruence.
        -- rewrite mark_dirty_store, store_same. split; [|discriminate]. intros _. right. right. rewrite <- py_eqb_spec. congruence.
Qed.
Print Assumptions C97_set.
Theorem C97_delete : forall ho p c n c' n' r, valid_order ho -> del_prop p c n = (c', n', r) ->
  forall q, In (python_name (Long q)) (keys ho c') <-> In (python_name (Long q)) (keys ho c) /\ ~ In q (longhands_of p).
Proof.
  intros ho p c n c' n' r V H q. assert (K : forall d l, In (python_name (Long l)) (keys ho d) <-> c_store d l <> None).
  { intros d l. rewrite (proj2 (C27_keys_partial ho d V)). split; [|intros E; exists l; auto]. intros (m & E & X).
    assert (l = m) as <-; [|exact X]. assert (prop_of_name (prop_name (Long l)) = prop_of_name (prop_name (Long m))) as Y by (rewrite !prop_name_python, E; reflexivity).
    rewrite (proj1 (prop_names (Long l))), (proj1 (prop_names (Long m))) in Y. congruence. }
  rewrite !K. destruct (C22_delete ho c n p V) as (d & E & _ & A & B & _). rewrite H in E. injection E as <- _ _.
  destruct (in_dec longhand_eq_dec q (longhands_of p)) as [I|I].
  - rewrite (proj1 (A q I)). split; [congruence|tauto].
  - rewrite (B q I). tauto.
Qed.
Print Assumptions C97_delete.
Example C97_example : In "outline_width" (keys plain_order sample)
  /\ ~ In "outline_width" (keys plain_order (fst (fst (del_prop (Short S_outline) sample sample_n))))
  /\ In "text_align" (keys plain_order (fst (fst (set_prop plain_order (Long L_text_align) (VStr "right") sample sample_n)))).
Proof.
  split; [vm_compute; tauto|]. split; [|vm_compute; tauto]. intros H. vm_compute in H. repeat destruct H as [H|H]; try discriminate; contradiction.
Qed.

(** ** C28, C98: copies *)
(** Values the setters refuse, although a setter produced them. *)
Definition blocked (v : pyval) : Prop :=
  match v with
  | VUnit u => exists s f, u_kind u = KAngle s f
  | VQuotes _ => True
  | VCursor l => exists x, In x l /\ forall s, x <> VStr s
  | _ => False
  end.
(** Values whose assignment raises AttributeError, which copy() ignores. *)
Definition dropped (v : pyval) : Prop := match v with VSpacing _ _ _ | VRect _ _ _ _ => True | _ => False end.
Lemma value_cases v : {fixed_point v} + {dropped v} + {blocked v}.
Proof.
  destruct v; try (left; left; exact I); try (left; right; exact I); try (right; exact I).
  - cbn. destruct (u_kind u); try (left; left; exact I). right. eauto.
  - cbn. destruct (forallb is_string l) eqn:E; [auto|]. right. induction l as [|x l IH]; [discriminate|]. cbn in E. destruct (is_string x) eqn:X.
    + destruct (IH E) as (y & Y & Z). exists y. split; [right; exact Y|exact Z].
    + exists x. split; [left; reflexivity|]. intros s ->. discriminate.
Qed.
Lemma blocked_not v : blocked v -> ~ fixed_point v /\ ~ dropped v.
Proof.
  destruct v; cbn; try tauto.
  - intros (s & f & ->). tauto.
  - intros (x & X & Y). split; [|auto]. intros F. rewrite forallb_forall in F. specialize (F x X). destruct x; try discriminate. destruct (Y s eq_refl).
Qed.
Lemma dropped_result ho p i v w j m : valid_order ho -> validate (ho_set ho) (choices_of p) i v = Ok (w, j) -> dropped w ->
  validate (ho_set ho) (choices_of p) m w = Err AttributeError.
Proof.
  intros V H D. apply validate_inv in H; [|apply choices_of_ok|apply V]. destruct H as [(f & F & H)|(_ & _ & _ & I)].
  - destruct f; cbn [run_validator] in H.
    + destruct (as_validation (units v)) as [u|]; cbn in H; [|discriminate]. injection H as <- <-. destruct D.
    + destruct (as_validation (units v)) as [u|]; cbn in H; [|discriminate]. destruct (u_kind u); try discriminate. destruct (u_ltb _ _); [discriminate|]. injection H as <- <-. destruct D.
    + destruct (as_validation_t (int_of v)); cbn in H; [|discriminate]. injection H as <- <-. destruct D.
    + apply as_validation_ok, color_ok in H. destruct H as (o & c & -> & _). destruct D.
    + apply as_validation_ok, spacing_ok in H. destruct H as (h & x & -> & _). assert (p = L_border_spacing) as -> by (destruct p; cbn in F; intuition discriminate). reflexivity.
    + destruct (as_validation (rect v)) as [q|] eqn:E; cbn in H; [|discriminate]. injection H as <- <-. apply as_validation_ok, rect_ok in E. destruct E as (a & b & c & d & ->).
      assert (p = L_clip) as -> by (destruct p; cbn in F; intuition discriminate). reflexivity.
    + destruct (as_validation (quotes v)) as [q|] eqn:E; cbn in H; [|discriminate]. injection H as <- <-. apply as_validation_ok, quotes_ok in E. destruct E as (l & ->). destruct D.
    + apply as_validation_ok, cursor_ok in H. destruct H as (l & -> & _). destruct D.
  - pose proof (choices_of_ok p) as [C E]. rewrite Forall_forall in C, E. assert (CW : const_ok w) by (destruct I; auto). destruct CW as [->|[[s ->]| ->]]; destruct D.
Qed.
Lemma blocked_result ho p i v w j m : valid_order ho -> validate (ho_set ho) (choices_of p) i v = Ok (w, j) -> blocked w ->
  exists e, validate (ho_set ho) (choices_of p) m w = Err e /\ (if is_value_error e then ValueError else e) = ValueError.
Proof.
  intros V H B. destruct (validate (ho_set ho) (choices_of p) m w) as [[x k]|e] eqn:E.
  - destruct (blocked_not w B) as [F _]. destruct F. eapply not_fixed_rejected; eassumption.
  - exists e. split; [reflexivity|]. apply validate_escapes in E. destruct E as [E|E]; [rewrite E; reflexivity|]. exfalso.
    inversion E as [| | |? N|? N1 N2 N3 N4|? N1 N2|? N]; subst; cbn in B; try contradiction.
    + apply validate_inv in H; [|apply choices_of_ok|apply V]. destruct H as [(f & F & H)|(_ & _ & _ & I)].
      * cbn in F. destruct F as [<-|[]]. cbn [run_validator] in H. destruct (as_validation (rect v)) as [q|] eqn:X; cbn in H; [|discriminate]. injection H as <- <-. apply as_validation_ok, rect_ok in X. destruct X as (a & b & c & d & ->). destruct B.
      * clear -I B. cbn in I. decompose [or] I; subst; cbn in B; contradiction.
    + apply validate_inv in H; [|apply choices_of_ok|apply V]. destruct H as [(f & F & H)|(_ & _ & _ & I)].
      * cbn in F. destruct F as [<-|[]]. cbn [run_validator] in H. apply as_validation_ok, spacing_ok in H. destruct H as (h & x & -> & _). destruct B.
      * clear -I B. cbn in I. decompose [or] I; subst; cbn in B; contradiction.
    + apply validate_inv in H; [|apply choices_of_ok|apply V]. destruct H as [(f & F & H)|(_ & _ & _ & I)].
      * cbn in F. destruct F as [<-|[]]. cbn [run_validator] in H. apply as_validation_ok, cursor_ok in H. destruct H as (l & -> & _). discriminate.
      * clear -I B. cbn in I. decompose [or] I; subst; cbn in B; contradiction.
    + apply validate_inv in H; [|apply choices_of_ok|apply V]. destruct H as [(f & F & H)|(_ & _ & _ & I)].
      * cbn in F. destruct F as [<-|[]]. cbn [run_validator] in H. destruct (as_validation (quotes v)) as [q|] eqn:X; cbn in H; [|discriminate]. injection H as <- <-. apply as_validation_ok, quotes_ok in X. destruct X as (l & ->).
        destruct N as [[s N]|N]; [discriminate|apply N; reflexivity].
      * clear -I B. cbn in I. decompose [or] I; subst; cbn in B; contradiction.
Qed.
(** what the copy stores for q *)
Definition copied (ho : hash_order) (src : css) (q : longhand) : option pyval :=
  match c_store src q with
  | Some w => if value_cases w then if same_value w (initial_of ho q) then None else match w with VSpacing _ _ _ | VRect _ _ _ _ => None | _ => Some w end else None
  | None => None
  end.
Lemma copy_long ho src k q w c n : valid_order ho -> reachable ho src k -> c_store src q = Some w -> c_store c q = None ->
  (blocked w -> exists c', swallow (set_long ho q w) c n = (c', n, Err ValueError))
  /\ (~ blocked w -> exists c', swallow (set_long ho q w) c n = (c', n, Ok tt) /\ c_store c' q = copied ho src q
        /\ (forall z, z <> q -> c_store c' z = c_store c z)).
Proof.
  intros V R S N. destruct (stored_validated ho src k q w V R S) as (v & i & j & E). unfold swallow. rewrite set_long_eq. split.
  - intros B. destruct (blocked_result ho q i v w j n V E B) as (e & -> & X). rewrite X. exists c. reflexivity.
  - intros NB. unfold copied. rewrite S. destruct (value_cases w) as [[F|D]|B]; [| |contradiction].
    + rewrite (validate_again ho q i v w j V E (fixed_point_reassignable w F) n). unfold stored_or_initial. rewrite N.
      destruct (same_value w (initial_of ho q)).
      * exists c. split; [reflexivity|]. split; [exact N|reflexivity].
      * exists (fst (mark_dirty (set_store c q (Some w)))). split.
        -- pose proof (mark_dirty_ok (set_store c q (Some w))) as M. unfold mark_dirty in *. destruct (c_node (set_store c q (Some w))) as [[d|]|]; reflexivity.
        -- rewrite mark_dirty_store. split; [|intros z Z; apply store_other, Z]. rewrite store_same. destruct w; try reflexivity; destruct F.
    + rewrite (dropped_result ho q i v w j n V E D). exists c. split; [reflexivity|]. split; [|reflexivity]. rewrite N.
      destruct w; try (destruct D; fail); destruct (same_value _ _); reflexivity.
Qed.
Lemma copy_each ho src k : valid_order ho -> reachable ho src k -> forall l, NoDup l -> forall c n,
  (forall q, In (Long q) l -> c_store c q = None) ->
  ((forall q w, In (Long q) l -> c_store src q = Some w -> ~ blocked w) ->
     exists c', each (copy_item ho src) l c n = (c', n, Ok tt)
       /\ (forall q, In (Long q) l -> c_store c' q = copied ho src q) /\ (forall q, ~ In (Long q) l -> c_store c' q = c_store c q))
  /\ ((exists q w, In (Long q) l /\ c_store src q = Some w /\ blocked w) -> exists c', each (copy_item ho src) l c n = (c', n, Err ValueError)).
Proof.
  intros V R l ND. induction ND as [|p l NI ND IH]; intros c n N.
  - split; [intros _; exists c; repeat split; intros q []|]. intros (q & w & [] & _).
  - cbn [each]. unfold bind at 1 2.
    assert (STEP : (exists q w, p = Long q /\ c_store src q = Some w /\ blocked w /\ exists c', copy_item ho src p c n = (c', n, Err ValueError))
      \/ ((forall q w, p = Long q -> c_store src q = Some w -> ~ blocked w) /\ exists c', copy_item ho src p c n = (c', n, Ok tt)
         /\ (forall q, p = Long q -> c_store c' q = copied ho src q) /\ (forall q, p <> Long q -> c_store c' q = c_store c q))).
    { unfold copy_item, stored_attr. destruct p as [q|d|s].
      - destruct (c_store src q) as [w|] eqn:S.
        + destruct (copy_long ho src k q w c n V R S (N q (or_introl eq_refl))) as [A B]. cbn [set_prop]. destruct (value_cases w) as [F|X].
          * right. assert (NB : ~ blocked w) by (intros X; apply blocked_not in X; destruct F; tauto). split; [intros q' w' Q S'; injection Q as <-; congruence|].
            destruct (B NB) as (c' & E & C & O). exists c'. split; [exact E|]. split; [intros q' Q; injection Q as <-; exact C|]. intros q' Q. apply O. congruence.
          * left. exists q, w. auto.
        + right. split; [intros q' w' Q S'; injection Q as <-; congruence|]. exists c. split; [reflexivity|]. split; [|reflexivity]. intros q' Q. injection Q as <-.
          rewrite (N q (or_introl eq_refl)). unfold copied. rewrite S. reflexivity.
      - right. split; [discriminate|]. exists c. repeat split. intros q Q. discriminate.
      - right. split; [discriminate|]. exists c. repeat split. intros q Q. discriminate. }
    destruct STEP as [(q & w & -> & S & B & c' & E)|(NB & c' & E & CQ & O)]; rewrite E.
    + split; [intros H; destruct (H q w (or_introl eq_refl) S B)|]. intros _. exists c'. reflexivity.
    + destruct (IH c' n) as [A1 A2].
      { intros q I. rewrite O; [apply N; right; exact I|]. intros ->. contradiction. }
      split.
      * intros H. destruct (A1 (fun q w I => H q w (or_intror I))) as (c2 & E2 & C2 & O2). exists c2. split; [exact E2|]. split.
        -- intros q [->|I]; [|apply C2, I]. rewrite O2 by exact NI. apply CQ. reflexivity.
        -- intros q NQ. rewrite O2 by (intros I; apply NQ; right; exact I). apply O. intros ->. apply NQ. left. reflexivity.
      * intros (q & w & [->|I] & S & B); [destruct (NB q w eq_refl S B)|]. apply A2. exists q, w. auto.
Qed.
Lemma copied_plain ho src q w : valid_order ho -> ~ blocked w -> c_store src q = Some w -> ~ follower q ->
  (dropped w -> copied ho src q = None)
  /\ (~ dropped w -> copied ho src q = Some w \/ (copied ho src q = None /\ py_eqb w (css_initial q) = true)).
Proof.
  intros V NB S F. unfold copied. rewrite S, (initial_spec _ _ V). destruct (follower_cases q) as [[[s ->]| ->]|[Wi _]].
  - destruct F. exists L_color. constructor.
  - destruct F. exists L_direction. constructor.
  - rewrite Wi. cbn [same_value]. destruct (value_cases w) as [X|X]; [|contradiction]. destruct (py_eqb w (css_initial q)) eqn:E.
    + split; [reflexivity|auto].
    + split; [intros D; destruct w; try (destruct D; fail); reflexivity|]. intros D. left. destruct w; try reflexivity; destruct D; exact I.
Qed.
Lemma copied_follower ho src k q w : valid_order ho -> reachable ho src k -> ~ blocked w -> c_store src q = Some w -> follower q -> copied ho src q = Some w /\ ~ dropped w.
Proof.
  intros V R NB S [p F]. destruct (stored_validated ho src k q w V R S) as (v & i & j & E). assert (D : ~ dropped w).
  { intros D. pose proof (dropped_result ho q i v w j 0 V E D) as X. apply validate_escapes in X. destruct X as [X|X]; [discriminate|]. inversion F; subst; inversion X; subst; try (destruct D; fail); cbn in *; intuition discriminate. }
  split; [|exact D]. unfold copied. rewrite S, (initial_spec _ _ V). destruct (value_cases w) as [X|X]; [|contradiction].
  inversion F; subst; cbn [written_initial same_value]; destruct w; try reflexivity; destruct D; exact I.
Qed.
Definition holds_dropped (c : css) (p : longhand) : Prop := exists w, c_store c p = Some w /\ dropped w.
(** C98: when copy() succeeds and what the copy reads. *)
Theorem C98_copy : forall ho node src k n, valid_order ho -> reachable ho src k ->
  ((forall q w, c_store src q = Some w -> ~ blocked w) ->
     exists c' n', copy ho node src n = (c', n', Ok tt)
       /\ (forall p, holds_dropped src p -> get_prop ho c' (Long p) = Ok (RValue (css_initial p)))
       /\ (forall p, ~ holds_dropped src p -> exists r r', get_prop ho src (Long p) = Ok (RValue r) /\ get_prop ho c' (Long p) = Ok (RValue r')
             /\ (r' = r \/ equals r r')))
  /\ ((exists q w, c_store src q = Some w /\ blocked w) -> exists c' n', copy ho node src n = (c', n', Err ValueError)).
Proof.
  intros ho node src k n V R. unfold copy.
  assert (ND : NoDup (ho_names ho)) by (eapply NoDup_map_inv, (names_nodup ho V)).
  destruct (copy_each ho src k V R (ho_names ho) ND (mkCss (fun _ => None) node) n (fun _ _ => eq_refl)) as [A B]. split.
  - intros H. destruct A as (c' & E & C & _); [intros q w _; apply H|]. exists c', n. split; [exact E|].
    assert (CC : forall q, c_store c' q = copied ho src q) by (intros q; apply C, name_in, V).
    assert (PL : forall p, ~ follower p -> ~ holds_dropped src p -> exists r r', get_long ho src p = Ok r /\ get_long ho c' p = Ok r' /\ (r' = r \/ equals r r')).
    { intros p F ND'. rewrite !(get_long_plain _ _ _ V F), CC. destruct (c_store src p) as [w|] eqn:S.
      - destruct (copied_plain ho src p w V (H p w S) S F) as [_ X]. destruct X as [X|[X Y]]; [intros D; apply ND'; exists w; auto| |]; rewrite X; do 2 eexists; repeat split; auto; right; apply py_eqb_spec, Y.
      - unfold copied. rewrite S. do 2 eexists. repeat split. left. reflexivity. }
    split.
    + intros p (w & S & D). cbn [get_prop]. assert (F : ~ follower p) by (intros F; destruct (copied_follower ho src k p w V R (H p w S) S F); contradiction).
      rewrite (get_long_plain _ _ _ V F), CC. destruct (copied_plain ho src p w V (H p w S) S F) as [X _]. rewrite (X D). reflexivity.
    + intros p ND'. cbn [get_prop]. cut (exists r r', get_long ho src p = Ok r /\ get_long ho c' p = Ok r' /\ (r' = r \/ equals r r')).
      { intros (r & r' & -> & -> & X). exists r, r'. auto. }
      destruct (follower_cases p) as [[[s ->]| ->]|[_ F]]; [| |apply PL; assumption].
      * rewrite !(get_long_color _ _ _ V), !CC. destruct (c_store src (L_border_color s)) as [w|] eqn:S.
        -- destruct (copied_follower ho src k _ w V R (H _ w S) S) as [-> _]; [exists L_color; constructor|]. do 2 eexists. repeat split. left. reflexivity.
        -- unfold copied at 1. rewrite S. assert (NC : ~ follower L_color) by (intros [z Z]; inversion Z).
           destruct (c_store src L_color) as [w|] eqn:SC.
           ++ destruct (copied_plain ho src L_color w V (H _ w SC) SC NC) as [_ X].
              assert (DC : ~ dropped w).
              { intros D. destruct (stored_validated ho src k _ w V R SC) as (v & i & j & Q). pose proof (dropped_result ho _ i v w j 0 V Q D) as Y. apply validate_escapes in Y. destruct Y as [Y|Y]; [discriminate|]. inversion Y; subst; destruct D. }
              destruct (X DC) as [Y|[Y Z]]; rewrite Y; do 2 eexists; repeat split; auto; right; apply py_eqb_spec, Z.
           ++ unfold copied. rewrite SC. do 2 eexists. repeat split. left. reflexivity.
      * pose proof (direction_stored _ _ _ V R) as D. assert (D' : dir_stored c').
        { intros v X. rewrite CC in X. unfold copied in X. destruct (c_store src L_direction) as [w|] eqn:S; [|discriminate]. destruct (D w S) as [-> | ->]; destruct (value_cases _) in X; try discriminate; destruct (same_value _ _) in X; try discriminate; injection X as <-; auto. }
        rewrite (get_long_text_align _ _ V D), (get_long_text_align _ _ V D'), !CC. destruct (c_store src L_text_align) as [w|] eqn:S.
        -- destruct (copied_follower ho src k _ w V R (H _ w S) S) as [-> _]; [exists L_direction; constructor|]. do 2 eexists. repeat split. left. reflexivity.
        -- unfold copied at 1. rewrite S. do 2 eexists. split; [reflexivity|]. split; [reflexivity|]. left. unfold copied. rewrite (initial_spec _ _ V). cbn [written_initial same_value].
           destruct (c_store src L_direction) as [w|] eqn:SD; [|reflexivity]. destruct (value_cases w) as [X|X]; [|destruct (H _ _ SD X)]. destruct (D w SD) as [-> | ->]; reflexivity.
  - intros (q & w & S & X). destruct B as (c' & E); [exists q, w; split; [apply name_in, V|auto]|]. exists c', n. exact E.
Qed.
Print Assumptions C98_copy.
Example C98_example : (forall q w, c_store sample q = Some w -> ~ blocked w) /\ reachable plain_order sample sample_n
  /\ exists c n, copy plain_order None sample sample_n = (c, n, Ok tt) /\ get_prop plain_order c (Long L_direction) = Ok (RValue (VStr "rtl")).
Proof.
  split; [|split; [apply sample_reachable|apply ran; vm_compute; reflexivity]].
  intros q w S B. destruct q; try destruct s; vm_compute in S; try discriminate; injection S as <-; cbn in B; try contradiction;
    destruct B as (x & y & B); discriminate.
Qed.
(** C28: copies of declarations whose values the setters accept again.  Missing:
    the other declarations, for which it is false (C28_refuted, C98). *)
Theorem C28_copy_partial : forall ho node src k n, valid_order ho -> reachable ho src k ->
  (forall q w, c_store src q = Some w -> fixed_point w) ->
  exists c' n', copy ho node src n = (c', n', Ok tt)
    /\ forall p, exists r r', get_prop ho src (Long p) = Ok (RValue r) /\ get_prop ho c' (Long p) = Ok (RValue r') /\ (r' = r \/ equals r r').
Proof.
  intros ho node src k n V R H. destruct (C98_copy ho node src k n V R) as [A _]. destruct A as (c' & n' & E & _ & S).
  - intros q w X B. destruct (blocked_not w B). apply H in X. contradiction.
  - exists c', n'. split; [exact E|]. intros p. apply S. intros (w & X & D). apply H in X. destruct w; try destruct D; destruct X.
Qed.
Print Assumptions C28_copy_partial.
Definition declared (l : list op) : css := fst (run_ops plain_order l fresh_css first_free).
Definition declared_n (l : list op) : nat := snd (run_ops plain_order l fresh_css first_free).
Example C28_example : (forall q w, c_store sample q = Some w -> fixed_point w).
Proof. intros q w S. destruct q; try destruct s; vm_compute in S; try discriminate; injection S as <-; exact I. Qed.
Theorem C28_refuted :
  (* a clip is silently lost *)
  (let src := declared [OpSet (Long L_clip) (VStr "rect(1px, 2px, 3px, 4px)")] in
   exists c n, copy plain_order None src 5 = (c, n, Ok tt) /\ get_prop plain_order c (Long L_clip) = Ok (RValue (VStr "auto")))
  (* so is a border spacing *)
  /\ (let src := declared [OpSet (Long L_border_spacing) (VStr "1px")] in
   exists c n, copy plain_order None src 5 = (c, n, Ok tt) /\ keys plain_order c = [])
  (* quotes, URLs in cursors and angles stop the copy *)
  /\ (forall p v, In (p, v) [(L_quotes, VStr "'<' '>'"); (L_cursor, VStr "url(x), auto"); (L_width, VStr "10deg")] ->
      exists c n, copy plain_order None (declared [OpSet (Long p) v]) 5 = (c, n, Err ValueError)).
Proof.
  split; [apply ran; vm_compute; reflexivity|]. split; [apply ran; vm_compute; reflexivity|].
  intros p v I. repeat destruct I as [I|I]; try contradiction; injection I as <- <-;
    (eexists (fst (fst (copy plain_order None (declared [OpSet (Long _) _]) 5))), (snd (fst (copy plain_order None (declared [OpSet (Long _) _]) 5))); apply outcome; vm_compute; reflexivity).
Qed.
Print Assumptions C28_refuted.
