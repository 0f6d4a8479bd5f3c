(** * Properties of style declarations: assignment, deletion, names *)
From Coq Require Import ZArith QArith Qcanon Bool String Ascii List Permutation Lia.
From Verif Require Import PyNum Units Float64 PyStr Colors Values Parser Choices Shorthand Decl DeclSpec DeclFacts.
Import ListNotations.
Open Scope string_scope.

(** A declaration with some history, bound to a laid-out node that is clean. *)
Definition sample_ops : list op :=
  [OpSet (Dir D_margin) (VTuple [VInt 5; VStr "2em"]); OpSet (Long L_color) (VStr "rebeccapurple");
   OpSet (Long L_width) (VStr "nonsense"); OpSet (Long L_direction) (VStr "rtl");
   OpSet (Short S_outline) (VStr "red thin"); OpDel (Long (L_margin SLeft)); OpBind (Some (Some false))].
Definition sample : css := fst (run_ops plain_order sample_ops fresh_css first_free).
Definition sample_n : nat := snd (run_ops plain_order sample_ops fresh_css first_free).
Example sample_reachable : reachable plain_order sample sample_n.
Proof. exists sample_ops. unfold sample, sample_n. destruct (run_ops _ _ _ _); reflexivity. Qed.
(** A second iteration order. *)
Definition reverse_order : hash_order := mkHO (fun l => rev l) (rev all_props).
Example reverse_valid : valid_order reverse_order.
Proof. split; [intros l|]; apply Permutation_rev. Qed.

(** C15. *)
Theorem C15_order_independent : forall h1 h2, valid_order h1 -> valid_order h2 ->
  (forall o c n, run_op h1 o c n = run_op h2 o c n)
  /\ (forall l c n, run_ops h1 l c n = run_ops h2 l c n)
  /\ (forall c p, get_prop h1 c p = get_prop h2 c p).
Proof.
  intros h1 h2 V1 V2. split; [|split]; intros.
  - apply run_op_ho; assumption.
  - apply run_ops_ho; assumption.
  - apply get_prop_ho; assumption.
Qed.
Print Assumptions C15_order_independent.
Example C15_example : ho_set reverse_order [AUTO; TRANSPARENT] <> ho_set plain_order [AUTO; TRANSPARENT].
Proof. discriminate. Qed.

(** C18. *)
Theorem C18_set_get : forall ho c n p v c' n', valid_order ho -> reachable ho c n ->
  set_prop ho (Long p) v c n = (c', n', Ok tt) ->
  exists w r, validate (ho_set ho) (choices_of p) n v = Ok (w, n') /\ get_prop ho c' (Long p) = Ok (RValue r)
              /\ (r = w \/ equals w r).
Proof.
  intros ho c n p v c' n' V R H. assert (R' : reachable ho c' n') by (eapply (reachable_op ho c n (OpSet (Long p) v) R); exact H).
  cbn [set_prop] in H. apply set_long_ok in H. destruct H as (w & W & H). exists w.
  destruct (get_long_ok ho c' n' p V R') as (r & G & S). exists r. cbn [get_prop]. rewrite G. split; [exact W|]. split; [reflexivity|].
  destruct H as [[E ->]|[_ ->]].
  - right. apply py_eqb_spec. unfold same_value, stored_or_initial in E. destruct (c_store c p) as [x|] eqn:X; [rewrite (S x eq_refl); exact E|].
    rewrite (initial_spec _ _ V) in E. destruct (follower_cases p) as [[[s ->]| ->]|[Wi F]]; [discriminate|discriminate|].
    rewrite Wi in E. rewrite (get_long_plain _ _ _ V F), X in G. injection G as <-. exact E.
  - left. apply S. rewrite mark_dirty_store. apply store_same.
Qed.
Print Assumptions C18_set_get.
Example C18_example : exists c' n', set_prop plain_order (Long L_width) (VStr "12.5%") sample sample_n = (c', n', Ok tt)
  /\ get_prop plain_order c' (Long L_width) = Ok (RValue (VUnit (mkU KPct (PF (Fin (Q2Qc (25 # 2))))))).
Proof. eexists. eexists. split; vm_compute; reflexivity. Qed.

(** C19. *)
Theorem C19_frame : forall ho c n p q, valid_order ho -> reachable ho c n -> q <> p ->
  (follows q p -> c_store c q <> None) ->
  (forall v c' n' r, set_prop ho (Long p) v c n = (c', n', r) -> get_prop ho c' (Long q) = get_prop ho c (Long q))
  /\ (forall c' n' r, del_prop (Long p) c n = (c', n', r) -> get_prop ho c' (Long q) = get_prop ho c (Long q)).
Proof.
  intros ho c n p q V R N F.
  assert (K : forall c' n', reachable ho c' n' -> (forall x, x <> p -> c_store c' x = c_store c x) ->
    get_prop ho c' (Long q) = get_prop ho c (Long q)).
  { intros c' n' R' E. cbn [get_prop]. destruct (c_store c q) as [y|] eqn:Q.
    - destruct (get_long_ok ho c' n' q V R') as (a & A & A'), (get_long_ok ho c n q V R) as (b & B & B').
      rewrite A, B, (A' y), (B' y); [reflexivity|exact Q|rewrite E; assumption].
    - rewrite (get_long_store ho c' c q); [reflexivity|apply E, N|].
      intros x X. apply E. intros ->. apply F; [exact X|reflexivity]. }
  split.
  - intros v c' n' r H. apply (K c' n'); [eapply (reachable_op ho c n (OpSet (Long p) v) R); exact H|].
    intros x X. cbn [set_prop] in H. eapply set_long_other; eassumption.
  - intros c' n' r H. apply (K c' n'); [eapply (reachable_op ho c n (OpDel (Long p)) R); exact H|].
    intros x X. cbn [del_prop] in H. pose proof (del_long_store p c n x) as D. rewrite H in D. cbn in D. rewrite D.
    rewrite lh_eqb_neq by exact X. reflexivity.
Qed.
Print Assumptions C19_frame.
Example C19_example : L_width <> L_color /\ (follows L_width L_color -> c_store sample L_width <> None)
  /\ get_prop plain_order (fst (fst (set_prop plain_order (Long L_color) (VStr "red") sample sample_n))) (Long L_width)
     = Ok (RValue AUTO).
Proof. split; [discriminate|]. split; [intros H; inversion H|]. vm_compute. reflexivity. Qed.

(** C21.  The bound node has a layout, currently clean or dirty according to d. *)
Theorem C21_dirty_exact : forall ho c n p d, valid_order ho -> c_node c = Some (Some d) ->
  (forall v c' n' r, set_prop ho (Long p) v c n = (c', n', r) ->
     (r <> Ok tt -> c' = c)
     /\ (forall w m, validate (ho_set ho) (choices_of p) n v = Ok (w, m) ->
           (* equal to the stored value, or to the initial one if nothing is stored *)
           let unchanged := match c_store c p with
                            | Some old => equals w old
                            | None => ~ follower p /\ equals w (css_initial p)
                            end in
           (unchanged -> c' = c)
           /\ (~ unchanged -> c_store c' p = Some w /\ c_node c' = Some (Some true))))
  /\ (forall c' n' r, del_prop (Long p) c n = (c', n', r) ->
        r = Ok tt /\ (c_store c p = None -> c' = c) /\ (c_store c p <> None -> c_node c' = Some (Some true))).
Proof.
  intros ho c n p d V N. split.
  - intros v c' n' r H. cbn [set_prop] in H. rewrite set_long_eq in H. destruct (validate _ _ n v) as [[w m]|e] eqn:W.
    + assert (L : has_layout (set_store c p (Some w))) by (unfold has_layout; cbn; congruence).
      rewrite (mark_dirty_ok _ L) in H. split; [destruct (same_value _ _) in H; congruence|].
      intros w' m' Q. injection Q as <- <-. intros unchanged.
      assert (E : same_value w (stored_or_initial ho c p) = true <-> unchanged).
      { unfold unchanged, stored_or_initial. destruct (c_store c p); [apply py_eqb_spec|]. rewrite (initial_spec _ _ V).
        destruct (follower_cases p) as [[[s ->]| ->]|[Wi F]].
        - cbn. split; [discriminate|]. intros [F _]. destruct F. exists L_color. constructor.
        - cbn. split; [discriminate|]. intros [F _]. destruct F. exists L_direction. constructor.
        - rewrite Wi. cbn [same_value]. rewrite py_eqb_spec. tauto. }
      destruct (same_value w _).
      * injection H as <- _ _. split; [reflexivity|]. intros X. destruct X. apply E. reflexivity.
      * injection H as <- _ _. split; [intros X; apply E in X; discriminate|]. intros _.
        rewrite mark_dirty_store, store_same, mark_dirty_node. cbn. rewrite N. auto.
    + injection H as <- _ <-. split; [reflexivity|discriminate].
  - intros c' n' r H. cbn [del_prop] in H. rewrite del_long_eq in H. destruct (c_store c p).
    + injection H as <- _ <-. split; [reflexivity|]. split; [discriminate|]. intros _. rewrite mark_dirty_node. cbn. rewrite N. reflexivity.
    + injection H as <- _ <-. split; [reflexivity|]. split; [reflexivity|congruence].
Qed.
Print Assumptions C21_dirty_exact.
Example C21_example : c_node sample = Some (Some false)
  /\ c_node (fst (fst (set_prop plain_order (Long (L_margin STop)) (VStr "5px") sample sample_n))) = Some (Some false)
  /\ c_node (fst (fst (set_prop plain_order (Long (L_margin STop)) (VStr "6px") sample sample_n))) = Some (Some true)
  /\ c_node (fst (fst (del_prop (Long L_color) sample sample_n))) = Some (Some true).
Proof. vm_compute. auto. Qed.

(** C22. *)
Lemma del_dir_store d c n : exists c', del_dir d c n = (c', n, Ok tt)
  /\ (forall q, c_store c' q = if existsb (lh_eqb q) (longhands_of (Dir d)) then None else c_store c q)
  /\ (has_layout c -> has_layout c').
Proof.
  unfold del_dir, sides. cbn [each]. unfold bind.
  repeat match goal with |- context [del_long ?p ?c ?n] =>
    let E := fresh "E" in let S := fresh "S" in let x := fresh "c" in
    destruct (del_long_ok p c n) as [x E]; pose proof (del_long_store p c n) as S;
    pose proof (del_long_layout p c n);
    rewrite E in *; cbn [fst] in *
  end.
  cbn [ret]. eexists. split; [reflexivity|]. split; [|tauto].
  intros q. rewrite S2, S1, S0, S. destruct d; cbn [longhands_of four existsb dir_side];
  repeat destruct (lh_eqb q _); reflexivity.
Qed.
Lemma dirty_store c n : exists c' r, dirty c n = (c', n, r) /\ c_store c' = c_store c /\ (r = Ok tt \/ r = Err AttributeError)
  /\ (has_layout c -> has_layout c' /\ r = Ok tt).
Proof.
  unfold dirty. pose proof (mark_dirty_store c). pose proof (mark_dirty_layout c). pose proof (mark_dirty_ok c). unfold mark_dirty in *.
  destruct (c_node c) as [[d|]|]; cbn in *; eauto 10.
Qed.
Lemma del_ld_store p c n : (forall s, p <> Short s) -> exists c', del_ld p c n = (c', n, Ok tt)
  /\ (forall q, c_store c' q = if existsb (lh_eqb q) (longhands_of p) then None else c_store c q)
  /\ (has_layout c -> has_layout c').
Proof.
  intros N. destruct p as [l|d|s]; [|apply del_dir_store|destruct (N s eq_refl)]. cbn [del_ld longhands_of existsb].
  destruct (del_long_ok l c n) as [c' E]. exists c'. split; [exact E|].
  pose proof (del_long_store l c n) as S. pose proof (del_long_layout l c n) as L. rewrite E in S, L. split; [|exact L].
  intros q. rewrite orb_false_r. apply S.
Qed.
Lemma del_prop_store p c n : exists c', del_prop p c n = (c', n, Ok tt)
  /\ (forall q, c_store c' q = if existsb (lh_eqb q) (longhands_of p) then None else c_store c q)
  /\ (has_layout c -> has_layout c').
Proof.
  destruct p as [l|d|s]; [apply (del_ld_store (Long l)); discriminate|apply del_dir_store|]. cbn [del_prop]. unfold del_short.
  assert (K : forall l, (forall k q s', In (k, q) l -> q <> Short s') -> forall c, exists c',
    each (fun kp : comp * prop => swallow (del_ld (snd kp) ;;c dirty)) l c n = (c', n, Ok tt)
    /\ (forall q, c_store c' q = if existsb (lh_eqb q) (flat_map (fun kp => longhands_of (snd kp)) l) then None else c_store c q)
    /\ (has_layout c -> has_layout c')).
  { induction l as [|[k q] l IH]; intros O a.
    - exists a. cbn. auto.
    - cbn [each]. unfold bind at 1. unfold swallow, bind. cbn [snd].
      destruct (del_ld_store q a n) as (a1 & E1 & S1 & L1); [intros s'; apply (O k); cbn; auto|]. rewrite E1.
      destruct (dirty_store a1 n) as (a2 & r & E2 & S2 & R & L2). rewrite E2.
      destruct (IH (fun k' q' s' I => O k' q' s' (or_intror I)) a2) as (a3 & E3 & S3 & L3).
      exists a3. split; [destruct R as [-> | ->]; exact E3|]. split; [|tauto].
      intros x. rewrite S3, S2, S1. cbn [flat_map snd]. rewrite existsb_app.
      destruct (existsb (lh_eqb x) (longhands_of q)); cbn; [destruct (existsb _ _); reflexivity|reflexivity]. }
  destruct (K (valid_keys s)) with (c := c) as (c' & E & S & L).
  { intros k q s'. destruct s; cbn; intuition congruence. }
  exists c'. split; [exact E|]. split; [|exact L]. intros q. rewrite S. destruct s; reflexivity.
Qed.

Lemma prop_names p : prop_of_name (prop_name p) = Some p /\ prop_of_name (underscored (dashed (prop_name p))) = Some p.
Proof. destruct p as [[]|[]|[]]; try destruct s; vm_compute; auto. Qed.
Lemma underscored_with s : underscored s = with_underscores s.
Proof. unfold underscored. induction s as [|[[] [] [] [] [] [] [] []] s IH]; cbn; rewrite ?IH; reflexivity. Qed.
Lemma dashed_with s : dashed s = with_dashes s.
Proof. unfold dashed. induction s as [|[[] [] [] [] [] [] [] []] s IH]; cbn; rewrite ?IH; reflexivity. Qed.
Lemma prop_name_python p : prop_name p = python_name p.
Proof. destruct p as [[]|[]|[]]; try destruct s; vm_compute; reflexivity. Qed.
Lemma prop_name_css p : dashed (prop_name p) = css_name p.
Proof. destruct p as [[]|[]|[]]; try destruct s; vm_compute; reflexivity. Qed.

Theorem C22_delete : forall ho c n p, valid_order ho ->
  exists c', del_prop p c n = (c', n, Ok tt)
    /\ (forall name, names_prop name p -> update ho [(name, VNone)] c n = (c', n, Ok tt))
    /\ (forall q, In q (longhands_of p) -> c_store c' q = None /\ (~ follower q -> get_prop ho c' (Long q) = Ok (RValue (css_initial q))))
    /\ (forall q, ~ In q (longhands_of p) -> c_store c' q = c_store c q)
    /\ exists c'', del_prop p c' n = (c'', n, Ok tt) /\ forall q, c_store c'' q = c_store c' q.
Proof.
  intros ho c n p V. destruct (del_prop_store p c n) as (c' & E & S & _). exists c'. split; [exact E|].
  assert (M : forall q l, existsb (lh_eqb q) l = true <-> In q l).
  { intros q l. rewrite existsb_exists. split; [intros (x & X & Q); apply lh_eqb_eq in Q; congruence|].
    intros I. exists q. split; [exact I|apply lh_eqb_refl]. }
  split; [|split; [|split]].
  - intros name N. pose proof (proj1 (prop_names p)) as P. cbn [update each]. unfold bind, update_item. cbn [fst snd].
    rewrite underscored_with, N, <- prop_name_python, P, E. reflexivity.
  - intros q I. apply M in I. specialize (S q). rewrite I in S. split; [exact S|]. intros F. cbn [get_prop].
    rewrite (get_long_plain _ _ _ V F), S. reflexivity.
  - intros q I. rewrite S. destruct (existsb _ _) eqn:X; [apply M in X; tauto|reflexivity].
  - destruct (del_prop_store p c' n) as (c2 & E2 & S2 & _). exists c2. split; [exact E2|]. intros q. rewrite S2, S.
    destruct (existsb _ _); reflexivity.
Qed.
Print Assumptions C22_delete.
Example C22_example : In L_outline_width (longhands_of (Short S_outline)) /\ ~ follower L_outline_width
  /\ get_prop plain_order sample (Long L_outline_width) = Ok (RValue (VStr "thin"))
  /\ get_prop plain_order (fst (fst (del_prop (Short S_outline) sample sample_n))) (Long L_outline_width) = Ok (RValue (VStr "medium")).
Proof. split; [cbn; auto|]. split; [intros [q H]; inversion H|]. vm_compute. auto. Qed.

(** C29. *)
Theorem C29_derived_defaults : forall ho c n, valid_order ho -> reachable ho c n ->
  (forall s, c_store c (L_border_color s) = None -> get_prop ho c (Long (L_border_color s)) = get_prop ho c (Long L_color))
  /\ (c_store c L_text_align = None ->
      (get_prop ho c (Long L_direction) = Ok (RValue (VStr "ltr")) /\ get_prop ho c (Long L_text_align) = Ok (RValue (VStr "left")))
      \/ (get_prop ho c (Long L_direction) = Ok (RValue (VStr "rtl")) /\ get_prop ho c (Long L_text_align) = Ok (RValue (VStr "right"))))
  /\ (forall q v, follower q -> c_store c q = Some v -> get_prop ho c (Long q) = Ok (RValue v)).
Proof.
  intros ho c n V R. assert (ND : ~ follower L_direction) by (intros [q H]; inversion H).
  assert (NC : ~ follower L_color) by (intros [q H]; inversion H). split; [|split].
  - intros s E. cbn [get_prop]. rewrite (get_long_color _ _ _ V), E, (get_long_plain _ _ _ V NC). reflexivity.
  - intros E. pose proof (direction_stored _ _ _ V R) as D. cbn [get_prop]. rewrite (get_long_text_align _ _ V D), E, (get_long_plain _ _ _ V ND).
    unfold dir_stored in D. destruct (c_store c L_direction) as [v|]; [|auto]. destruct (D v eq_refl) as [-> | ->]; auto.
  - intros q v _ E. destruct (get_long_ok ho c n q V R) as (x & G & S). cbn [get_prop]. rewrite G, (S v E). reflexivity.
Qed.
Print Assumptions C29_derived_defaults.
Example C29_example : c_store sample (L_border_color STop) = None /\ c_store sample L_text_align = None
  /\ get_prop plain_order sample (Long (L_border_color STop)) = Ok (RValue (named_color "rebeccapurple"))
  /\ get_prop plain_order sample (Long L_text_align) = Ok (RValue (VStr "right")).
Proof. vm_compute. auto. Qed.

(** C26. *)
Lemma underscored_idem s : underscored (underscored s) = underscored s.
Proof.
  unfold underscored. induction s as [|c s IH]; cbn [replace_char]; [reflexivity|].
  destruct (Ascii.eqb c "-") eqn:E; rewrite IH; [reflexivity|]. rewrite E. reflexivity.
Qed.
Lemma find_prop_spec l name : match find_prop l name with
  | Some p => In p l /\ prop_name p = name
  | None => ~ In name (map prop_name l)
  end.
Proof.
  induction l as [|p l IH]; cbn [find_prop]; [cbn; tauto|]. destruct (String.eqb (prop_name p) name) eqn:E.
  - apply String.eqb_eq in E. cbn. auto.
  - apply String.eqb_neq in E. destruct (find_prop l name); cbn; intuition.
Qed.
Lemma all_props_in p : In p all_props.
Proof. destruct p as [[]|[]|[]]; try destruct s; vm_compute; tauto. Qed.

Theorem C26_names : forall ho c n,
  (* dashes and underscores are the same *)
  (forall a b, with_underscores a = with_underscores b ->
     getitem ho c a = getitem ho c b /\ (forall v, setitem ho a v c n = setitem ho b v c n)
     /\ delitem a c n = delitem b c n /\ (forall v, update ho [(a, v)] c n = update ho [(b, v)] c n))
  (* the CSS name of a property, written either way, is that property *)
  /\ (forall p name, names_prop name p ->
        getitem ho c name = get_prop ho c p /\ (forall v, setitem ho name v c n = set_prop ho p v c n)
        /\ (exists c', delitem name c n = (c', n, Ok tt) /\ del_prop p c n = (c', n, Ok tt)))
  (* any other name is unknown *)
  /\ (forall name, (forall p, ~ names_prop name p) ->
        getitem ho c name = Err KeyError /\ (forall v, setitem ho name v c n = (c, n, Err KeyError))
        /\ delitem name c n = (c, n, Err KeyError) /\ (forall v, update ho [(name, v)] c n = (c, n, Err NameError)))
  (* update is the sequence of its items *)
  /\ (update ho [] c n = (c, n, Ok tt))
  /\ (forall p name v l, names_prop name p ->
        update ho ((name, v) :: l) c n =
        match (match v with VNone => del_prop p c n | _ => set_prop ho p v c n end) with
        | (c', n', Ok _) => update ho l c' n'
        | failed => failed
        end).
Proof.
  intros ho c n.
  assert (P : forall p name, names_prop name p -> prop_of_name (underscored name) = Some p).
  { intros p name N. unfold names_prop in N. rewrite underscored_with, N, <- prop_name_python. apply prop_names. }
  split; [|split; [|split; [|split]]].
  - intros a b E. rewrite <- !underscored_with in E. unfold getitem, setitem, delitem, update. cbn [each]. unfold bind, update_item. cbn [fst snd]. rewrite E. auto.
  - intros p name N. apply P in N. unfold getitem, setitem, delitem. rewrite N. split; [reflexivity|]. split; [reflexivity|].
    destruct (del_prop_store p c n) as (c' & E & _). exists c'. unfold swallow. rewrite E. auto.
  - intros name N. assert (U : prop_of_name (underscored name) = None).
    { unfold prop_of_name. pose proof (find_prop_spec all_props (underscored name)) as F. destruct (find_prop _ _) as [p|]; [|reflexivity].
      destruct F as [_ F]. destruct (N p). unfold names_prop. rewrite <- underscored_with, <- prop_name_python. congruence. }
    unfold getitem, setitem, delitem, update. cbn [each]. unfold bind, update_item. cbn [fst snd]. rewrite U. auto.
  - reflexivity.
  - intros p name v l N. apply P in N. cbn [update each]. unfold bind at 1. unfold update_item at 1. cbn [fst snd]. rewrite N. destruct v; try reflexivity;
      match goal with |- context [set_prop ?a ?b ?d ?e ?f] => destruct (set_prop a b d e f) as [[? ?] [[]|]]; reflexivity
                 | |- context [del_prop ?b ?e ?f] => destruct (del_prop b e f) as [[? ?] [[]|]]; reflexivity end.
Qed.
Print Assumptions C26_names.
Example C26_example : names_prop "margin-top" (Long (L_margin STop)) /\ names_prop "margin_top" (Long (L_margin STop)) /\ (forall p, ~ names_prop "flex-grow" p)
  /\ getitem plain_order sample "margin-top" = Ok (RValue (VUnit (mkU KPx (PI 5)))).
Proof.
  split; [reflexivity|]. split; [reflexivity|]. split; [|vm_compute; reflexivity].
  intros p. destruct p as [[]|[]|[]]; try destruct s; vm_compute; discriminate.
Qed.
