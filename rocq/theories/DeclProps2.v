(** * Properties of style declarations: errors, directional properties, shorthands *)
From Coq Require Import ZArith QArith Qcanon Bool String Ascii List Permutation Lia.
From Verif Require Import PyNum Units Float64 PyStr Colors Values Parser Choices Shorthand Decl DeclSpec StrFacts DeclFacts DeclNorm DeclErrors DeclProps.
Import ListNotations.
Open Scope string_scope.

Lemma fixed_point_reassignable v : fixed_point v -> reassignable v.
Proof.
  destruct v; cbn; try tauto.
  destruct (u_kind u); try reflexivity. contradiction.
Qed.
(** stored values are results of validations *)
Lemma stored_validated ho c n p w : valid_order ho -> reachable ho c n -> c_store c p = Some w ->
  exists v i j, validate (ho_set ho) (choices_of p) i v = Ok (w, j).
Proof.
  intros V R E. revert p w E. apply (stored_by_reachable ho (fun p w => exists v i j, validate (ho_set ho) (choices_of p) i v = Ok (w, j)) c n); [|exact R].
  intros. eauto.
Qed.
Lemma initial_again ho p m : valid_order ho -> ~ follower p -> p <> L_border_spacing ->
  validate (ho_set ho) (choices_of p) m (css_initial p) = Ok (css_initial p, m).
Proof.
  intros V F N. rewrite (validate_ho ho plain_order V plain_valid).
  destruct p; try congruence; try (vm_compute; reflexivity).
  - destruct F. exists L_color. constructor.
  - destruct F. exists L_direction. constructor.
Qed.

(** C16. *)
Definition C16_normal_forms : Prop :=
  forall ho c n p r, valid_order ho -> reachable ho c n -> has_layout c ->
  (follower p -> c_store c p <> None) -> get_prop ho c (Long p) = Ok (RValue r) ->
  exists c', set_prop ho (Long p) r c n = (c', n, Ok tt) /\ reads_same ho c c'.
(** C16, for the values the setters accept again ([fixed_point]).  Missing: the
    other values, for which it is false (C16_refuted, C83). *)
Theorem C16_normal_forms_partial : forall ho c n p r, valid_order ho -> reachable ho c n -> has_layout c ->
  (follower p -> c_store c p <> None) -> get_prop ho c (Long p) = Ok (RValue r) ->
  fixed_point r ->
  exists c', set_prop ho (Long p) r c n = (c', n, Ok tt) /\ reads_same ho c c'.
Proof.
  intros ho c n p r V R L U G FP. apply fixed_point_reassignable in FP.
  cbn [get_prop] in G. destruct (get_long_ok ho c n p V R) as (x & G' & S). rewrite G' in G. cbn in G. injection G as ->.
  assert (W : validate (ho_set ho) (choices_of p) n r = Ok (r, n)).
  { destruct (c_store c p) as [y|] eqn:Y.
    - rewrite (S y eq_refl) in *. destruct (stored_validated ho c n p y V R Y) as (v & i & j & E).
      apply (validate_again ho p i v y j V E FP).
    - assert (F : ~ follower p) by (intros F; destruct (U F eq_refl)). rewrite (get_long_plain _ _ _ V F), Y in G'. injection G' as <-.
      apply initial_again; [exact V|exact F|]. intros ->. exact FP. }
  destruct (set_long_accepts ho p r c n r n L W) as (c' & E & _). exists c'. split; [exact E|].
  apply set_long_ok in E. destruct E as (w & W' & E). rewrite W in W'. injection W' as <-. destruct E as [[_ ->]|[Q ->]]; [intros q; reflexivity|].
  destruct (c_store c p) as [y|] eqn:Y.
  - rewrite (S y eq_refl) in *. intros q. apply get_prop_store. intros z. rewrite mark_dirty_store.
    destruct (longhand_eq_dec z p) as [->|NZ]; [rewrite store_same; exact Y|]. rewrite store_other by exact NZ. reflexivity.
  - assert (F : ~ follower p) by (intros F; destruct (U F eq_refl)). rewrite (get_long_plain _ _ _ V F), Y in G'. injection G' as <-.
    unfold stored_or_initial in Q. rewrite Y, (initial_spec _ _ V) in Q. destruct (follower_cases p) as [[[s ->]| ->]|[Wi _]].
    + destruct F. exists L_color. constructor.
    + destruct F. exists L_direction. constructor.
    + rewrite Wi in Q. cbn in Q. exfalso. clear -Q FP. destruct p; cbn in FP, Q; try discriminate; vm_compute in Q; discriminate.
Qed.
Print Assumptions C16_normal_forms_partial.
Example C16_example : fixed_point (VUnit (mkU KPx (PI 5))) /\ c_store sample (L_margin STop) = Some (VUnit (mkU KPx (PI 5)))
  /\ has_layout sample.
Proof. split; [exact I|]. split; [vm_compute; reflexivity|]. vm_compute. discriminate. Qed.

(** Counterexamples: an angle stored as a length, a border spacing, a clip
    rectangle, quotes and a url cursor are all rejected when assigned again. *)
Definition reassign_fails (p : longhand) (v : pyval) : Prop :=
  exists c n r e, set_prop plain_order (Long p) v fresh_css first_free = (c, n, Ok tt)
    /\ get_prop plain_order c (Long p) = Ok (RValue r) /\ snd (set_prop plain_order (Long p) r c n) = Err e.
(** the outcome of a statement, by its parts *)
Lemma outcome {A} (x : css * nat * res A) r : snd x = r -> x = (fst (fst x), snd (fst x), r).
Proof. destruct x as [[c n] r']. cbn. congruence. Qed.
Lemma ran {A} (x : css * nat * res A) r (P : css -> nat -> Prop) : snd x = r -> P (fst (fst x)) (snd (fst x)) -> exists c n, x = (c, n, r) /\ P c n.
Proof. intros H Q. exists (fst (fst x)), (snd (fst x)). split; [apply outcome, H|exact Q]. Qed.
Lemma reassign_fails_by p v : (let x := set_prop plain_order (Long p) v fresh_css first_free in
  match snd x, get_prop plain_order (fst (fst x)) (Long p) with
  | Ok tt, Ok (RValue r) => match snd (set_prop plain_order (Long p) r (fst (fst x)) (snd (fst x))) with Err _ => true | _ => false end
  | _, _ => false
  end) = true -> reassign_fails p v.
Proof.
  cbv zeta. intros H. destruct (snd (set_prop _ _ v _ _)) as [[]|] eqn:E; [|discriminate].
  destruct (get_prop _ _ _) as [[r| |]|] eqn:G; try discriminate. destruct (snd (set_prop _ _ r _ _)) eqn:F; [discriminate|].
  eexists _, _, r, _. split; [apply outcome, E|split; [exact G|exact F]].
Qed.
Theorem C16_refuted :
  reassign_fails L_width (VStr "10deg") /\ reassign_fails L_border_spacing (VStr "1px 2px")
  /\ reassign_fails L_clip (VStr "rect(1px, 2px, 3px, 4px)") /\ reassign_fails L_quotes (VStr "'<' '>'")
  /\ reassign_fails L_cursor (VStr "url(x), auto").
Proof.
  split; [|split; [|split; [|split]]]; apply reassign_fails_by; vm_compute; reflexivity.
Qed.
Print Assumptions C16_refuted.
Theorem C16_statement_refuted : ~ C16_normal_forms.
Proof.
  intros H.
  pose (o := [OpSet (Long L_width) (VStr "10deg")]).
  specialize (H plain_order (fst (run_ops plain_order o fresh_css first_free)) first_free L_width (VUnit (mkU (KAngle "deg" 1) (PF (Fin (Q2Qc 10)))))).
  destruct H as (c' & E & _).
  - apply plain_valid.
  - exists o. unfold o. reflexivity.
  - vm_compute. discriminate.
  - intros [q F]. inversion F.
  - vm_compute. reflexivity.
  - cbn [set_prop] in E. rewrite set_long_eq in E.
    match type of E with context [validate ?a ?b ?c ?d] => assert (X : validate a b c d = Err ValueError) by (vm_compute; reflexivity) end.
    rewrite X in E. discriminate.
Qed.
Print Assumptions C16_statement_refuted.

(** C17, except for the listed inputs ([escapes]).  Missing: those inputs, which
    do raise other exceptions (C17_refuted, C84). *)
Theorem C17_value_error_partial : forall ho c n p v c' n' e, has_layout c -> set_prop ho (Long p) v c n = (c', n', Err e) ->
  e = ValueError \/ escapes p v.
Proof.
  intros ho c n p v c' n' e L H. cbn [set_prop] in H. rewrite set_long_eq in H. destruct (validate _ _ n v) as [[w m]|x] eqn:W.
  - destruct (same_value _ _); [discriminate|]. rewrite mark_dirty_ok in H by exact L. discriminate.
  - injection H as _ _ <-. apply validate_escapes in W. destruct W as [W|W]; [left; rewrite W; reflexivity|right; exact W].
Qed.
Print Assumptions C17_value_error_partial.
Example C17_example : set_prop plain_order (Long L_width) (VStr "wide") sample sample_n = (sample, sample_n, Err ValueError)
  /\ ~ escapes L_width (VStr "wide").
Proof. split; [vm_compute; reflexivity|]. intros H. inversion H; subst; cbn in *; intuition (try discriminate); match goal with X : exists _, _ |- _ => destruct X; discriminate end. Qed.
Definition raises (p : prop) (v : pyval) (e : exn) : Prop := snd (set_prop plain_order p v fresh_css first_free) = Err e.
Theorem C17_refuted :
  raises (Long L_color) (VStr "") IndexError /\ raises (Long L_clip) VNone AttributeError
  /\ raises (Long L_border_spacing) VNone AttributeError /\ raises (Long L_cursor) (VInt 5) TypeError
  /\ raises (Long L_z_index) (VFloat (Inf false)) OverflowError /\ raises (Short S_outline) (VList [VStr ""]) IndexError.
Proof. unfold raises. repeat split; vm_compute; reflexivity. Qed.
Print Assumptions C17_refuted.

(** C20, for longhands, one-sided borders and border.  Missing: directional
    properties, outline and update(), for which it is false (C20_refuted, C85). *)
Theorem C20_atomic_partial : forall ho c n p v c' n' e, valid_order ho -> has_layout c ->
  match p with Long _ | Short (S_border_side _) | Short S_border => True | _ => False end ->
  set_prop ho p v c n = (c', n', Err e) -> c' = c.
Proof.
  intros ho c n p v c' n' e V L P H. destruct p as [l|d|s]; [|destruct P|].
  - apply (set_long_fail ho l v c n c' n' e L H).
  - cbn [set_prop] in H. eapply set_short_atomic; [exact V| |exact L|exact H]. intros ->. exact P.
Qed.
Print Assumptions C20_atomic_partial.
Example C20_example : snd (set_prop plain_order (Short S_border) (VStr "solid 10deg red") sample sample_n) = Err ValueError
  /\ has_layout sample.
Proof. split; [vm_compute; reflexivity|]. vm_compute. discriminate. Qed.
(** A failed assignment that leaves the declaration changed. *)
Definition half_done (o : op) : Prop :=
  exists e q c n, run_op plain_order o fresh_css first_free = (c, n, Err e)
    /\ get_prop plain_order c q <> get_prop plain_order fresh_css q.
Theorem C20_refuted :
  half_done (OpSet (Dir D_margin) (VTuple [VInt 1; VStr "bad"]))
  /\ half_done (OpSet (Short S_outline) (VStr "red 10deg"))
  /\ half_done (OpUpdate [("width", VInt 10); ("height", VStr "bad")]).
Proof.
  unfold half_done. split; [|split].
  - exists ValueError, (Long (L_margin STop)). apply ran; [vm_compute; reflexivity|vm_compute; discriminate].
  - exists ValueError, (Long L_outline_color). apply ran; [vm_compute; reflexivity|vm_compute; discriminate].
  - exists ValueError, (Long L_width). apply ran; [vm_compute; reflexivity|vm_compute; discriminate].
Qed.
Print Assumptions C20_refuted.

(** C23. *)
Theorem C23_directional : forall ho c n d v, valid_order ho -> reachable ho c n ->
  (sides_of v = None -> set_prop ho (Dir d) v c n = (c, n, Err ValueError))
  /\ (forall f, sides_of v = Some f ->
        (forall c' n', set_prop ho (Dir d) v c n = (c', n', Ok tt) ->
           (forall s, reads_as ho c' (side_prop d s) (f s))
           /\ (forall q, (forall s, q <> side_prop d s) -> c_store c' q = c_store c q))
        /\ (has_layout c -> (forall s, exists w m, validate (ho_set ho) (choices_of (side_prop d s)) 0 (f s) = Ok (w, m)) ->
            exists c' n', set_prop ho (Dir d) v c n = (c', n', Ok tt)))
  /\ (exists top right bottom left,
        get_prop ho c (Long (side_prop d STop)) = Ok (RValue top) /\ get_prop ho c (Long (side_prop d SRight)) = Ok (RValue right)
        /\ get_prop ho c (Long (side_prop d SBottom)) = Ok (RValue bottom) /\ get_prop ho c (Long (side_prop d SLeft)) = Ok (RValue left)
        /\ get_prop ho c (Dir d) = Ok (RSides [top; right; bottom; left])).
Proof.
  intros ho c n d v V R. assert (SP : forall s, side_prop d s = dir_side d s) by (destruct d; reflexivity).
  pose proof (set_dir_sides ho d v) as SD. split; [|split].
  - intros E. rewrite E in SD. cbn [set_prop]. rewrite SD. reflexivity.
  - intros f E. rewrite E in SD. destruct SD as (t & r & b & l & SD & F). cbn [set_prop]. rewrite SD. split.
    + intros c' n' H. assert (R' : reachable ho c' n') by (eapply (reachable_op ho c n (OpSet (Dir d) v) R); cbn [run_op set_prop]; rewrite SD; exact H).
      apply (set_sides_ok _ _ _ _ _ _ _ _ _ _ V) in H. destruct H as [H1 H2]. split.
      * intros s. rewrite SP, F. apply (took_get ho c' n' _ _ V R'), H1.
      * intros q N. apply H2. intros s. rewrite <- SP. apply N.
    + intros L A. destruct (set_sides_accepts ho d t r b l c n L) as (c' & n' & H & _); [|eauto].
      intros s. rewrite <- SP, <- F. apply A.
  - destruct (get_long_ok ho c n (dir_side d STop) V R) as (a & A & _), (get_long_ok ho c n (dir_side d SRight) V R) as (b & B & _),
      (get_long_ok ho c n (dir_side d SBottom) V R) as (e & E & _), (get_long_ok ho c n (dir_side d SLeft) V R) as (g & G & _).
    exists a, b, e, g. cbn [get_prop]. unfold get_dir. cbn [map_res sides]. rewrite (SP STop), (SP SRight), (SP SBottom), (SP SLeft), A, B, E, G. repeat split; reflexivity.
Qed.
Print Assumptions C23_directional.
Example C23_example :
  sides_of (VTuple [VInt 1; VInt 2; VInt 3]) <> None /\ sides_of (VTuple []) = None
  /\ get_prop plain_order (fst (fst (set_prop plain_order (Dir D_margin) (VTuple [VInt 1; VInt 2; VInt 3]) sample sample_n))) (Dir D_margin)
     = Ok (RSides [VUnit (mkU KPx (PI 1)); VUnit (mkU KPx (PI 2)); VUnit (mkU KPx (PI 3)); VUnit (mkU KPx (PI 2))]).
Proof. split; [discriminate|]. split; [reflexivity|]. vm_compute. reflexivity. Qed.

(** C24. *)
Lemma values_text ws : Forall word ws -> ws <> [] -> shorthand_values (VStr (join " " ws)) = Ok (map VStr ws).
Proof.
  intros F N. unfold shorthand_values. assert (T : truthy (VStr (join " " ws)) = true).
  { destruct ws as [|w ws]; [congruence|]. inversion F as [|? ? [W _] F']. destruct w as [|a w]; [congruence|]. destruct ws; reflexivity. }
  rewrite T, (split_join _ F). f_equal. rewrite <- (map_map strip VStr). f_equal. clear N T. induction F as [|w ws [_ W] F IH]; [reflexivity|].
  cbn [map]. rewrite IH, (strip_word _ W). reflexivity.
Qed.
Lemma values_seq l : l <> [] -> shorthand_values (VTuple l) = Ok l /\ shorthand_values (VList l) = Ok l.
Proof. destruct l; [congruence|]. split; reflexivity. Qed.

Theorem C24_order : forall ho sh c n c' n', valid_order ho ->
  (forall l l', Permutation l l' ->
     set_prop ho (Short sh) (VTuple l) c n = (c', n', Ok tt) -> set_prop ho (Short sh) (VTuple l') c n = (c', n', Ok tt))
  /\ (forall l l', Permutation l l' ->
     set_prop ho (Short sh) (VList l) c n = (c', n', Ok tt) -> set_prop ho (Short sh) (VList l') c n = (c', n', Ok tt))
  /\ (forall ws ws', Forall word ws -> Permutation ws ws' ->
     set_prop ho (Short sh) (VStr (String.concat " " ws)) c n = (c', n', Ok tt) -> set_prop ho (Short sh) (VStr (String.concat " " ws')) c n = (c', n', Ok tt)).
Proof.
  change String.concat with join in *.
  intros ho sh c n c' n' V. split; [|split].
  - intros l l' P. destruct l as [|x l]; [apply Permutation_nil in P; subst; auto|]. cbn [set_prop].
    assert (N : l' <> []) by (intros ->; apply Permutation_sym, Permutation_nil in P; discriminate).
    apply (set_short_perm ho V sh _ _ (x :: l) l'); [reflexivity|apply values_seq, N|exact P].
  - intros l l' P. destruct l as [|x l]; [apply Permutation_nil in P; subst; auto|]. cbn [set_prop].
    assert (N : l' <> []) by (intros ->; apply Permutation_sym, Permutation_nil in P; discriminate).
    apply (set_short_perm ho V sh _ _ (x :: l) l'); [reflexivity|apply values_seq, N|exact P].
  - intros ws ws' F P. destruct ws as [|x l]; [apply Permutation_nil in P; subst; auto|]. cbn [set_prop].
    assert (N : ws' <> []) by (intros ->; apply Permutation_sym, Permutation_nil in P; discriminate).
    apply (set_short_perm ho V sh _ _ (map VStr (x :: l)) (map VStr ws')); [apply values_text; [exact F|discriminate]| |apply Permutation_map, P].
    apply values_text; [|exact N]. eapply Permutation_Forall; eassumption.
Qed.
Print Assumptions C24_order.
(** Every part is taken by one component, no two by the same one; the
    components without a part are reset; nothing else changes. *)
Theorem C24_components : forall ho sh v l c n c' n', valid_order ho -> reachable ho c n ->
  (v = VTuple l \/ v = VList l \/ exists ws, Forall word ws /\ v = VStr (String.concat " " ws) /\ l = map VStr ws) ->
  set_prop ho (Short sh) v c n = (c', n', Ok tt) ->
  exists taken, NoDup taken
    /\ Forall2 (fun k part => forall q, In q (component sh k) -> reads_as ho c' q part) taken l
    /\ (forall k q, ~ In k taken -> In q (component sh k) -> c_store c' q = None)
    /\ (forall q, ~ In q (longhands_of (Short sh)) -> c_store c' q = c_store c q).
Proof.
  change String.concat with join in *.
  intros ho sh v l c n c' n' V R S H. assert (R' : reachable ho c' n') by (eapply (reachable_op ho c n (OpSet (Short sh) v) R); exact H).
  cbn [set_prop] in H. apply set_short_ok in H; [|exact V]. destruct H as (l' & asg & S' & ND & _ & F & O & Fr).
  assert (l' = l) as ->.
  { destruct S as [->|[->|(ws & W & -> & ->)]].
    - destruct l as [|x l]; [discriminate|]. injection S' as <-. reflexivity.
    - destruct l as [|x l]; [discriminate|]. injection S' as <-. reflexivity.
    - destruct ws as [|w ws]; [discriminate|]. rewrite values_text in S' by (assumption || discriminate). congruence. }
  exists asg. split; [exact ND|]. split; [|split; [exact O|]].
  - clear -F V R'. induction F as [|k x asg l X F IH]; constructor; [|exact IH]. intros q Iq. apply (took_get ho c' n' _ _ V R'), X, Iq.
  - intros q N. apply Fr. intros k Ik. apply N. destruct sh, k; cbn in *; tauto.
Qed.
Print Assumptions C24_components.
Example C24_example : exists c' n', set_prop plain_order (Short S_outline) (VStr (String.concat " " ["thick"; "#123456"; "dashed"])) sample sample_n = (c', n', Ok tt)
  /\ set_prop plain_order (Short S_outline) (VStr (String.concat " " ["dashed"; "thick"; "#123456"])) sample sample_n = (c', n', Ok tt)
  /\ Forall word ["thick"; "#123456"; "dashed"].
Proof.
  change String.concat with join in *.
  destruct (set_prop plain_order (Short S_outline) (VStr (join " " ["thick"; "#123456"; "dashed"])) sample sample_n) as [[c' n'] r] eqn:E.
  assert (r = Ok tt) as -> by (change r with (snd (c', n', r)); rewrite <- E; vm_compute; reflexivity).
  assert (W : Forall word ["thick"; "#123456"; "dashed"]) by (repeat constructor; discriminate).
  exists c', n'. split; [reflexivity|]. split; [|exact W].
  destruct (C24_order plain_order S_outline sample sample_n c' n' plain_valid) as (_ & _ & K).
  apply (K ["thick"; "#123456"; "dashed"]); [exact W| |exact E]. apply Permutation_sym. apply (Permutation_cons_append ["thick"; "#123456"] "dashed").
Qed.

(** C25, for all shorthands but border.  Missing: border, which always reads as
    the empty string (C25_refuted). *)
Theorem C25_read_back_partial : forall ho sh v l c n c' n', valid_order ho -> reachable ho c n -> sh <> S_border ->
  (v = VTuple l \/ v = VList l \/ exists ws, Forall word ws /\ v = VStr (String.concat " " ws) /\ l = map VStr ws) ->
  set_prop ho (Short sh) v c n = (c', n', Ok tt) ->
  exists shown, get_prop ho c' (Short sh) = Ok (RParts shown)
    (* everything shown was given, and is what the longhand reads *)
    /\ (forall q r, In (q, r) shown -> exists k part, In part l /\ q = Long k /\ In k (longhands_of (Short sh)) /\ reads_as ho c' k part
                    /\ get_prop ho c' (Long k) = Ok (RValue r))
    (* every part given is shown, unless it equals the initial value *)
    /\ (forall part, In part l -> exists k m w m', In k (longhands_of (Short sh)) /\ validate (ho_set ho) (choices_of k) m part = Ok (w, m')
          /\ ((exists r, In (Long k, r) shown /\ (r = w \/ equals w r)) \/ equals w (css_initial k))).
Proof.
  change String.concat with join in *.
  intros ho sh v l c n c' n' V R NB S H. assert (R' : reachable ho c' n') by (eapply (reachable_op ho c n (OpSet (Short sh) v) R); exact H).
  cbn [set_prop] in H. apply set_short_ok in H; [|exact V]. destruct H as (l' & asg & S' & ND & _ & F & O & Fr).
  assert (l' = l) as ->.
  { destruct S as [->|[->|(ws & W & -> & ->)]].
    - destruct l as [|x l]; [discriminate|]. injection S' as <-. reflexivity.
    - destruct l as [|x l]; [discriminate|]. injection S' as <-. reflexivity.
    - destruct ws as [|w ws]; [discriminate|]. rewrite values_text in S' by (assumption || discriminate). congruence. }
  exists (get_short c' sh). split; [reflexivity|].
  assert (Sh : forall q r, In (q, r) (get_short c' sh) <-> exists k j, q = Long k /\ In k (component sh j) /\ c_store c' k = Some r).
  { intros q r. unfold get_short. rewrite in_flat_map. split.
    - intros ((j & p) & I & X). destruct (keys_long _ _ _ I) as [(k & -> & E)|(e & -> & E)]; cbn [snd] in X; [|destruct X].
      destruct (c_store c' k) as [y|] eqn:Y; [|destruct X]. destruct X as [X|[]]. injection X as <- <-. exists k, j. rewrite E. cbn. auto.
    - intros (k & j & -> & I & X). exists (j, Long k). split; [|cbn [snd]; rewrite X; cbn; auto].
      destruct sh, j; cbn in I |- *; try congruence; destruct I as [<-|[]]; auto. }
  assert (LH : forall k j, In k (component sh j) -> In k (longhands_of (Short sh))) by (intros k j; destruct sh, j; cbn; tauto).
  split.
  - intros q r I. apply Sh in I. destruct I as (k & j & -> & Ik & X).
    assert (J : In j asg).
    { destruct (in_dec (fun a b : comp => ltac:(decide equality) : {a = b} + {a <> b}) j asg) as [|Z]; [assumption|]. rewrite (O j k Z Ik) in X. discriminate. }
    assert (P : exists part, In part l /\ took ho c' k part).
    { clear -F J Ik. induction F as [|i x asg l X F IH]; [destruct J|]. destruct J as [->|J]; [exists x; cbn; auto|]. destruct (IH J) as (y & Y & Z). exists y. cbn. auto. }
    destruct P as (part & Ip & T). exists k, part. split; [exact Ip|]. split; [reflexivity|]. split; [apply (LH k j Ik)|].
    split; [apply (took_get ho c' n' _ _ V R' T)|]. destruct (get_long_ok ho c' n' k V R') as (y & G & Z). cbn [get_prop]. rewrite G, (Z r X). reflexivity.
  - intros part Ip. assert (P : exists j, forall q, In q (component sh j) -> took ho c' q part).
    { clear -F Ip. induction F as [|i x asg l X F IH]; [destruct Ip|]. destruct Ip as [->|J]; [exists i; auto|]. auto. }
    destruct P as (j & P). assert (E : exists k, component sh j = [k]) by (destruct sh, j; cbn; eauto; congruence). destruct E as (k & E).
    assert (Ik : In k (component sh j)) by (rewrite E; cbn; auto).
    destruct (P k Ik) as (m & w & m' & W & T). exists k, m, w, m'. split; [apply (LH k j Ik)|]. split; [exact W|].
    destruct (c_store c' k) as [r|] eqn:Y; [left; exists r; split; [apply Sh; eauto|destruct T as [T|T]; [auto|right; apply py_eqb_spec, T]]|right; apply py_eqb_spec, T].
Qed.
Print Assumptions C25_read_back_partial.
Example C25_example : exists c' n', set_prop plain_order (Short (S_border_side STop)) (VStr (String.concat " " ["2px"; "solid"])) sample sample_n = (c', n', Ok tt)
  /\ get_prop plain_order c' (Short (S_border_side STop)) = Ok (RParts [(Long (L_border_width STop), VUnit (mkU KPx (PF (Fin (Q2Qc 2)))));
       (Long (L_border_style STop), VStr "solid")]).
Proof. change String.concat with join in *. apply ran; (vm_compute; reflexivity). Qed.
(** [border] always reads as empty. *)
Theorem C25_refuted :
  (forall ho c, get_prop ho c (Short S_border) = Ok (RParts []))
  /\ exists c' n', set_prop plain_order (Short S_border) (VStr "2px solid") fresh_css first_free = (c', n', Ok tt)
     /\ get_prop plain_order c' (Long (L_border_style STop)) = Ok (RValue (VStr "solid")).
Proof. split; [reflexivity|]. apply ran; (vm_compute; reflexivity). Qed.
Print Assumptions C25_refuted.

(** C83: exactly which values can be assigned again. *)
Lemma cursor_items_text l : forall n seen x, cursor_items n seen l = Ok x -> forallb is_string l = true.
Proof.
  induction l as [|v l IH]; intros n seen x; cbn [cursor_items forallb]; [reflexivity|].
  destruct (is_cursor_option v) eqn:C.
  - destruct seen; [discriminate|]. destruct (cursor_items n true l) as [y|] eqn:E; cbn [bindr]; [|discriminate].
    intros _. rewrite (IH _ _ _ E). apply cursor_option_text in C. destruct v; try discriminate. reflexivity.
  - destruct seen; [discriminate|]. destruct (uri n v) as [[u k]|] eqn:U; cbn [try_value].
    + cbn [bindr fst snd]. destruct (cursor_items k false l) as [y|] eqn:E; cbn [bindr]; [|discriminate]. intros _. rewrite (IH _ _ _ E).
      unfold uri in U. destruct v; try discriminate. reflexivity.
    + destruct (is_value_error e); cbn [bindr]; discriminate.
Qed.
Lemma not_fixed_rejected ho p i v r j n w n' : valid_order ho -> validate (ho_set ho) (choices_of p) i v = Ok (r, j) ->
  validate (ho_set ho) (choices_of p) n r = Ok (w, n') -> fixed_point r.
Proof.
  intros V H H'. apply validate_inv in H; [|apply choices_of_ok|apply V]. destruct H as [(f & F & H)|(_ & _ & _ & I)].
  - apply validate_inv in H'; [|apply choices_of_ok|apply V].
    destruct H' as [(g & G & H')|(_ & _ & W & I)].
    + assert (K : f = g \/ (f = is_length /\ g = is_percentage) \/ (f = is_percentage /\ g = is_length)).
      { destruct p; cbn in F, G; intuition (subst; auto); congruence. }
      destruct f; cbn [run_validator] in H.
      * destruct (as_validation (units v)) as [u|]; cbn in H; [|discriminate]. injection H as <- <-. cbn.
        assert (U : exists u', units (VUnit u) = Ok u').
        { destruct K as [<-|[[_ ->]|[X _]]]; [| |discriminate]; cbn [run_validator] in H'; destruct (as_validation (units (VUnit u))) as [u'|] eqn:E; cbn in H'; try discriminate;
            apply as_validation_ok in E; eauto. }
        destruct U as [u' U]. unfold units, units_in in U. destruct (u_kind u); try exact Logic.I. discriminate.
      * destruct (as_validation (units v)) as [u|]; cbn in H; [|discriminate].
        destruct (u_kind u) eqn:KU; try discriminate. destruct (u_ltb _ _); [discriminate|]. injection H as <- <-. cbn. rewrite KU. exact Logic.I.
      * destruct (as_validation_t (int_of v)); cbn in H; [|discriminate]. injection H as <- <-. exact Logic.I.
      * apply as_validation_ok, color_ok in H. destruct H as (o & c & -> & _). exact Logic.I.
      * apply as_validation_ok, spacing_ok in H. destruct H as (h & x & -> & _). destruct K as [<-|[[X _]|[X _]]]; try discriminate.
      * destruct (as_validation (rect v)) as [q|] eqn:E; cbn in H; [|discriminate]. injection H as <- <-.
        apply as_validation_ok, rect_ok in E. destruct E as (a & b & c & d & ->). destruct K as [<-|[[X _]|[X _]]]; discriminate.
      * destruct (as_validation (quotes v)) as [q|] eqn:E; cbn in H; [|discriminate]. injection H as <- <-.
        apply as_validation_ok, quotes_ok in E. destruct E as (l & ->). destruct K as [<-|[[X _]|[X _]]]; discriminate.
      * apply as_validation_ok, cursor_ok in H. destruct H as (l & -> & _). destruct K as [<-|[[X _]|[X _]]]; try discriminate.
        cbn [run_validator] in H'. apply as_validation_ok in H'. unfold cursor in H'. cbn [iterate bindr] in H'.
        destruct (cursor_items n false l) eqn:E; [|discriminate]. apply cursor_items_text in E. exact E.
    + pose proof (choices_of_ok p) as [C D]. rewrite Forall_forall in C, D. assert (CW : const_ok w) by (destruct I; auto).
      destruct (py_eqb r (VStr "none")) eqn:E.
      * destruct r; try discriminate E. exact Logic.I.
      * subst w. destruct CW as [->|[[s ->]| ->]]; exact Logic.I.
  - pose proof (choices_of_ok p) as [C D]. rewrite Forall_forall in C, D. assert (CW : const_ok r) by (destruct I; auto).
    destruct CW as [->|[[s ->]| ->]]; exact Logic.I.
Qed.
Theorem C83_reassign_exact : forall ho c n p r, valid_order ho -> reachable ho c n -> has_layout c ->
  (follower p -> c_store c p <> None) -> get_prop ho c (Long p) = Ok (RValue r) ->
  ((exists c', set_prop ho (Long p) r c n = (c', n, Ok tt) /\ reads_same ho c c') <-> fixed_point r).
Proof.
  intros ho c n p r V R L U G. split; [|apply C16_normal_forms_partial; assumption].
  intros (c' & E & _). cbn [set_prop] in E. apply set_long_ok in E. destruct E as (w & W & _).
  cbn [get_prop] in G. destruct (get_long_ok ho c n p V R) as (x & G' & S). rewrite G' in G. cbn in G. injection G as ->.
  destruct (c_store c p) as [y|] eqn:Y.
  - rewrite (S y eq_refl) in *. destruct (stored_validated ho c n p y V R Y) as (v & i & j & E). eapply not_fixed_rejected; eassumption.
  - assert (F : ~ follower p) by (intros F; destruct (U F eq_refl)). rewrite (get_long_plain _ _ _ V F), Y in G'. injection G' as <-.
    destruct p; cbn; try exact Logic.I; try reflexivity. rewrite (validate_ho ho plain_order V plain_valid) in W. vm_compute in W. discriminate.
Qed.
Print Assumptions C83_reassign_exact.
Example C83_example : get_prop plain_order sample (Long L_color) = Ok (RValue (named_color "rebeccapurple")) /\ fixed_point (named_color "rebeccapurple").
Proof. split; [vm_compute; reflexivity|exact I]. Qed.

(** C84: the values whose rejection is not a ValueError. *)
Theorem C84_escaping_errors : forall ho c n p v c' n' e, has_layout c -> set_prop ho (Long p) v c n = (c', n', Err e) ->
  e = ValueError \/ escapes p v.
Proof. apply C17_value_error_partial. Qed.
Print Assumptions C84_escaping_errors.
Example C84_example : snd (set_prop plain_order (Long L_clip) (VInt 5) sample sample_n) = Err AttributeError /\ escapes L_clip (VInt 5)
  /\ ~ escapes L_border_spacing (VInt 5).
Proof. split; [vm_compute; reflexivity|]. split; [constructor; discriminate|]. intros H. inversion H. match goal with Z : forall z, VInt 5 <> VInt z |- _ => exact (Z 5%Z eq_refl) end. Qed.

(** C85: failed assignments to a longhand or a border shorthand. *)
Theorem C85_border_atomic : forall ho c n p v c' n' e, valid_order ho -> has_layout c ->
  p = Short S_border \/ (exists s, p = Short (S_border_side s)) \/ (exists l, p = Long l) ->
  set_prop ho p v c n = (c', n', Err e) -> c' = c.
Proof.
  intros ho c n p v c' n' e V L P. apply C20_atomic_partial; [exact V|exact L|]. destruct P as [->|[[s ->]|[l ->]]]; exact I.
Qed.
Print Assumptions C85_border_atomic.
Example C85_example : snd (set_prop plain_order (Short (S_border_side SLeft)) (VTuple [VStr "red"; VStr "blue"]) sample sample_n) = Err ValueError.
Proof. vm_compute. reflexivity. Qed.

(** C86: what an outline or one-sided border shorthand reads as. *)
Theorem C86_side_read_back : forall ho sh v l c n c' n', valid_order ho -> reachable ho c n -> sh = S_outline \/ (exists s, sh = S_border_side s) ->
  (v = VTuple l \/ v = VList l \/ exists ws, Forall word ws /\ v = VStr (String.concat " " ws) /\ l = map VStr ws) ->
  set_prop ho (Short sh) v c n = (c', n', Ok tt) ->
  exists shown, get_prop ho c' (Short sh) = Ok (RParts shown)
    /\ (forall q r, In (q, r) shown -> exists k part, In part l /\ q = Long k /\ In k (longhands_of (Short sh)) /\ reads_as ho c' k part
                    /\ get_prop ho c' (Long k) = Ok (RValue r))
    /\ (forall part, In part l -> exists k m w m', In k (longhands_of (Short sh)) /\ validate (ho_set ho) (choices_of k) m part = Ok (w, m')
          /\ ((exists r, In (Long k, r) shown /\ (r = w \/ equals w r)) \/ equals w (css_initial k))).
Proof. change String.concat with join in *. intros ho sh v l c n c' n' V R P. apply C25_read_back_partial; [exact V|exact R|]. destruct P as [->|[s ->]]; discriminate. Qed.
Print Assumptions C86_side_read_back.
Example C86_example : exists c' n', set_prop plain_order (Short S_outline) (VTuple [VStr "dotted"; VInt 3]) sample sample_n = (c', n', Ok tt)
  /\ get_prop plain_order c' (Short S_outline) = Ok (RParts [(Long L_outline_style, VStr "dotted"); (Long L_outline_width, VUnit (mkU KPx (PI 3)))]).
Proof. apply ran; (vm_compute; reflexivity). Qed.
