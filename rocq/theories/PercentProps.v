(** * C152: which texts are percentages, and that negative ones are accepted *)
From Coq Require Import ZArith QArith Qcanon Bool String Ascii List.
From Verif Require Import PyNum NumFacts Units Float64 PyStr StrFacts Colors Values Parser Choices Shorthand Decl DeclSpec DeclFacts DeclNorm DeclProps DeclProps2 DeclProps3
  ParseSpec ParserSpec UnitsParseProps AcceptSpec AcceptProps.
Import ListNotations.
Open Scope string_scope.

Definition below_zero (x : xq) : Prop := match x with Fin q => (q < 0)%Qc | Inf neg => neg = true | Nan => False end.
Lemma below_zero_spec x : xltb x (Fin (Z2Qc 0)) = true <-> below_zero x.
Proof.
  destruct x as [q|[]|]; cbn; try (split; congruence); [|split; [discriminate|intros []]]. change (Z2Qc 0) with 0%Qc.
  destruct (qc_ltb_spec q 0%Qc); split; try congruence; try tauto; discriminate.
Qed.
Lemma percent_kind t : In (t, KPct) css_units -> t = "%".
Proof. unfold css_units. intros I. repeat (destruct I as [I|I]; [injection I as <-; try reflexivity; try discriminate|]); try discriminate; try destruct I. Qed.
(** The validator accepts exactly a number that is not below zero, followed by %. *)
Theorem C152_texts : forall n s w n', run_validator is_percentage n (VStr s) = Ok (w, n') <->
  n' = n /\ exists d x, s = d ++ "%" /\ py_float d = Ok x /\ ~ below_zero x /\ w = VUnit (mkU KPct (PF x)).
Proof.
  intros n s w n'. cbn [run_validator]. split.
  - destruct (units (VStr s)) as [u|e] eqn:U; [|cbn; destruct e; discriminate]. cbn [as_validation bindr]. apply C87_accepted_texts in U.
    destruct U as (d & x & F & [[-> ->]|(t & k & I & -> & ->)]); cbn [u_kind]; [discriminate|]. destruct k; try discriminate.
    apply percent_kind in I. subst t. unfold u_ltb, py_num_ltb. cbn [u_val pval]. destruct (xltb x (Fin (Z2Qc 0))) eqn:L; [discriminate|].
    intros H. injection H as <- <-. split; [reflexivity|]. exists d, x. repeat split; try assumption. intros B. apply below_zero_spec in B. congruence.
  - intros (-> & d & x & -> & F & B & ->). assert (U : units (VStr (d ++ "%")) = Ok (mkU KPct (PF x))).
    { apply C87_accepted_texts. exists d, x. split; [exact F|]. right. exists "%", KPct. split; [cbn; tauto|]. auto. }
    rewrite U. cbn [as_validation bindr u_kind]. unfold u_ltb, py_num_ltb. cbn [u_val pval]. destruct (xltb x (Fin (Z2Qc 0))) eqn:L; [|reflexivity].
    exfalso. apply B, below_zero_spec, L.
Qed.
Print Assumptions C152_texts.
Theorem C152_rejected : forall n s e, run_validator is_percentage n (VStr s) = Err e -> e = ValidationError.
Proof.
  intros n s e. cbn [run_validator]. destruct (units (VStr s)) as [u|f] eqn:U; cbn [as_validation bindr].
  - destruct (u_kind u); try congruence. destruct (u_ltb _ _); congruence.
  - apply C87_rejected in U. subst f. cbn. congruence.
Qed.
Print Assumptions C152_rejected.
(** Nevertheless every property that takes percentages takes every one. *)
Theorem C152_negative_accepted : forall ho p d x c n, In is_percentage (ch_validators (choices_of p)) -> py_float d = Ok x -> c_node c <> Some None ->
  exists c', set_prop ho (Long p) (VStr (d ++ "%")) c n = (c', n, Ok tt).
Proof.
  intros ho p d x c n I F N. assert (U : units (VStr (d ++ "%")) = Ok (mkU KPct (PF x))).
  { apply C87_accepted_texts. exists d, x. split; [exact F|]. right. exists "%", KPct. split; [cbn; tauto|]. auto. }
  assert (Fi : exists r, ch_validators (choices_of p) = is_length :: r).
  { destruct p; cbn in I; try (exfalso; repeat (destruct I as [I|I]; [discriminate I|]); exact I); try (destruct s; cbn in I); eexists; reflexivity. }
  destruct Fi as (r & Fi). cbn [set_prop]. rewrite set_long_eq. unfold validate. rewrite Fi. cbn [first_valid run_validator]. rewrite U. cbn [as_validation bindr].
  destruct (same_value _ _); [eexists; reflexivity|]. unfold mark_dirty. cbn [set_store c_node]. destruct (c_node c) as [[b|]|]; [eexists; reflexivity|congruence|eexists; reflexivity].
Qed.
Print Assumptions C152_negative_accepted.
Example C152_example :
  (exists w n', run_validator is_percentage 0 (VStr "12.5%") = Ok (w, n')) /\ run_validator is_percentage 0 (VStr "-12.5%") = Err ValidationError
  /\ run_validator is_percentage 0 (VStr "12.5px") = Err ValidationError
  /\ In is_percentage (ch_validators (choices_of (L_padding STop))) /\ py_float "-12.5" = Ok (Fin (qfrac (-25) 2)) /\ c_node sample <> Some None
  /\ match set_prop plain_order (Long (L_padding STop)) (VStr "-12.5%") sample sample_n with
     | (c, _, Ok _) => match get_prop plain_order c (Long (L_padding STop)) with
                       | Ok (RValue v) => py_eqb v (VUnit (mkU KPct (PF (Fin (qfrac (-25) 2))))) = true
                       | _ => False
                       end
     | _ => False
     end.
Proof.
  split; [do 2 eexists; vm_compute; reflexivity|]. split; [vm_compute; reflexivity|]. split; [vm_compute; reflexivity|]. split; [right; left; reflexivity|].
  split; [|split; [discriminate|vm_compute; reflexivity]]. set (a := py_float "-12.5"). vm_compute in a. subst a. do 2 f_equal. apply Qc_is_canon. reflexivity.
Qed.
