(** * Properties C06-C08, C87, C88: parsing and printing lengths *)
From Coq Require Import ZArith QArith Qcanon Bool String Ascii List Lia.
From Verif Require Import PyNum NumFacts Units UnitsSpec UnitsFacts Float64 PyStr Colors Values Parser Choices Decl DeclSpec DeclFacts Wrappers StrFacts TextFacts ParseSpec.
Import ListNotations.
Open Scope string_scope.
Open Scope Z_scope.

(** ** Scanning the registry *)
Definition base_suffixes : list string := map fst base_registry.
(** Whenever one suffix ends another text of interest, what is left of it does
    not end as a number does. *)
Definition suffixes_apart (s t : string) : bool :=
  String.eqb s t
  || (if endswith s t then negb (ends_in float_last (drop_end (String.length s) t)) else true)
     && (if endswith t s then negb (ends_in float_last (drop_end (String.length t) s)) else true).
Lemma base_apart s t : In s base_suffixes -> In t base_suffixes -> suffixes_apart s t = true.
Proof.
  intros S T. assert (H : forallb (fun s => forallb (suffixes_apart s) base_suffixes) base_suffixes = true) by (vm_compute; reflexivity).
  rewrite forallb_forall in H. specialize (H s S). rewrite forallb_forall in H. exact (H t T).
Qed.
Lemma not_float p r x : r <> "" -> ends_in float_last r = false -> py_float (p ++ r) = Ok x -> False.
Proof. intros N E H. apply py_float_ends in H. rewrite (ends_in_app_inv _ _ _ N) in H. congruence. Qed.
Lemma suffix_of_number d x t s : py_float d = Ok x -> In s base_suffixes -> In t base_suffixes ->
  endswith s (d ++ t) = true -> s = t \/ py_float (drop_end (String.length s) (d ++ t)) = Err ValueError.
Proof.
  intros F S T H. apply endswith_spec in H. destruct H as (p & H). pose proof (base_apart s t S T) as A. unfold suffixes_apart in A.
  destruct (String.eqb_spec s t) as [|N]; [left; assumption|]. right. cbn [orb] in A. apply andb_prop in A. destruct A as [A1 A2].
  destruct (app_split _ _ _ _ H) as [(r & Et & Ep)|(r & Nr & Es & Ed)].
  - assert (X : endswith s t = true) by (apply endswith_spec; exists r; exact Et). rewrite X, Et, drop_end_app in A1. apply negb_true_iff in A1.
    rewrite H, drop_end_app, Ep. destruct (py_float (d ++ r)) as [y|e] eqn:Y; [|f_equal; apply (py_float_err _ _ Y)].
    exfalso. refine (not_float _ _ _ _ A1 Y). intros ->. apply N. symmetry. exact Et.
  - assert (X : endswith t s = true) by (apply endswith_spec; exists r; exact Es). rewrite X, Es, drop_end_app in A2. apply negb_true_iff in A2.
    exfalso. rewrite Ed in F. exact (not_float _ _ _ Nr A2 F).
Qed.
Lemma scan_number reg d x t : py_float d = Ok x ->
  (forall s u, In (s, u) reg -> endswith s (d ++ t) = true -> s = t \/ py_float (drop_end (String.length s) (d ++ t)) = Err ValueError) ->
  scan_units reg (d ++ t) = match assoc t reg with Some u => Some (rmul (PF x) u) | None => None end.
Proof.
  intros F. induction reg as [|[s u] reg IH]; intros H; [reflexivity|]. cbn [scan_units assoc].
  assert (IH' := IH (fun s' u' I => H s' u' (or_intror I))). clear IH. destruct (String.eqb_spec t s) as [->|N].
  - assert (E : endswith s (d ++ s) = true) by (apply endswith_spec; exists d; reflexivity). rewrite E, drop_end_app, F. reflexivity.
  - destruct (endswith s (d ++ t)) eqn:E; [|exact IH']. destruct (H s u (or_introl eq_refl) E) as [->|X]; [congruence|]. rewrite X. exact IH'.
Qed.
Lemma base_assoc u : In u builtin_units -> assoc (suffix_of (u_kind u)) base_registry = Some u.
Proof. intros H. cbn [In builtin_units] in H. repeat (destruct H as [<-|H]; [vm_compute; reflexivity|]). destruct H. Qed.
Lemma In_base_suffix s u : In (s, u) base_registry -> In s base_suffixes.
Proof. intros H. apply (in_map fst) in H. exact H. Qed.
Lemma builtin_suffix u : In u builtin_units -> In (suffix_of (u_kind u)) base_suffixes.
Proof. intros H. apply (In_base_suffix _ u). apply (in_map reg_entry) in H. exact H. Qed.
Lemma rmul_builtin x u : In u builtin_units -> rmul (PF x) u = mkU (u_kind u) (PF x).
Proof.
  intros H. assert (u_val u = PI 1) as E by (cbn [In builtin_units] in H; repeat (destruct H as [<-|H]; [reflexivity|]); destruct H).
  unfold rmul, dup. rewrite E. unfold pmul. cbn [pval]. f_equal. f_equal. change (Z2Qc 1) with 1%Qc. destruct x as [q|b|]; cbn [xmul]; [f_equal; ring| |reflexivity].
  destruct b; reflexivity.
Qed.
Lemma number_with_suffix d x u : py_float d = Ok x -> In u builtin_units ->
  units (VStr (d ++ suffix_of (u_kind u))) = Ok (mkU (u_kind u) (PF x)).
Proof.
  intros F I. unfold units, units_in. rewrite (scan_number base_registry d x _ F), (base_assoc u I).
  - cbn. rewrite (rmul_builtin _ _ I). reflexivity.
  - intros s w S. apply (suffix_of_number d x); [exact F|exact (In_base_suffix _ _ S)|exact (builtin_suffix _ I)].
Qed.
Lemma no_suffix_number d x s : py_float d = Ok x -> In s base_suffixes -> endswith s d = false.
Proof.
  intros F S. destruct (endswith s d) eqn:E; [|reflexivity]. exfalso. apply endswith_spec in E. destruct E as (p & E).
  assert (N : ends_in float_last s = false \/ In s ["in"; "vmin"; "turn"]).
  { cbn [In base_suffixes base_registry map fst builtin_units] in S. repeat (destruct S as [<-|S]; [vm_compute; intuition|]). destruct S. }
  destruct N as [N|N].
  - rewrite E in F. refine (not_float _ _ _ _ N F). intros ->. cbn in N. vm_compute in S. intuition discriminate.
  - assert (M : ends_in is_n d = true) by (rewrite E; cbn [In] in N; intuition subst; apply ends_in_app; reflexivity).
    destruct (py_float_ends_n _ _ F M) as (q & Q). rewrite E, lower_app in Q.
    destruct (app_split _ _ _ _ Q) as [(r & Et & _)|(r & Nr & Et & _)].
    + assert (X : endswith "nan" (lower s) = true) by (apply endswith_spec; exists r; exact Et). cbn [In] in N. intuition subst; vm_compute in X; discriminate.
    + assert (X : endswith (lower s) "nan" = true) by (apply endswith_spec; exists r; exact Et). cbn [In] in N. intuition subst; vm_compute in X; discriminate.
Qed.
Lemma scan_none reg s : (forall t u, In (t, u) reg -> endswith t s = false \/ exists e, py_float (drop_end (String.length t) s) = Err e) ->
  scan_units reg s = None.
Proof.
  induction reg as [|[t u] reg IH]; intros H; [reflexivity|]. cbn [scan_units].
  destruct (H t u (or_introl eq_refl)) as [->|(e & E)]; [|destruct (endswith t s); [rewrite E|]]; apply IH; intros; apply (H t0 u0); cbn; auto.
Qed.
Lemma bare_number d x : py_float d = Ok x -> units (VStr d) = Ok (mkU KPx (PF x)).
Proof.
  intros F. unfold units, units_in. rewrite scan_none.
  - rewrite F. cbn [bindr try_value fst]. f_equal. apply (rmul_builtin x px_u). cbn. auto.
  - intros t u I. left. apply (no_suffix_number d x t F), (In_base_suffix _ _ I).
Qed.
Lemma scan_inv reg s u : scan_units reg s = Some u ->
  exists d t u0 x, In (t, u0) reg /\ s = d ++ t /\ py_float d = Ok x /\ u = rmul (PF x) u0.
Proof.
  induction reg as [|[t u0] reg IH]; cbn [scan_units]; [discriminate|]. intros H.
  assert (K : scan_units reg s = Some u -> exists d t u0' x, In (t, u0') ((t, u0) :: reg) \/ In (t, u0') reg /\ s = d ++ t /\ py_float d = Ok x /\ u = rmul (PF x) u0').
  { intros H'. destruct (IH H') as (d & t' & u' & x & I & R). exists d, t', u', x. auto. }
  clear K. assert (K : scan_units reg s = Some u -> exists d t' u0' x, In (t', u0') ((t, u0) :: reg) /\ s = d ++ t' /\ py_float d = Ok x /\ u = rmul (PF x) u0').
  { intros H'. destruct (IH H') as (d & t' & u' & x & I & R). exists d, t', u', x. split; [right; exact I|exact R]. }
  destruct (endswith t s) eqn:E; [|apply K, H]. destruct (py_float _) as [x|e] eqn:F; [|apply K, H]. injection H as <-.
  exists (drop_end (String.length t) s), t, u0, x. split; [left; reflexivity|]. split; [apply endswith_drop, E|]. split; [exact F|reflexivity].
Qed.
Lemma In_base_unit t u : In (t, u) base_registry -> In u builtin_units /\ t = suffix_of (u_kind u).
Proof. unfold base_registry. intros H. apply in_map_iff in H. destruct H as (w & E & I). injection E as <- <-. auto. Qed.

(** ** C06 *)
(** A text that float() reads, followed by the suffix of a built-in unit, is
    that many of the unit; alone, that many pixels; numbers are pixels. *)
Lemma css_builtin t k : In (t, k) css_units <-> exists u, In u builtin_units /\ t = suffix_of (u_kind u) /\ u_kind u = k.
Proof.
  assert (E : css_units = map (fun u => (suffix_of (u_kind u), u_kind u)) builtin_units) by reflexivity. rewrite E, in_map_iff. split.
  - intros (u & H & I). injection H as <- <-. eauto.
  - intros (u & I & -> & <-). eauto.
Qed.
Theorem C06_numbers : forall d x, py_float d = Ok x ->
  units (VStr d) = Ok (mkU KPx (PF x))
  /\ (forall suffix k, In (suffix, k) css_units -> units (VStr (d ++ suffix)) = Ok (mkU k (PF x)))
  /\ (forall z, units (VInt z) = Ok (mkU KPx (PI z))) /\ (forall y, units (VFloat y) = Ok (mkU KPx (PF y))).
Proof.
  intros d x F. split; [exact (bare_number d x F)|]. split.
  { intros t k I. destruct (css_builtin t k) as [B _]. destruct (B I) as (u & J & -> & <-). exact (number_with_suffix d x u F J). }
  split.
  - intros z. unfold units, units_in. cbn [bindr fst]. unfold rmul, dup. cbn. f_equal. f_equal. f_equal. destruct z; reflexivity.
  - intros y. unfold units, units_in. cbn [bindr fst]. f_equal. apply (rmul_builtin y px_u). cbn. auto.
Qed.
Print Assumptions C06_numbers.
Lemma py_float_fin d q : match py_float d with Ok (Fin x) => qc_eqb x q | _ => false end = true -> py_float d = Ok (Fin q).
Proof. destruct (py_float d) as [[x| |]|]; try discriminate. intros H. destruct (qc_eqb_spec x q); [congruence|discriminate]. Qed.
Definition parses_to (v : pyval) (u : unit_) : Prop := exists w, units v = Ok w /\ same_length w u.
Lemma parses_by v u : match units v with Ok w => u_eqb w u | _ => false end = true -> parses_to v u.
Proof. unfold parses_to. destruct (units v) as [w|]; [|discriminate]. intros H. exists w. split; [reflexivity|apply u_eqb_spec, H]. Qed.
Example C06_numbers_example : py_float " +1_0.5e1" = Ok (Fin (Z2Qc 105)) /\ parses_to (VStr " +1_0.5e1vmin") (mkU (KVp "vmin" ScaleVmin) (PI 105)).
Proof. split; [apply py_float_fin|apply parses_by]; vm_compute; reflexivity. Qed.

(** C06: printing and parsing, for magnitudes that are whole numbers a float can
    hold (in particular up to 2^53), whatever repr() of other floats is.  Missing:
    larger whole numbers, for which it is false (C06_refuted). *)
Theorem C06_round_trip_partial : forall show_float t k m z, In (t, k) css_units -> pval m = Fin (Z2Qc z) -> whole_double z ->
  exists s w, unit_str show_float (mkU k m) = Ok s /\ units (VStr s) = Ok w /\ same_length w (mkU k m).
Proof.
  intros sf t k m z I M D. apply css_builtin in I. destruct I as (u & I & -> & <-). exists (show_Z z ++ suffix_of (u_kind u)), (mkU (u_kind u) (PF (Fin (Z2Qc z)))). split; [|split].
  - unfold unit_str. cbn [u_val u_kind]. rewrite M. cbn [xtrunc bindr]. rewrite trunc_q_Z, qc_eqb_refl. reflexivity.
  - apply number_with_suffix; [|exact I]. rewrite py_float_show, b64_exact; [reflexivity|exact D].
  - apply u_eqb_spec. unfold u_eqb, py_num_eqb. cbn [u_kind u_val pval]. rewrite M. cbn [xeqb]. rewrite qc_eqb_refl.
    destruct (u_kind u); rewrite ?String.eqb_refl; reflexivity.
Qed.
Print Assumptions C06_round_trip_partial.
(** Likewise for the other floats, if repr() round-trips as Python documents. *)
Theorem C06_round_trip_float : forall show_float t k q, In (t, k) css_units ->
  (forall z, q = Z2Qc z -> whole_double z) -> py_float (show_float q) = Ok (Fin q) ->
  exists s w, unit_str show_float (mkU k (PF (Fin q))) = Ok s /\ units (VStr s) = Ok w /\ same_length w (mkU k (PF (Fin q))).
Proof.
  intros sf t k q I0 W F. pose proof I0 as I. apply css_builtin in I. destruct I as (u & I & -> & <-). destruct (qc_eqb_spec q (Z2Qc (trunc_q (this q)))) as [E|N].
  - apply (C06_round_trip_partial sf _ _ (PF (Fin q)) (trunc_q (this q)) I0); [cbn; congruence|apply W, E].
  - exists (sf q ++ suffix_of (u_kind u)), (mkU (u_kind u) (PF (Fin q))). split; [|split].
    + unfold unit_str. cbn [u_val u_kind pval xtrunc bindr]. destruct (qc_eqb_spec q (Z2Qc (trunc_q (this q)))); [contradiction|reflexivity].
    + apply number_with_suffix; assumption.
    + apply u_eqb_spec. unfold u_eqb, py_num_eqb. cbn [u_kind u_val pval xeqb]. rewrite qc_eqb_refl. destruct (u_kind u); rewrite ?String.eqb_refl; reflexivity.
Qed.
Print Assumptions C06_round_trip_float.
Lemma up_to_2_53 z : Z.abs z <= 2 ^ 53 -> whole_double z.
Proof. apply double_small. Qed.
Example C06_example : unit_str (fun _ => "") (mkU (KVp "vmin" ScaleVmin) (PI (-12))) = Ok "-12vmin" /\ whole_double (-12)
  /\ parses_to (VStr "-12vmin") (mkU (KVp "vmin" ScaleVmin) (PI (-12))).
Proof. split; [vm_compute; reflexivity|]. split; [apply up_to_2_53; vm_compute; discriminate|apply parses_by; vm_compute; reflexivity]. Qed.
Example C06_float_example : py_float "-2.5" = Ok (Fin (qfrac (-5) 2)) /\ forall z, qfrac (-5) 2 = Z2Qc z -> whole_double z.
Proof.
  split; [apply py_float_fin; vm_compute; reflexivity|]. intros z H. exfalso. apply (f_equal (fun q => Qden (this q))) in H. unfold Z2Qc, inject_Z in H. cbn in H.
  destruct (Z.ggcd z 1) as [g [a b]] eqn:G. pose proof (Z.ggcd_correct_divisors z 1) as D. rewrite G in D. cbn in H.
  assert (b = 1 \/ b = -1) by nia. destruct H0 as [->| ->]; cbn in H; discriminate.
Qed.
(** Larger whole magnitudes come back rounded to a float. *)
Theorem C06_refuted : let u := mkU KPx (PI 9007199254740993) in
  exists s w, unit_str (fun _ => "") u = Ok s /\ units (VStr s) = Ok w /\ ~ same_length w u.
Proof. eexists _, _. split; [vm_compute; reflexivity|]. split; [vm_compute; reflexivity|]. rewrite <- u_eqb_spec. vm_compute. discriminate. Qed.
Print Assumptions C06_refuted.

(** ** C07 *)
Definition grown (reg : registry) : Prop :=
  exists more, reg = map reg_entry (builtin_units ++ more)%list /\ forall u, In u more -> In (suffix_of (u_kind u)) base_suffixes.
Lemma grown_add reg u : grown reg -> In (suffix_of (u_kind u)) base_suffixes -> grown (reg ++ [reg_entry u])%list.
Proof.
  intros (more & -> & H) I. exists (more ++ [u])%list. split; [rewrite app_assoc, !map_app; reflexivity|].
  intros w W. apply in_app_or in W. destruct W as [W|[<-|[]]]; auto.
Qed.
Lemma grown_suffix reg u : grown reg -> In (reg_entry u) reg -> In (suffix_of (u_kind u)) base_suffixes.
Proof.
  intros (more & -> & H) I. apply in_map_iff in I. destruct I as (w & E & I). apply (f_equal snd) in E. cbn in E. subst w.
  apply in_app_or in I. destruct I as [I|I]; [apply builtin_suffix, I|apply H, I].
Qed.
Lemma scan_grown reg s : grown reg -> scan_units reg s = scan_units base_registry s.
Proof.
  intros (more & -> & H). rewrite map_app. change (map reg_entry builtin_units) with base_registry.
  assert (A : forall l r, scan_units (l ++ r)%list s = match scan_units l s with Some u => Some u | None => scan_units r s end).
  { induction l as [|[t u] l IH]; intros r; [reflexivity|]. cbn [app scan_units]. destruct (endswith t s); [destruct (py_float _); [reflexivity|]|]; apply IH. }
  rewrite A. destruct (scan_units base_registry s) as [u|] eqn:E; [reflexivity|]. apply scan_none. intros t u I.
  apply in_map_iff in I. destruct I as (w & W & I). injection W as <- <-. specialize (H w I). revert E H. generalize (suffix_of (u_kind w)). unfold base_suffixes.
  induction base_registry as [|[b v] l IH]; intros t; cbn [scan_units map In fst]; [intros _ []|].
  destruct (endswith b s) eqn:EB.
  - destruct (py_float _) as [x|e] eqn:F; [discriminate|]. intros N [<-|J]; [right; eauto|exact (IH _ N J)].
  - intros N [<-|J]; [left; exact EB|exact (IH _ N J)].
Qed.
Lemma created_grown reg : created reg -> grown reg.
Proof.
  induction 1 as [|reg n u C G I|reg u C G I|reg v u reg' C G P].
  - exists []. split; [rewrite app_nil_r; reflexivity|intros u []].
  - apply grown_add; [exact G|]. exact (grown_suffix _ _ G I).
  - apply grown_add; [exact G|]. assert (u_kind (uneg u) = u_kind u) as -> by (unfold uneg; destruct (u_val u); reflexivity). exact (grown_suffix _ _ G I).
  - unfold units_in in P. assert (px_ok : forall n, In (suffix_of (u_kind (rmul n px_u))) base_suffixes) by (intros n; cbn; auto).
    destruct v; try discriminate.
    + injection P as <- <-. apply grown_add; [exact G|apply px_ok].
    + injection P as <- <-. apply grown_add; [exact G|apply px_ok].
    + destruct (scan_units reg s) as [w|] eqn:S.
      * injection P as <- <-. apply grown_add; [exact G|]. rewrite (scan_grown _ _ G) in S. apply scan_inv in S. destruct S as (d & t & u0 & x & I & _ & _ & ->).
        apply In_base_unit in I. apply (builtin_suffix u0), I.
      * destruct (py_float s) as [x|e] eqn:F; cbn [bindr try_value] in P; [|destruct (is_value_error e); discriminate].
        injection P as <- <-. apply grown_add; [exact G|apply px_ok].
    + destruct (is_unit_kind _); [|discriminate]. injection P as <- <-. exact G.
Qed.
Theorem C07_history_independent : forall reg reg' v, created reg -> created reg' -> outcome_of (units_in reg v) = outcome_of (units_in reg' v).
Proof.
  assert (K : forall reg v, created reg -> outcome_of (units_in reg v) = outcome_of (units_in base_registry v)).
  { intros reg v C. apply created_grown in C. unfold units_in. destruct v; try reflexivity.
    - rewrite (scan_grown _ _ C). destruct (scan_units base_registry s); [reflexivity|]. destruct (py_float s) as [x|e]; cbn [bindr try_value]; [reflexivity|].
      destruct (is_value_error e); reflexivity.
    - destruct (is_unit_kind _); reflexivity. }
  intros reg reg' v C C'. rewrite (K reg v C), (K reg' v C'). reflexivity.
Qed.
Print Assumptions C07_history_independent.
Definition after (reg : registry) (v : pyval) : registry := match units_in reg v with Ok (_, r) => r | Err _ => reg end.
Lemma created_after reg v : created reg -> created (after reg v).
Proof. intros C. unfold after. destruct (units_in reg v) as [[u r]|] eqn:E; [exact (created_parse _ _ _ _ C E)|exact C]. Qed.
Definition sample_registry : registry :=
  let fives := rmul (PI 5) vmin_u in
  after ((base_registry ++ [reg_entry fives]) ++ [reg_entry (uneg fives)])%list (VStr "7vmin").
Example C07_example : created sample_registry /\ List.length sample_registry = 21%nat
  /\ is_ok (outcome_of (units_in sample_registry (VStr "3vmin"))) = true.
Proof.
  split; [|split; vm_compute; reflexivity]. apply created_after, created_neg.
  - apply created_mul; [constructor|]. apply (in_map reg_entry). unfold builtin_units. cbn [In]. tauto.
  - apply in_or_app. right. left. reflexivity.
Qed.

(** ** C87: exactly which texts are accepted as lengths *)
Theorem C87_accepted_texts : forall s u, units (VStr s) = Ok u <->
  exists d x, py_float d = Ok x
    /\ ((s = d /\ u = mkU KPx (PF x)) \/ exists t k, In (t, k) css_units /\ s = d ++ t /\ u = mkU k (PF x)).
Proof.
  intros s u. split.
  - unfold units, units_in. intros H. destruct (scan_units base_registry s) as [w|] eqn:S.
    + cbn in H. injection H as <-. apply scan_inv in S. destruct S as (d & t & u0 & x & I & -> & F & ->). apply In_base_unit in I. destruct I as [I ->].
      exists d, x. split; [exact F|]. right. exists (suffix_of (u_kind u0)), (u_kind u0). split; [apply css_builtin; eauto|]. split; [reflexivity|]. apply (rmul_builtin _ _ I).
    + destruct (py_float s) as [x|e] eqn:F; cbn [bindr try_value fst] in H; [|destruct (is_value_error e); discriminate].
      injection H as <-. exists s, x. split; [exact F|]. left. split; [reflexivity|]. apply (rmul_builtin x px_u). cbn. auto.
  - intros (d & x & F & [[-> ->]|(t & k & I & -> & ->)]); [exact (bare_number d x F)|]. apply css_builtin in I. destruct I as (w & I & -> & <-). exact (number_with_suffix d x w F I).
Qed.
Print Assumptions C87_accepted_texts.
Theorem C87_rejected : forall s e, units (VStr s) = Err e -> e = ValueError.
Proof.
  intros s e. unfold units, units_in. destruct (scan_units _ _); [discriminate|]. destruct (py_float s) as [x|f] eqn:F; cbn [bindr try_value]; [discriminate|].
  rewrite (py_float_err _ _ F). cbn. congruence.
Qed.
Print Assumptions C87_rejected.
Example C87_example : parses_to (VStr "1.5 grad") (mkU (KAngle "grad" (qfrac 9 10)) (PF (Fin (qfrac 3 2)))) /\ units (VStr "1.5furlong") = Err ValueError.
Proof. split; [apply parses_by|]; vm_compute; reflexivity. Qed.

(** ** C08, C88: which accepted values convert to pixels *)
Lemma builtin_exact c n u p v : In u builtin_units -> ~ is_angle u -> magnitude p v -> c_size c = LNum n -> exists q, exact_px c (mkU (u_kind u) p) q.
Proof.
  intros I A M S. cbn [In builtin_units] in I.
  repeat (destruct I as [<-|I]; [first [exfalso; apply A; eexists _, _; reflexivity | eexists; econstructor; eassumption
    | eexists; eapply exact_vp; [exact M|apply extent_vp; reflexivity]]|]).
  destruct I.
Qed.
Lemma written_builtin v u : written v -> units v = Ok u -> exists w, In w builtin_units /\ u_kind u = u_kind w.
Proof.
  intros W H. destruct W as [[s ->]|[[z ->]|[x ->]]].
  - apply C87_accepted_texts in H. destruct H as (d & x & F & [[-> ->]|(t & k & I & -> & ->)]); [exists px_u; cbn; auto|]. apply css_builtin in I. destruct I as (w & I & _ & <-). exists w. auto.
  - injection H as <-. exists px_u. cbn. auto.
  - injection H as <-. exists px_u. cbn. auto.
Qed.
Theorem C88_convertible : forall v u, written v -> units v = Ok u ->
  ((forall c n, c_size c = LNum n -> exists p, px c u = Ok p) <-> (finite (u_val u) /\ ~ is_angle u)).
Proof.
  intros v u W H. destruct (written_builtin v u W H) as (w & I & K). split.
  - intros P. destruct (P (mkCtx (mkDisp n0 n0 n0 (fun _ => n0)) (mkFont n0) (LNum n0)) n0 eq_refl) as (p & E). apply px_nearest_lemma in E.
    destruct E as (q & X & _). destruct X; (split; [eexists; apply magnitude_pval; eassumption|]); intros (s' & k & Y); discriminate.
  - intros ((q & F) & A) c n S. apply magnitude_pval in F. destruct (builtin_exact c n w (u_val u) q I) as (r & E); try assumption.
    { intros (s & k & Y). apply A. exists s, k. congruence. }
    rewrite <- K in E. destruct u as [k m]. apply (px_defined_lemma _ _ _ E).
Qed.
Print Assumptions C88_convertible.
Example C88_example : written (VStr "2.5ex") /\ exists u, units (VStr "2.5ex") = Ok u /\ finite (u_val u) /\ ~ is_angle u.
Proof.
  split; [left; eexists; reflexivity|]. eexists. split; [vm_compute; reflexivity|]. split; [eexists; reflexivity|]. intros (s & k & H). discriminate.
Qed.
(** C08, for finite magnitudes and units other than angles.  Missing: the others,
    which are accepted too (C08_refuted, C87, C88). *)
Theorem C08_length_partial : forall v u c n, written v -> units v = Ok u -> finite (u_val u) -> ~ is_angle u -> c_size c = LNum n -> exists p, px c u = Ok p.
Proof. intros v u c n W H F A S. apply (proj2 (C88_convertible v u W H) (conj F A) c n S). Qed.
Print Assumptions C08_length_partial.
(** width accepts an angle, an infinity and NaN; none converts to pixels. *)
Definition accepted_not_length (s : string) : Prop :=
  exists u, validate (fun l => l) (choices_of L_width) first_free (VStr s) = Ok (VUnit u, first_free) /\ forall c, exists e, px c u = Err e.
Theorem C08_refuted : accepted_not_length "10deg" /\ accepted_not_length "inf" /\ accepted_not_length "-1e999em" /\ accepted_not_length "nan".
Proof.
  repeat split.
  - eexists. split; [vm_compute; reflexivity|]. intros c. exists AttributeError. reflexivity.
  - exists (mkU KPx (PF (Inf false))). split; [vm_compute; reflexivity|]. intros c. exists OverflowError. reflexivity.
  - exists (mkU (KFont "em") (PF (Inf true))). split; [vm_compute; reflexivity|]. intros c. destruct (px c _) eqn:E; [|eauto]. exfalso.
    apply px_nearest_lemma in E. destruct E as (q & X & _). inversion X; match goal with M : magnitude _ _ |- _ => inversion M end.
  - exists (mkU KPx (PF Nan)). split; [vm_compute; reflexivity|]. intros c. exists ValueError. reflexivity.
Qed.
Print Assumptions C08_refuted.
Example C08_example : written (VStr "2.5ex") /\ (exists u, units (VStr "2.5ex") = Ok u /\ finite (u_val u) /\ ~ is_angle u)
  /\ c_size (mkCtx (mkDisp (NI 96) (NI 1024) (NI 768) (fun _ => NI 1)) (mkFont (NI 12)) (LNum (NI 50))) = LNum (NI 50).
Proof. split; [apply C88_example|]. split; [apply C88_example|reflexivity]. Qed.
