(** * Properties C103-C105: what each property accepts *)
From Coq Require Import ZArith QArith Qcanon Bool String Ascii List Permutation Lia.
From Verif Require Import PyNum NumFacts Units Float64 PyStr Colors Values Parser Choices Shorthand Decl DeclSpec DeclFacts DeclNorm DeclErrors DeclProps DeclProps2
  ParseSpec ParserSpec UnitsParseProps AcceptSpec.
Import ListNotations.
Open Scope string_scope.
Open Scope Z_scope.

Lemma length_units v u : units v = Ok u <-> length_value v u.
Proof.
  split.
  - intros H. destruct v; try discriminate H.
    + pose proof (proj1 (proj2 (proj2 (C06_numbers "0" (Fin 0%Qc) ltac:(vm_compute; reflexivity)))) z) as E. rewrite H in E. injection E as ->. constructor.
    + pose proof (proj2 (proj2 (proj2 (C06_numbers "0" (Fin 0%Qc) ltac:(vm_compute; reflexivity)))) x) as E. rewrite H in E. injection E as ->. constructor.
    + apply C87_accepted_texts in H. destruct H as (d & x & F & [[-> ->]|(t & k & I & -> & ->)]); econstructor; eassumption.
    + unfold units, units_in in H. destruct (is_unit_kind (u_kind u0)) eqn:K; [|discriminate]. cbn in H. injection H as <-. constructor.
      intros (s & q & E). rewrite E in K. discriminate.
  - intros H. destruct H as [u N|z|x|d x F|d x t k F I].
    + unfold units, units_in. destruct (u_kind u) eqn:K; try reflexivity. destruct N. eexists. eexists. exact K.
    + apply (C06_numbers "0" (Fin 0%Qc)). vm_compute. reflexivity.
    + apply (C06_numbers "0" (Fin 0%Qc)). vm_compute. reflexivity.
    + apply (C06_numbers d x F).
    + apply (C06_numbers d x F), I.
Qed.
Lemma quot_spec a b : 0 < b -> (0 <= a -> b * Z.quot a b <= a < b * (Z.quot a b + 1)) /\ (a <= 0 -> b * (Z.quot a b - 1) < a <= b * Z.quot a b).
Proof. intros B. split; intros A; pose proof (Z.quot_rem' a b).
  - pose proof (Z.rem_bound_pos a b A B). nia.
  - pose proof (Z.rem_opp_l a b ltac:(lia)). pose proof (Z.rem_bound_pos (- a) b ltac:(lia) B). nia.
Qed.
Lemma Z_le_q z q : (Z2Qc z <= q)%Qc <-> z * Zpos (Qden (this q)) <= Qnum (this q).
Proof. unfold Qcle. rewrite this_Z2Qc. unfold Qle, inject_Z. cbn. lia. Qed.
Lemma q_le_Z z q : (q <= Z2Qc z)%Qc <-> Qnum (this q) <= z * Zpos (Qden (this q)).
Proof. unfold Qcle. rewrite this_Z2Qc. unfold Qle, inject_Z. cbn. lia. Qed.
Lemma Z_lt_q z q : (Z2Qc z < q)%Qc <-> z * Zpos (Qden (this q)) < Qnum (this q).
Proof. unfold Qclt. rewrite this_Z2Qc. unfold Qlt, inject_Z. cbn. lia. Qed.
Lemma q_lt_Z z q : (q < Z2Qc z)%Qc <-> Qnum (this q) < z * Zpos (Qden (this q)).
Proof. unfold Qclt. rewrite this_Z2Qc. unfold Qlt, inject_Z. cbn. lia. Qed.
Lemma integer_int_of v z : int_of v = Ok z <-> integer_value v z.
Proof.
  split.
  - intros H. destruct v; try discriminate H; cbn [int_of] in H; [injection H as <-; constructor| |constructor; exact H].
    destruct x as [q| |]; cbn in H; try discriminate. injection H as <-. unfold trunc_q. destruct (quot_spec (Qnum (this q)) (Zpos (Qden (this q)))) as [A B]; [lia|].
    destruct (Z_le_gt_dec 0 (Qnum (this q))) as [L|L].
    + apply integer_down; [apply Z_le_q|apply q_lt_Z|change 0%Qc with (Z2Qc 0); apply Z_le_q]; lia.
    + apply integer_up; [apply q_le_Z|apply Z_lt_q|change 0%Qc with (Z2Qc 0); apply q_le_Z]; lia.
  - intros [y|q y L U P|q y L U P|s y E]; cbn [int_of xtrunc]; [reflexivity| | |exact E];
    f_equal; unfold trunc_q; change 0%Qc with (Z2Qc 0) in P; rewrite ?Z_le_q, ?q_le_Z, ?Z_lt_q, ?q_lt_Z in *;
    destruct (quot_spec (Qnum (this q)) (Zpos (Qden (this q)))) as [A B]; try lia; nia.
Qed.
Definition kind_validator (k : kind) : validator :=
  match k with
  | LengthK => is_length | IntegerK => is_integer | ColorK => is_color | SpacingK => is_border_spacing | RectK => is_rect
  | QuotesK => is_quote | CursorK => is_cursor
  end.
Lemma as_validation_t_ok {A} (m : res A) a : as_validation_t m = Ok a <-> m = Ok a.
Proof. unfold as_validation_t, as_validation. destruct m as [b|e]; [reflexivity|]. split; [|intros H; discriminate H]. destruct e; cbn; intros H; discriminate H. Qed.
Lemma as_validation_ok' {A} (m : res A) a : as_validation m = Ok a <-> m = Ok a.
Proof. unfold as_validation. destruct m as [b|e]; [reflexivity|]. split; [|intros H; discriminate H]. destruct (is_value_error e); intros H; discriminate H. Qed.
Lemma bind_ok_iff {A B} (m : res A) (f : A -> B) (n : nat) b n' : (x <-r m ;; Ok (f x, n)) = Ok (b, n') <-> exists x, m = Ok x /\ b = f x /\ n' = n.
Proof.
  destruct m as [x|e]; cbn [bindr]; split; [| |intros H; discriminate H|intros (y & H & _); discriminate H].
  - intros H. injection H as <- <-. eauto.
  - intros (y & H & -> & ->). injection H as <-. reflexivity.
Qed.
Lemma runs_takes k n v w n' : run_validator (kind_validator k) n v = Ok (w, n') <-> takes k n v w n'.
Proof.
  destruct k; cbn [kind_validator run_validator takes]; rewrite ?as_validation_ok'; try reflexivity.
  - rewrite bind_ok_iff; split; intros (u & H & E); exists u; (split; [|exact E]); [apply length_units, as_validation_ok', H|apply as_validation_ok', length_units, H].
  - rewrite bind_ok_iff; split; intros (u & H & E); exists u; (split; [|exact E]); [apply integer_int_of, as_validation_t_ok, H|apply as_validation_t_ok, integer_int_of, H].
  - rewrite (bind_ok_iff _ (fun r => r)). split; [intros (x & H & -> & ->); apply (proj1 (as_validation_ok' _ _)) in H; cbn; auto|]. intros [K E]. exists w. rewrite as_validation_ok'. auto.
  - rewrite (bind_ok_iff _ (fun r => r)). split; [intros (x & H & -> & ->); apply (proj1 (as_validation_ok' _ _)) in H; cbn; auto|]. intros [K E]. exists w. rewrite as_validation_ok'. auto.
Qed.
Lemma kind_validators p : ch_validators (choices_of p) =
  match kind_of p with
  | None => []
  | Some k => kind_validator k :: (if existsb (fun f => match f with is_percentage => true | _ => false end) (ch_validators (choices_of p)) then [is_percentage] else [])
  end.
Proof. destruct p; reflexivity. Qed.
Lemma percentage_length n v w n' : run_validator is_percentage n v = Ok (w, n') -> takes LengthK n v w n'.
Proof.
  cbn [run_validator]. destruct (as_validation (units v)) as [u|] eqn:E; cbn [bindr]; [|discriminate]. apply as_validation_ok', length_units in E.
  destruct (u_kind u); try discriminate. destruct (u_ltb _ _); [discriminate|]. intros H. injection H as <- <-. exists u. auto.
Qed.
Lemma percentage_only_lengths p : In is_percentage (ch_validators (choices_of p)) -> kind_of p = Some LengthK.
Proof. destruct p; cbn; intuition congruence. Qed.
(** The constants of the choices are the keywords. *)
Definition is_keyword (p : longhand) (v : pyval) : bool :=
  match v with
  | VStr s => negb (String.eqb s "none") && existsb (String.eqb s) (keywords p)
  | VNone => existsb (String.eqb "none") (keywords p)
  | VDefault => lh_eqb p L_color || lh_eqb p L_background_color
  | _ => false
  end.
Lemma keyword_check p : forallb (is_keyword p) (ch_constants (choices_of p) ++ ch_defaulting (choices_of p)) = true.
Proof. destruct p; vm_compute; reflexivity. Qed.
Lemma existsb_In s l : existsb (String.eqb s) l = true -> In s l.
Proof. intros H. apply existsb_exists in H. destruct H as (x & I & E). apply String.eqb_eq in E. subst. exact I. Qed.
Lemma constants_keywords p v : In v (ch_constants (choices_of p)) \/ In v (ch_defaulting (choices_of p)) ->
  (exists s, v = VStr s /\ s <> "none" /\ In s (keywords p)) \/ (v = VNone /\ In "none" (keywords p)) \/ (v = VDefault /\ (p = L_color \/ p = L_background_color)).
Proof.
  intros H. apply in_or_app in H. pose proof (keyword_check p) as C. rewrite forallb_forall in C. specialize (C v H). destruct v; try discriminate C; cbn [is_keyword] in C.
  - right. left. split; [reflexivity|apply existsb_In, C].
  - left. exists s. apply andb_true_iff in C. destruct C as [N I]. split; [reflexivity|]. split; [|apply existsb_In, I]. intros ->. discriminate N.
  - right. right. split; [reflexivity|]. apply orb_true_iff in C. destruct C as [C|C]; apply lh_eqb_eq in C; auto.
Qed.
Definition unparsed (p : longhand) (v : pyval) : bool := match first_valid (ch_validators (choices_of p)) 0 v with Ok None => true | _ => false end.
Definition keyword_value (s : string) : pyval := if String.eqb s "none" then VNone else VStr s.
Lemma constant_check p : forallb (fun s => existsb (py_eqb (keyword_value s)) (ch_constants (choices_of p) ++ ch_defaulting (choices_of p))
  && unparsed p (VStr s) && (negb (String.eqb s "none") || unparsed p VNone)) (keywords p) = true.
Proof. destruct p; vm_compute; reflexivity. Qed.
Lemma unparsed_none p v n : unparsed p v = true -> first_valid (ch_validators (choices_of p)) n v = Ok None.
Proof.
  unfold unparsed. intros H. apply (first_valid_none _ 0). destruct (first_valid _ 0 v) as [[x|]|]; try discriminate. reflexivity.
Qed.
Lemma keywords_constants p s : In s (keywords p) -> let v := if String.eqb s "none" then VNone else VStr s in
  (In v (ch_constants (choices_of p)) \/ In v (ch_defaulting (choices_of p))) /\ forall n, first_valid (ch_validators (choices_of p)) n (VStr s) = Ok None /\
    (s = "none" -> first_valid (ch_validators (choices_of p)) n VNone = Ok None).
Proof.
  intros H. pose proof (constant_check p) as C. rewrite forallb_forall in C. specialize (C s H). rewrite !andb_true_iff in C. destruct C as [[C U] N]. cbv zeta. split.
  - apply in_app_or. apply existsb_exists in C. destruct C as (x & I & E). apply const_eq in E; [unfold keyword_value in E; rewrite E; exact I|].
    destruct (choices_of_ok p) as [A B]. rewrite Forall_forall in A, B. apply in_app_or in I. destruct I; auto.
  - intros n. split; [apply unparsed_none, U|]. intros ->. apply unparsed_none. exact N.
Qed.
Lemma const_value p v o n : (forall l, Permutation l (o l)) -> first_valid (ch_validators (choices_of p)) n v = Ok None ->
  (let w := if py_eqb v (VStr "none") then VNone else v in In w (ch_constants (choices_of p)) \/ In w (ch_defaulting (choices_of p))) ->
  validate o (choices_of p) n v = Ok (if py_eqb v (VStr "none") then VNone else v, n).
Proof.
  intros P F I. unfold validate. rewrite F. cbn [bindr]. cbv zeta in *. set (w := if py_eqb v (VStr "none") then VNone else v) in *.
  destruct (choices_of_ok p) as [C D]. assert (C' : Forall const_ok (o (ch_constants (choices_of p)))).
  { rewrite Forall_forall in *. intros x X. apply C. eapply Permutation_in; [apply Permutation_sym, P|exact X]. }
  destruct (find_const w (o (ch_constants (choices_of p)))) as [x|] eqn:E.
  - apply (find_const_some _ _ _ C') in E. destruct E as [-> _]. reflexivity.
  - destruct I as [I|I].
    + apply (Permutation_in _ (P _)) in I. rewrite (find_const_in _ _ C' I) in E. discriminate.
    + rewrite (find_const_in _ _ D I). reflexivity.
Qed.
(** C103: acceptance, exactly. *)
Lemma validate_accepts ho p n v w n' : valid_order ho -> validate (ho_set ho) (choices_of p) n v = Ok (w, n') <-> accepts p n v w n'.
Proof.
  intros V. split.
  - intros H. apply validate_inv in H; [|apply choices_of_ok|apply V]. destruct H as [(f & F & H)|(-> & _ & W & I)].
    + pose proof F as F'. rewrite kind_validators in F. destruct (kind_of p) as [k|] eqn:K; [|destruct F]. apply (accepts_kind p n k); [exact K|]. destruct F as [<-|F].
      * apply runs_takes, H.
      * assert (f = is_percentage) as -> by (destruct (existsb _ _) in F; [destruct F as [<-|[]]; reflexivity|destruct F]).
        apply percentage_only_lengths in F'. assert (k = LengthK) as -> by congruence. apply percentage_length, H.
    + destruct (py_eqb v (VStr "none")) eqn:E.
      * assert (v = VStr "none") as -> by (destruct v; try discriminate; apply String.eqb_eq in E; congruence).
        subst w. apply constants_keywords in I. destruct I as [(s & S & _)|[[_ I]|[S _]]]; try discriminate. apply accepts_none_word, I.
      * subst w. apply constants_keywords in I. destruct I as [(s & -> & N & I)|[[-> I]|[-> I]]].
        -- apply accepts_keyword; assumption.
        -- apply accepts_none, I.
        -- apply accepts_default, I.
  - intros A. destruct A as [k v w n' K T|s I N|I|I|I].
    + unfold validate. rewrite kind_validators, K. cbn [first_valid]. apply runs_takes in T. rewrite T. reflexivity.
    + destruct (keywords_constants p s I) as [J F]. pose proof (const_value p (VStr s) (ho_set ho) n (proj1 V) (proj1 (F n))) as Q. cbn [py_eqb] in Q. cbv zeta in *.
      apply String.eqb_neq in N. rewrite N in *. apply Q, J.
    + destruct (keywords_constants p _ I) as [J F]. exact (const_value p (VStr "none") (ho_set ho) n (proj1 V) (proj1 (F n)) J).
    + destruct (keywords_constants p _ I) as [J F]. exact (const_value p VNone (ho_set ho) n (proj1 V) (proj2 (F n) eq_refl) J).
    + apply (const_value p VDefault (ho_set ho) n (proj1 V)); destruct I as [-> | ->]; try (vm_compute; reflexivity); cbn; tauto.
Qed.
Theorem C103_accepted : forall ho p v c n, valid_order ho -> reachable ho c n -> has_layout c ->
  (forall w n', accepts p n v w n' -> exists c', set_prop ho (Long p) v c n = (c', n', Ok tt)
     /\ exists r, get_prop ho c' (Long p) = Ok (RValue r) /\ (r = w \/ equals w r))
  /\ ((forall w n', ~ accepts p n v w n') -> exists e, set_prop ho (Long p) v c n = (c, n, Err e)).
Proof.
  intros ho p v c n V R L. split.
  - intros w n' A. apply (validate_accepts ho p n v w n' V) in A. destruct (set_long_accepts ho p v c n w n' L A) as (c' & E & _). exists c'. split; [exact E|].
    destruct (C18_set_get ho c n p v c' n' V R E) as (w' & r & W & G & X). rewrite A in W. injection W as <-. exists r. auto.
  - intros N. cbn [set_prop]. rewrite set_long_eq. destruct (validate (ho_set ho) (choices_of p) n v) as [[w m]|e] eqn:W.
    + destruct (N w m). apply (validate_accepts ho p n v w m V), W.
    + eexists. reflexivity.
Qed.
Print Assumptions C103_accepted.
Example C103_example : accepts L_text_decoration sample_n (VStr "line-through") (VStr "line-through") sample_n
  /\ accepts L_max_width sample_n (VStr "2.5em") (VUnit (mkU (KFont "em") (PF (Fin (qfrac 5 2))))) sample_n
  /\ accepts L_orphans sample_n (VFloat (Fin (qfrac (-7) 2))) (VInt (-3)) sample_n
  /\ accepts L_max_height sample_n (VStr "none") VNone sample_n
  /\ (forall w n', ~ accepts (L_padding STop) sample_n (VStr "auto") w n') /\ (forall w n', ~ accepts L_width sample_n (VStr "none") w n')
  /\ reachable plain_order sample sample_n /\ has_layout sample.
Proof.
  split; [apply accepts_keyword; [cbn; tauto|discriminate]|].
  split. { apply (accepts_kind _ _ LengthK); [reflexivity|]. exists (mkU (KFont "em") (PF (Fin (qfrac 5 2)))). split; [|auto].
    apply (length_unit "2.5" (Fin (qfrac 5 2)) "em"); [|cbn; tauto]. transitivity (Ok (Fin (Q2Qc (5 # 2)))); [|reflexivity].
    destruct (py_float "2.5") as [[q| |]|] eqn:E; vm_compute in E; try discriminate. injection E as <-. repeat f_equal. apply Qc_is_canon. reflexivity. }
  split. { apply (accepts_kind _ _ IntegerK); [reflexivity|]. exists (-3). split; [|auto]. apply integer_up; vm_compute; [discriminate|reflexivity|discriminate]. }
  split; [apply accepts_none_word; cbn; tauto|].
  split. { intros w n' A. apply (validate_accepts plain_order) in A; [|apply plain_valid]. vm_compute in A. discriminate. }
  split. { intros w n' A. apply (validate_accepts plain_order) in A; [|apply plain_valid]. vm_compute in A. discriminate. }
  split; [apply sample_reachable|]. vm_compute. discriminate.
Qed.
