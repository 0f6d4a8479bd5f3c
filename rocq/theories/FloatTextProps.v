(** * Property C110: decimal text denotes the nearest binary64 number *)
From Coq Require Import ZArith QArith Qcanon Qabs Lqa Lia Bool String List.
From Verif Require Import PyNum NumFacts Float64 PyStr StrFacts Colors Values Parser TextFacts FloatFacts Units UnitsSpec ParseSpec ColorSpec ColorText UnitsParseProps FloatSpec.
Import ListNotations.
Open Scope string_scope.
Open Scope Z_scope.

Lemma repr_0 : repr 0%Q. Proof. exists 0, 0. split; [lia|]. split; [lia|reflexivity]. Qed.
Lemma b64_is_nearest q : (Qabs q <= qpow2 1000)%Q -> exists r, b64 q = Fin r /\ nearest_double q r.
Proof.
  intros B. assert (B' : (Qabs q < qpow2 1022)%Q) by (eapply Qle_lt_trans; [exact B|reflexivity]).
  assert (X : exists r, b64 q = Fin r).
  { destruct (Qeq_dec q 0) as [Z0|NZ]; [unfold b64; apply Qeq_eq_bool in Z0; rewrite Z0; eexists; reflexivity|].
    destruct (b64_shape q NZ B') as [S _]. cbn zeta in S. rewrite S. eexists. reflexivity. }
  destruct X as (r & E). exists r. split; [exact E|].
  assert (Br : (Qabs (this r) < qpow2 1022)%Q).
  { destruct (b64_nearest q r E B' 0%Q repr_0) as [N _]. assert (Z : (Qabs (0 - q) == Qabs q)%Q) by (rewrite <- (Qabs_opp q); unfold Qminus; rewrite Qplus_0_l; reflexivity).
    rewrite Z in N. assert (T : (Qabs (this r) <= Qabs (this r - q) + Qabs q)%Q).
    { assert (A : (this r == (this r - q) + q)%Q) by ring. rewrite A at 1. apply Qabs_triangle. }
    assert (U : (Qabs (this r) <= qpow2 1000 + qpow2 1000)%Q).
    { eapply Qle_trans; [exact T|]. apply Qplus_le_compat; [eapply Qle_trans; [exact N|exact B]|exact B]. }
    eapply Qle_lt_trans; [exact U|reflexivity]. }
  split; [split; [exact (b64_repr_inv q r E B')|exact Br]|].
  intros r' [R' _]. destruct (b64_nearest q r E B' (this r') R') as [N T]. split; [exact N|]. intros Eq Ne. apply T; [exact Eq|].
  intros C. apply Ne. apply Qc_is_canon. exact C.
Qed.

(** C110.  A length written as a decimal number with a unit (or without: px)
    has the binary64 number nearest to the written decimal as magnitude. *)
Theorem C110_written_lengths : forall s q, number_text s q -> (Qabs q <= qpow2 1000)%Q ->
  exists r, nearest_double q r /\ units (VStr s) = Ok (mkU KPx (PF (Fin r)))
    /\ forall t k, In (t, k) css_units -> units (VStr (s ++ t)) = Ok (mkU k (PF (Fin r))).
Proof.
  intros s q T B. destruct (b64_is_nearest q B) as (r & E & N). exists r. split; [exact N|].
  assert (F : py_float s = Ok (Fin r)).
  { rewrite <- E. apply py_float_arg. exists "", s, "". split; [reflexivity|]. split; [reflexivity|]. split; [exact T|]. rewrite app_nil_r_s. reflexivity. }
  destruct (C06_numbers s (Fin r) F) as (A & C & _). split; [exact A|exact C].
Qed.
Example C110_example : number_text "0.1" (1 # 10) /\ number_text "-12" (inject_Z (-12))
  /\ match units (VStr "0.1cm") with Ok (mkU _ (PF (Fin r))) => qc_eqb r (qfrac 3602879701896397 36028797018963968) | _ => false end = true.
Proof.
  split; [|split; [|vm_compute; reflexivity]].
  - left. exists "0", "1". repeat split; try reflexivity. discriminate.
  - right. exists (-12). split; [|reflexivity]. exists "12". split; [discriminate|]. split; [reflexivity|]. right. right. split; reflexivity.
Qed.
Print Assumptions C110_written_lengths.
