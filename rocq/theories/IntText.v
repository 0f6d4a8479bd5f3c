(** * The decimal text of an integer is the standard library's *)
From Coq Require Import ZArith NArith String Ascii Lia Decimal DecimalFacts DecimalPos DecimalN DecimalZ DecimalString.
From Verif Require Import PyNum PyStr StrFacts TextFacts.
Open Scope string_scope.
Open Scope Z_scope.

Definition put (d : Z) (u : uint) : uint :=
  match d with 0 => D0 u | 1 => D1 u | 2 => D2 u | 3 => D3 u | 4 => D4 u | 5 => D5 u | 6 => D6 u | 7 => D7 u | 8 => D8 u | _ => D9 u end.
Fixpoint digits_of (fuel : nat) (z : Z) (acc : uint) : uint :=
  match fuel with O => acc | S k => if z <? 10 then put (z mod 10) acc else digits_of k (z / 10) (put (z mod 10) acc) end.
Lemma small d : 0 <= d < 10 -> d = 0 \/ d = 1 \/ d = 2 \/ d = 3 \/ d = 4 \/ d = 5 \/ d = 6 \/ d = 7 \/ d = 8 \/ d = 9.
Proof. lia. Qed.
Lemma put_string d u : 0 <= d < 10 -> NilEmpty.string_of_uint (put d u) = String (digit_char d) (NilEmpty.string_of_uint u).
Proof. intros H. apply small in H. repeat destruct H as [-> | H]; try subst; reflexivity. Qed.
Lemma put_value d u : 0 <= d < 10 -> Unsigned.of_lu (rev (put d u)) = (Unsigned.of_lu (rev u) + Z.to_N d * 10 ^ Unsigned.usize u)%N.
Proof.
  intros H. assert (E : rev (put d u) = revapp u (put d Nil)) by (apply small in H; repeat destruct H as [-> | H]; try subst; reflexivity).
  rewrite E, Unsigned.of_lu_revapp. f_equal. f_equal. apply small in H. repeat destruct H as [-> | H]; try subst; reflexivity.
Qed.
Lemma put_size d u : 0 <= d < 10 -> Unsigned.usize (put d u) = N.succ (Unsigned.usize u).
Proof. intros H. apply small in H. repeat destruct H as [-> | H]; try subst; reflexivity. Qed.
Lemma digits_string fuel : forall z acc, 0 <= z -> NilEmpty.string_of_uint (digits_of fuel z acc) = show_pos fuel z (NilEmpty.string_of_uint acc).
Proof.
  induction fuel as [|k IH]; intros z acc H; [reflexivity|]. cbn [digits_of show_pos]. assert (B : 0 <= z mod 10 < 10) by (apply Z.mod_pos_bound; lia).
  rewrite <- (put_string _ _ B). destruct (z <? 10); [reflexivity|]. apply IH. apply Z.div_pos; lia.
Qed.
Lemma digits_value fuel : forall z acc, 0 <= z < 10 ^ Z.of_nat fuel -> (0 < fuel)%nat ->
  Unsigned.of_lu (rev (digits_of fuel z acc)) = (Unsigned.of_lu (rev acc) + Z.to_N z * 10 ^ Unsigned.usize acc)%N.
Proof.
  induction fuel as [|k IH]; intros z acc H F; [lia|]. cbn [digits_of]. assert (B : 0 <= z mod 10 < 10) by (apply Z.mod_pos_bound; lia).
  rewrite Nat2Z.inj_succ, Z.pow_succ_r in H by lia. destruct (Z.ltb_spec z 10) as [L|L].
  - rewrite Z.mod_small by lia. apply put_value. lia.
  - assert (D : 1 <= z / 10) by (apply Z.div_le_lower_bound; lia). assert (U : z / 10 < 10 ^ Z.of_nat k) by (apply Z.div_lt_upper_bound; lia).
    assert (KP : (0 < k)%nat) by (destruct k; [change (10 ^ Z.of_nat 0) with 1 in U; lia|lia]).
    rewrite IH, put_value, put_size, N.pow_succ_r' by lia. pose proof (Z.div_mod z 10 ltac:(lia)) as E.
    assert (EN : Z.to_N z = (10 * Z.to_N (z / 10) + Z.to_N (z mod 10))%N) by lia. rewrite EN. ring.
Qed.
Lemma digits_first fuel : forall z acc, 0 < z < 10 ^ Z.of_nat fuel -> forall u, digits_of fuel z acc <> D0 u /\ digits_of fuel z acc <> Nil.
Proof.
  induction fuel as [|k IH]; intros z acc H u; [change (10 ^ Z.of_nat 0) with 1 in H; lia|]. cbn [digits_of].
  rewrite Nat2Z.inj_succ, Z.pow_succ_r in H by lia. destruct (Z.ltb_spec z 10) as [L|L].
  - rewrite Z.mod_small by lia. assert (C : z = 1 \/ z = 2 \/ z = 3 \/ z = 4 \/ z = 5 \/ z = 6 \/ z = 7 \/ z = 8 \/ z = 9) by lia.
    repeat destruct C as [-> | C]; try subst; split; discriminate.
  - apply IH. split; [apply Z.lt_le_trans with 1; [lia|apply Z.div_le_lower_bound; lia]|apply Z.div_lt_upper_bound; lia].
Qed.
Lemma fuel_enough z : 0 < z -> z < 10 ^ Z.of_nat (S (Z.to_nat (Z.log2 z))).
Proof.
  intros H. rewrite Nat2Z.inj_succ, Z2Nat.id by apply Z.log2_nonneg. apply Z.lt_le_trans with (2 ^ Z.succ (Z.log2 z)); [apply Z.log2_spec; exact H|].
  apply Z.pow_le_mono_l. lia.
Qed.
Lemma show_positive p : show_nonneg (Z.pos p) = NilZero.string_of_uint (Pos.to_uint p).
Proof.
  unfold show_nonneg. set (f := S _). assert (F : Z.pos p < 10 ^ Z.of_nat f) by (apply fuel_enough; lia).
  pose proof (digits_string f (Z.pos p) Nil ltac:(lia)) as S1. pose proof (digits_value f (Z.pos p) Nil ltac:(lia) ltac:(lia)) as V.
  pose proof (digits_first f (Z.pos p) Nil ltac:(lia)) as N. set (u := digits_of f (Z.pos p) Nil) in *. cbn [NilEmpty.string_of_uint] in S1. rewrite <- S1.
  assert (V' : Pos.of_uint u = N.pos p).
  { rewrite <- (rev_rev u), Unsigned.of_lu_rev. rewrite V. cbn. lia. }
  assert (T : Pos.to_uint p = u).
  { pose proof (DecimalPos.Unsigned.to_of u) as T. rewrite V' in T. cbn [N.to_uint] in T. rewrite T. unfold unorm. destruct u; try reflexivity; [destruct (proj2 (N Nil)); reflexivity|]. destruct (proj1 (N u)). reflexivity. }
  rewrite T. destruct u; try reflexivity. destruct (proj2 (N Nil)). reflexivity.
Qed.
(** str() of an int is its decimal text. *)
Lemma show_Z_text z : show_Z z = NilZero.string_of_int (Z.to_int z).
Proof.
  destruct z as [|p|p]; [reflexivity|exact (show_positive p)|]. exact (f_equal (String "-") (show_positive p)).
Qed.
