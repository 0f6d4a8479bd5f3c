(** * Facts about strings *)
From Coq Require Import ZArith QArith Qcanon Bool String Ascii List Lia.
From Verif Require Import PyNum Units Float64 PyStr.
Import ListNotations.
Open Scope string_scope.

Lemma app_nil_r_s s : s ++ "" = s.
Proof. induction s; cbn; congruence. Qed.
Lemma app_assoc_s a b c : (a ++ b) ++ c = a ++ (b ++ c).
Proof. induction a; cbn; congruence. Qed.
Lemma length_app_s a b : String.length (a ++ b) = (String.length a + String.length b)%nat.
Proof. induction a; cbn; congruence. Qed.
Fixpoint all_chars (f : ascii -> bool) (s : string) : bool :=
  match s with EmptyString => true | String c r => f c && all_chars f r end.
Lemma all_chars_app f a b : all_chars f (a ++ b) = all_chars f a && all_chars f b.
Proof. induction a as [|c a IH]; cbn; [reflexivity|]. rewrite IH, andb_assoc. reflexivity. Qed.

(** ** Stripping *)
Lemma lstrip_none f c s : f c = false -> lstrip_by f (String c s) = String c s.
Proof. intros H. cbn. rewrite H. reflexivity. Qed.
Lemma rstrip_all f s : all_chars (fun c => negb (f c)) s = true -> rstrip_by f s = s.
Proof.
  induction s as [|c s IH]; cbn; [reflexivity|]. intros H. apply andb_prop in H. destruct H as [H1 H2]. rewrite (IH H2).
  apply negb_true_iff in H1. rewrite H1, andb_false_r. reflexivity.
Qed.
Lemma lstrip_all f s : all_chars (fun c => negb (f c)) s = true -> lstrip_by f s = s.
Proof. destruct s as [|c s]; cbn; [reflexivity|]. intros H. apply andb_prop in H. destruct H as [H1 _]. apply negb_true_iff in H1. rewrite H1. reflexivity. Qed.

(** ** Words *)
Definition no_space (s : string) : bool := all_chars (fun c => negb (is_space c)) s.
Definition word (s : string) : Prop := s <> "" /\ no_space s = true.
Lemma strip_word s : no_space s = true -> strip s = s.
Proof. intros H. unfold strip. rewrite (lstrip_all _ _ H). apply rstrip_all, H. Qed.
Lemma split_aux_word s t : no_space s = true -> split_aux (s ++ t) = (s ++ fst (split_aux t), snd (split_aux t)).
Proof.
  induction s as [|c s IH]; cbn [append split_aux]; [intros _; destruct (split_aux t); reflexivity|].
  intros H. apply andb_prop in H. destruct H as [H1 H2]. rewrite (IH H2). apply negb_true_iff in H1. rewrite H1. reflexivity.
Qed.
Lemma split_join l : Forall word l -> split_ws (join " " l) = l.
Proof.
  unfold split_ws. induction 1 as [|w l [N W] F IH]; [reflexivity|].
  destruct l as [|w' l].
  - cbn [join]. rewrite <- (app_nil_r_s w), (split_aux_word w "" W). cbn. rewrite app_nil_r_s. destruct w; [congruence|reflexivity].
  - change (join " " (w :: w' :: l)) with (w ++ String " " (join " " (w' :: l))). rewrite (split_aux_word _ _ W).
    cbn [split_aux]. destruct (split_aux (join " " (w' :: l))) as [a b].
    change (is_space " ") with true. cbn [fst snd]. rewrite app_nil_r_s. destruct w as [|c w]; [congruence|]. cbn [cons_word]. rewrite IH. reflexivity.
Qed.

(** ** Errors of the conversions *)
Lemma py_int_base_err b s e : py_int_base b s = Err e -> e = ValueError.
Proof. unfold py_int_base. destruct (read_sign _) as [neg t]. cbv zeta. destruct (read_digits _ _ _ _); congruence. Qed.
Lemma py_float_err s e : py_float s = Err e -> e = ValueError.
Proof.
  unfold py_float. destruct (drop_underscores _ _); [|congruence]. destruct (read_sign _) as [neg u]. cbv zeta.
  destruct (_ || _)%bool; [discriminate|]. destruct (String.eqb _ "nan"); [discriminate|]. destruct (read_decimal u); congruence.
Qed.
Lemma startswith_app p s : startswith p (p ++ s) = true.
Proof. induction p as [|c p IH]; cbn; [reflexivity|]. rewrite Ascii.eqb_refl. exact IH. Qed.
