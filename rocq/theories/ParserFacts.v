(** * Facts about blanks, occurrences and separators *)
From Coq Require Import ZArith Bool String Ascii List Lia.
From Verif Require Import PyNum Units PyStr StrFacts TextFacts Values Parser ColorSpec ColorText ParserSpec.
Import ListNotations.
Open Scope string_scope.

Lemma ws_is c : ws c = is_space c.
Proof. revert c. by_chars (fun c => Bool.eqb (ws c) (is_space c)). apply Bool.eqb_prop, X. Qed.
Lemma all_chars_ext f g s : (forall c, f c = g c) -> all_chars f s = all_chars g s.
Proof. intros H. induction s as [|c s IH]; cbn; [reflexivity|]. rewrite H, IH. reflexivity. Qed.
Lemma spaces_is s : spaces s -> all_chars is_space s = true.
Proof. unfold spaces. rewrite (all_chars_ext ws is_space s ws_is). auto. Qed.
Lemma sequence_members v l : members v l -> sequence v = Some l /\ iterate v = Ok l.
Proof. intros [->|[->| ->]]; split; reflexivity. Qed.

(** ** Trimming *)
Lemma last_rstrip f s : (forall c, last_char s = Some c -> f c = false) -> rstrip_by f s = s.
Proof.
  induction s as [|c s IH]; intros H; [reflexivity|]. cbn [rstrip_by]. destruct s as [|d s].
  - cbn. rewrite (H c eq_refl). reflexivity.
  - rewrite IH by (intros x E; apply H, E). cbn. reflexivity.
Qed.
Lemma trim_trimmed s : trim_ends s -> trimmed is_space s.
Proof.
  intros [A B]. split.
  - destruct s as [|c s]; [exact I|]. rewrite <- ws_is. apply A. reflexivity.
  - apply last_rstrip. intros c E. rewrite <- ws_is. apply B, E.
Qed.
Lemma strip_spaces p s q : spaces p -> spaces q -> trimmed is_space s -> strip (p ++ s ++ q) = s.
Proof. intros P Q T. unfold strip. apply strip_pad; [apply spaces_is, P|apply spaces_is, Q|exact T]. Qed.
Lemma last_app s c : last_char (s ++ String c "") = Some c.
Proof. induction s as [|d s IH]; [reflexivity|]. cbn [append last_char]. destruct (s ++ String c "") eqn:E; [destruct s; discriminate|exact IH]. Qed.
Lemma trim_wrapped a s b : ws a = false -> ws b = false -> trim_ends (String a (s ++ String b "")).
Proof.
  intros A B. split; intros c E.
  - cbn in E. injection E as <-. exact A.
  - change (String a (s ++ String b "")) with (String a s ++ String b "") in E. rewrite last_app in E. injection E as <-. exact B.
Qed.
Lemma strip_split s : exists p q, spaces p /\ spaces q /\ s = p ++ strip s ++ q.
Proof.
  unfold strip. destruct (lstrip_split is_space s) as (a & Ea & A), (rstrip_split is_space (lstrip_by is_space s)) as (b & Eb & B).
  exists a, b. unfold spaces. rewrite !(all_chars_ext ws is_space _ ws_is). split; [exact A|]. split; [exact B|]. rewrite <- Eb. exact Ea.
Qed.
Lemma startswith_spec p s : startswith p s = true <-> exists r, s = p ++ r.
Proof.
  split.
  - revert s. induction p as [|a p IH]; intros s H; [exists s; reflexivity|]. destruct s as [|b s]; [discriminate|]. cbn in H. apply andb_prop in H.
    destruct H as [H1 H2]. apply Ascii.eqb_eq in H1. subst b. destruct (IH _ H2) as (r & ->). exists r. reflexivity.
  - intros (r & ->). apply startswith_app.
Qed.

(** ** Single characters: occurrences *)
Definition has (c : ascii) (s : string) : bool := existsb (Ascii.eqb c) (list_ascii_of_string s).
Fixpoint occurrences (c : ascii) (s : string) : nat :=
  match s with EmptyString => O | String d r => if Ascii.eqb c d then S (occurrences c r) else occurrences c r end.
Lemma count_char c s : count (String c "") s = occurrences c s.
Proof.
  unfold count. induction s as [|d s IH]; [reflexivity|]. cbn [count_from occurrences startswith String.length pred].
  rewrite andb_true_r. destruct (Ascii.eqb c d); rewrite IH; reflexivity.
Qed.
Lemma occurrences_app c a b : occurrences c (a ++ b) = (occurrences c a + occurrences c b)%nat.
Proof. induction a as [|d a IH]; [reflexivity|]. cbn. rewrite IH. destruct (Ascii.eqb c d); reflexivity. Qed.
Lemma occurrences_none c s : all_chars (fun d => negb (Ascii.eqb c d)) s = true -> occurrences c s = O.
Proof. induction s as [|d s IH]; [reflexivity|]. cbn. intros H. apply andb_prop in H. destruct H as [H1 H2]. apply negb_true_iff in H1. rewrite H1. auto. Qed.
Lemma none_occurrences c s : occurrences c s = O -> all_chars (fun d => negb (Ascii.eqb c d)) s = true.
Proof. induction s as [|d s IH]; [reflexivity|]. cbn. destruct (Ascii.eqb c d); [discriminate|]. exact IH. Qed.
Lemma remove_char c s : remove_all (String c "") s = remove_from (String c "") 0 s.
Proof. reflexivity. Qed.
Lemma remove_none c s : all_chars (fun d => negb (Ascii.eqb c d)) s = true -> remove_all (String c "") s = s.
Proof.
  unfold remove_all. induction s as [|d s IH]; [reflexivity|]. cbn [all_chars]. intros H. apply andb_prop in H. destruct H as [H1 H2]. apply negb_true_iff in H1.
  cbn [remove_from startswith]. rewrite H1. cbn [andb]. rewrite (IH H2). reflexivity.
Qed.
Lemma remove_last c s : all_chars (fun d => negb (Ascii.eqb c d)) s = true -> remove_all (String c "") (s ++ String c "") = s.
Proof.
  unfold remove_all. induction s as [|d s IH].
  - intros _. cbn. rewrite Ascii.eqb_refl. reflexivity.
  - cbn [all_chars]. intros H. apply andb_prop in H. destruct H as [H1 H2]. apply negb_true_iff in H1.
    cbn [append remove_from startswith]. rewrite H1. cbn [andb]. rewrite (IH H2). reflexivity.
Qed.
(** "rect(" *)
Lemma count_from_skip p k s : (k <= String.length s)%nat -> count_from p k s = count_from p 0 (drop k s).
Proof. revert s. induction k as [|k IH]; intros s H; [reflexivity|]. destruct s as [|c s]; [cbn in H; lia|]. cbn [count_from drop]. apply IH. cbn in H. lia. Qed.
Lemma remove_from_skip p k s : (k <= String.length s)%nat -> remove_from p k s = remove_from p 0 (drop k s).
Proof. revert s. induction k as [|k IH]; intros s H; [reflexivity|]. destruct s as [|c s]; [cbn in H; lia|]. cbn [remove_from drop]. apply IH. cbn in H. lia. Qed.
Lemma count_rect_head s : count "rect(" ("rect(" ++ s) = S (count "rect(" s).
Proof. reflexivity. Qed.
Lemma remove_rect_head s : remove_all "rect(" ("rect(" ++ s) = remove_all "rect(" s.
Proof. reflexivity. Qed.
Lemma rect_absent s : all_chars (fun d => negb (Ascii.eqb "(" d)) s = true -> startswith "rect(" s = false.
Proof.
  intros H. destruct (startswith "rect(" s) eqn:E; [|reflexivity]. apply startswith_spec in E. destruct E as (r & ->). discriminate H.
Qed.
Lemma count_rect_none s : all_chars (fun d => negb (Ascii.eqb "(" d)) s = true -> count "rect(" s = O.
Proof.
  unfold count. induction s as [|c s IH]; [reflexivity|]. intros H. cbn [count_from]. rewrite (rect_absent _ H). apply IH. cbn in H. apply andb_prop in H. apply H.
Qed.
Lemma count_zero_remove p s : count p s = O -> remove_all p s = s.
Proof.
  unfold count, remove_all. induction s as [|c s IH]; [reflexivity|]. cbn [count_from remove_from]. destruct (startswith p (String c s)); [discriminate|]. intros H. rewrite (IH H). reflexivity.
Qed.
Lemma split_on_id sep s : forall ts, split_on sep s = ts -> join (String sep "") ts = s.
Proof.
  intros ts <-. induction s as [|c s IH]; [reflexivity|]. cbn [split_on]. destruct (Ascii.eqb_spec c sep) as [->|N].
  - destruct (split_on sep s) as [|w l] eqn:E; [destruct s as [|d s']; cbn in E; [discriminate|]; destruct (Ascii.eqb d sep); [discriminate|]; destruct (split_on sep s'); discriminate|].
    change (join (String sep "") ("" :: w :: l)) with (String sep (join (String sep "") (w :: l))). rewrite IH. reflexivity.
  - destruct (split_on sep s) as [|w l]; [cbn in IH; subst s; reflexivity|]. destruct l as [|x l]; cbn [join] in *; rewrite <- IH; reflexivity.
Qed.
Lemma split_on_absent sep s : all_chars (fun d => negb (Ascii.eqb sep d)) s = true -> split_on sep s = [s].
Proof.
  induction s as [|c s IH]; [reflexivity|]. cbn [split_on all_chars]. intros H. apply andb_prop in H. destruct H as [H1 H2]. apply negb_true_iff in H1.
  rewrite Ascii.eqb_sym, H1, (IH H2). reflexivity.
Qed.
Lemma split_on_first sep w t : all_chars (fun d => negb (Ascii.eqb sep d)) w = true -> split_on sep (w ++ String sep t) = w :: split_on sep t.
Proof.
  induction w as [|c w IH]; [cbn [append split_on]; rewrite Ascii.eqb_refl; reflexivity|]. cbn [append split_on all_chars]. intros H. apply andb_prop in H.
  destruct H as [H1 H2]. apply negb_true_iff in H1. rewrite Ascii.eqb_sym, H1, (IH H2). reflexivity.
Qed.

(** ** Collapsing blanks: " ".join(s.split()) *)
Definition starts_blank (s : string) : bool := match s with String c _ => is_space c | EmptyString => false end.
Fixpoint sq (s : string) : string :=
  match s with
  | EmptyString => EmptyString
  | String c r => if is_space c then (if starts_blank r then sq r else String " " (sq r)) else String c (sq r)
  end.
Fixpoint tail_text (ws : list string) : string := match ws with [] => "" | w :: r => String " " (w ++ tail_text r) end.
Lemma split_aux_first s : starts_blank s = true -> fst (split_aux s) = "".
Proof. destruct s as [|c s]; [discriminate|]. cbn. intros ->. destruct (split_aux s). reflexivity. Qed.
Lemma split_aux_none s : starts_blank s = false -> s <> "" -> fst (split_aux s) <> "".
Proof. destruct s as [|c s]; [congruence|]. cbn. intros -> _. destruct (split_aux s). discriminate. Qed.
Lemma split_aux_words s : no_space (fst (split_aux s)) = true /\ Forall word (snd (split_aux s)).
Proof.
  induction s as [|c s IH]; [split; [reflexivity|constructor]|]. cbn [split_aux]. destruct (split_aux s) as [w l]. cbn [fst snd] in *. destruct IH as [A B].
  destruct (is_space c) eqn:E; cbn [fst snd].
  - split; [reflexivity|]. destruct w as [|d w]; cbn [cons_word]; [exact B|]. constructor; [split; [discriminate|exact A]|exact B].
  - split; [|exact B]. unfold no_space in *. cbn. rewrite E. exact A.
Qed.
Lemma split_ws_words s : Forall word (split_ws s).
Proof.
  unfold split_ws. pose proof (split_aux_words s) as [A B]. destruct (split_aux s) as [w l]. cbn in *. destruct w; [exact B|]. constructor; [split; [discriminate|exact A]|exact B].
Qed.
Lemma map_strip_words l : Forall word l -> map strip l = l.
Proof. induction 1 as [|w l [_ W] F IH]; [reflexivity|]. cbn. rewrite (strip_word _ W), IH. reflexivity. Qed.
Lemma rstrip_sq s : rstrip_by is_space (sq s) = fst (split_aux s) ++ tail_text (snd (split_aux s)).
Proof.
  induction s as [|c s IH]; [reflexivity|]. cbn [sq split_aux]. destruct (is_space c) eqn:E.
  - destruct (starts_blank s) eqn:S.
    + pose proof (split_aux_first s S) as F. destruct (split_aux s) as [w l]. cbn [fst snd] in *. subst w. exact IH.
    + destruct s as [|d s]; [reflexivity|]. pose proof (split_aux_none (String d s) S) as F. cbn [rstrip_by]. rewrite IH. clear IH. destruct (split_aux (String d s)) as [w l].
      cbn [fst snd] in *. destruct w as [|x w]; [exfalso; apply F; [discriminate|reflexivity]|]. cbn. reflexivity.
  - cbn [rstrip_by]. rewrite IH. destruct (split_aux s) as [w l]. cbn [fst snd append]. rewrite E, andb_false_r. reflexivity.
Qed.
Lemma join_tail l : forall w, join " " (w :: l) = w ++ tail_text l.
Proof.
  induction l as [|x l IH]; intros w; [cbn; rewrite app_nil_r_s; reflexivity|]. change (join " " (w :: x :: l)) with (w ++ String " " (join " " (x :: l))).
  rewrite IH. reflexivity.
Qed.
Lemma lstrip_word w t : word w -> lstrip_by is_space (w ++ t) = w ++ t.
Proof. intros [N W]. destruct w as [|c w]; [congruence|]. apply lstrip_none. unfold no_space in W. cbn in W. apply andb_prop in W. destruct W as [W _]. apply negb_true_iff, W. Qed.
Lemma join_split_ws s : join " " (split_ws s) = lstrip_by is_space (rstrip_by is_space (sq s)).
Proof.
  rewrite rstrip_sq. unfold split_ws. pose proof (split_aux_words s) as [A B]. destruct (split_aux s) as [w l]. cbn [fst snd] in *.
  destruct w as [|c w]; cbn [cons_word].
  - destruct B as [|x l X B]; [reflexivity|]. rewrite join_tail. change (tail_text (x :: l)) with (String " " (x ++ tail_text l)). cbn [append lstrip_by].
    change (is_space " ") with true. cbv iota. symmetry. apply lstrip_word, X.
  - rewrite join_tail. symmetry. apply lstrip_word. split; [discriminate|exact A].
Qed.
Definition ends_blank (s : string) : bool := ends_in is_space s.
Lemma starts_blank_app a b : starts_blank (a ++ b) = match a with EmptyString => starts_blank b | String c _ => is_space c end.
Proof. destruct a; reflexivity. Qed.
Lemma sq_app_left a b : ends_blank a = false -> sq (a ++ b) = sq a ++ sq b.
Proof.
  induction a as [|c a IH]; intros H; [reflexivity|]. destruct a as [|d a].
  - cbn in H. cbn [append sq]. rewrite H. reflexivity.
  - cbn [append]. cbn [append] in IH. cbn [sq]. cbn [sq] in IH. change (ends_blank (String c (String d a))) with (ends_blank (String d a)) in H. specialize (IH H).
    destruct (is_space c); [|rewrite IH; reflexivity]. cbn [starts_blank]. rewrite IH. destruct (is_space d); reflexivity.
Qed.
Lemma sq_app_right a b : starts_blank b = false -> sq (a ++ b) = sq a ++ sq b.
Proof.
  intros H. induction a as [|c a IH]; [reflexivity|]. cbn [append sq]. rewrite IH, starts_blank_app. destruct (is_space c); [|reflexivity].
  destruct a as [|d a]; cbn [starts_blank]; [rewrite H; reflexivity|]. destruct (is_space d); reflexivity.
Qed.
Lemma sq_nospace s : no_space s = true -> sq s = s.
Proof. induction s as [|c s IH]; [reflexivity|]. intros H. unfold no_space in H. cbn in H. apply andb_prop in H. destruct H as [H1 H2]. apply negb_true_iff in H1. cbn [sq]. rewrite H1, IH by exact H2. reflexivity. Qed.
Definition pad1 (p : string) : string := if is_empty p then "" else " ".
Lemma sq_spaces p : spaces p -> sq p = pad1 p.
Proof.
  intros H. apply spaces_is in H. induction p as [|c p IH]; [reflexivity|]. cbn in H. apply andb_prop in H. destruct H as [H1 H2]. cbn [sq]. rewrite H1.
  destruct p as [|d p]; [reflexivity|]. specialize (IH H2). cbn [starts_blank]. cbn in H2. apply andb_prop in H2. destruct H2 as [H2 _]. rewrite H2, IH. reflexivity.
Qed.
Lemma spaces_pad1 p : spaces (pad1 p).
Proof. unfold pad1. destruct (is_empty p); reflexivity. Qed.
Lemma pad1_chars f p : f " "%char = true -> all_chars f (pad1 p) = true.
Proof. intros H. unfold pad1. destruct (is_empty p); [reflexivity|]. cbn. rewrite H. reflexivity. Qed.
Lemma sq_chars f s : f " "%char = true -> all_chars f s = true -> all_chars f (sq s) = true.
Proof.
  intros F. induction s as [|c s IH]; [reflexivity|]. cbn [all_chars sq]. intros H. apply andb_prop in H. destruct H as [H1 H2].
  destruct (is_space c); [destruct (starts_blank s); [auto|]|]; cbn; rewrite ?F, ?H1; auto.
Qed.
(** the text between outer blanks *)
Lemma normal p s q : spaces p -> spaces q -> starts_blank s = false -> s <> "" -> ends_blank s = false ->
  rstrip_by is_space (sq s) = sq s ->
  join " " (split_ws (p ++ s ++ q)) = sq s.
Proof.
  intros P Q S N E R. rewrite join_split_ws.
  assert (SA : starts_blank (s ++ q) = false) by (rewrite starts_blank_app; destruct s; [congruence|exact S]).
  rewrite (sq_app_right p (s ++ q) SA), (sq_app_left s q E), (sq_spaces p P), (sq_spaces q Q).
  assert (X : all_chars is_space (pad1 q) = true) by (apply pad1_chars; reflexivity).
  assert (Y : all_chars is_space (pad1 p) = true) by (apply pad1_chars; reflexivity).
  rewrite <- app_assoc_s, (rstrip_pad _ _ _ X).
  assert (Z : rstrip_by is_space (pad1 p ++ sq s) = pad1 p ++ sq s).
  { assert (NE : sq s <> ""). { destruct s as [|c s]; [congruence|]. cbn in S. cbn [sq]. rewrite S. discriminate. }
    unfold pad1. destruct (is_empty p); [exact R|]. cbn [append rstrip_by]. rewrite R. destruct (sq s); [congruence|]. reflexivity. }
  rewrite Z, (lstrip_pad _ _ _ Y). destruct s as [|c s]; [congruence|]. cbn in S. cbn [sq]. rewrite S. apply lstrip_none, S.
Qed.
