(** * Reading escapes (lemmas for C187) *)
From Coq Require Import ZArith Bool String Ascii List Lia.
From Verif Require Import PyNum PyStr EscapeSpec.
Import ListNotations.
Open Scope string_scope.
Open Scope Z_scope.

Definition mark (q : ascii) : Prop := q = "'"%char \/ q = """"%char.
Definition first_of (c : ascii) (l : literal) : literal := match l with LitStr t => LitStr (String c t) | x => x end.
Lemma chr_Z z : 0 <= z -> ascii_of_N (Z.to_N z) = chr (Z.to_nat z).
Proof. intros H. unfold chr, ascii_of_nat. f_equal. lia. Qed.
Lemma octal_iff c : is_octal c = true <-> octal c.
Proof.
  split.
  - destruct c as [[] [] [] [] [] [] [] []]; intros H; first [discriminate H|unfold octal; cbn; tauto].
  - unfold octal. cbn. intros H. repeat destruct H as [<-|H]; try reflexivity. contradiction.
Qed.
Lemma octal_no c : ~ octal c -> is_octal c = false.
Proof. intros H. destruct (is_octal c) eqn:E; [apply octal_iff in E; contradiction|reflexivity]. Qed.
Lemma octal_code c : octal c -> code c - 48 = Z.of_nat (octal_digit c) /\ (octal_digit c <= 7)%nat.
Proof. unfold octal. cbn. intros H. repeat destruct H as [<-|H]; try (split; [reflexivity|apply Nat.leb_le; reflexivity]). contradiction. Qed.
Lemma hex_val c n : hexadecimal c n -> digit_in 16 c = Some (Z.of_nat n).
Proof.
  intros [L H]. do 16 (destruct n as [|n]; [cbn in H; destruct H as [H|H]; injection H as <-; reflexivity|]). lia.
Qed.
Lemma hex_inv c z : digit_in 16 c = Some z -> exists n, z = Z.of_nat n /\ hexadecimal c n.
Proof.
  intros H. exists (Z.to_nat z). destruct c as [[] [] [] [] [] [] [] []]; vm_compute in H; try discriminate H;
    injection H as <-; (split; [reflexivity|]; split; [apply Nat.ltb_lt; reflexivity|cbn; auto]).
Qed.
(** what the function does after a backslash, by the next character *)
Definition letter_escape (d : ascii) : option ascii :=
  if Ascii.eqb d backslash || Ascii.eqb d squote || Ascii.eqb d dquote then Some d
  else if Ascii.eqb d "n" then Some (ascii_of_N 10)
  else if Ascii.eqb d "t" then Some (ascii_of_N 9)
  else if Ascii.eqb d "r" then Some (ascii_of_N 13)
  else if Ascii.eqb d "a" then Some (ascii_of_N 7)
  else if Ascii.eqb d "b" then Some (ascii_of_N 8)
  else if Ascii.eqb d "f" then Some (ascii_of_N 12)
  else if Ascii.eqb d "v" then Some (ascii_of_N 11)
  else None.
Lemma letter_short d c : letter_escape d = Some c <-> short_escape d c.
Proof.
  split.
  - destruct d as [[] [] [] [] [] [] [] []]; intros H; first [discriminate H|injection H as <-; unfold short_escape; cbn; tauto].
  - unfold short_escape. cbn [In]. intros H. repeat destruct H as [H|H]; try (injection H as <- <-; reflexivity). contradiction.
Qed.
Lemma read_letter q d c r : mark q -> letter_escape d = Some c -> read_literal q (String "\" (String d r)) = first_of c (read_literal q r).
Proof.
  intros Q E. cbn [read_literal]. assert (Ascii.eqb "\" q = false) as -> by (destruct Q as [-> | ->]; reflexivity). cbn [Ascii.eqb Bool.eqb backslash].
  unfold letter_escape in E. unfold first_of.
  repeat match type of E with (if ?b then _ else _) = _ => destruct b; [injection E as <-; reflexivity|] end. discriminate.
Qed.
(** the kinds of characters that are no letter escapes *)
Definition kind (d : ascii) : nat :=
  if Ascii.eqb d "x" then 1%nat else if Ascii.eqb d "u" then 2%nat else if is_octal d then 3%nat
  else if Ascii.eqb d "U" || Ascii.eqb d "N" || (code d =? 10) || (code d =? 13) then 4%nat else 5%nat.
Lemma read_other q d r : mark q -> letter_escape d = None -> read_literal q (String "\" (String d r)) =
  match kind d with
  | 1%nat => match r with
             | String h1 (String h2 r2) =>
                 match digit_in 16 h1, digit_in 16 h2 with
                 | Some a, Some b => first_of (ascii_of_N (Z.to_N (a * 16 + b))) (read_literal q r2)
                 | _, _ => LitBad
                 end
             | _ => LitBad
             end
  | 2%nat => match r with
             | String h1 (String h2 (String h3 (String h4 r2))) =>
                 match digit_in 16 h1, digit_in 16 h2, digit_in 16 h3, digit_in 16 h4 with
                 | Some a, Some b, Some e, Some f =>
                     if (a =? 0) && (b =? 0) then first_of (ascii_of_N (Z.to_N (e * 16 + f))) (read_literal q r2) else LitUnknown
                 | _, _, _, _ => LitBad
                 end
             | _ => LitBad
             end
  | 3%nat => match r with
             | String e r2 =>
                 if is_octal e then
                   match r2 with
                   | String f r3 =>
                       if is_octal f then
                         if code d <=? 51 then first_of (ascii_of_N (Z.to_N ((code d - 48) * 64 + (code e - 48) * 8 + (code f - 48)))) (read_literal q r3)
                         else LitUnknown
                       else first_of (ascii_of_N (Z.to_N ((code d - 48) * 8 + (code e - 48)))) (read_literal q r2)
                   | EmptyString => LitBad
                   end
                 else first_of (ascii_of_N (Z.to_N (code d - 48))) (read_literal q r)
             | EmptyString => LitBad
             end
  | 4%nat => LitUnknown
  | _ => match read_literal q r with LitStr t => LitStr (String "\" (String d t)) | x => x end
  end.
Proof.
  intros Q E. cbn [read_literal]. assert (Ascii.eqb "\" q = false) as -> by (destruct Q as [-> | ->]; reflexivity). cbn [Ascii.eqb Bool.eqb backslash].
  unfold letter_escape in E.
  repeat match type of E with (if ?b then _ else _) = _ => destruct b; [discriminate E|] end.
  unfold kind. destruct (Ascii.eqb d "x"); [reflexivity|]. destruct (Ascii.eqb d "u"); [reflexivity|]. destruct (is_octal d); [reflexivity|].
  destruct (_ || _)%bool; reflexivity.
Qed.
Lemma octal_kind d : octal d -> letter_escape d = None /\ kind d = 3%nat.
Proof. unfold octal. cbn. intros H. repeat destruct H as [<-|H]; try (split; reflexivity). contradiction. Qed.
Lemma kept_kind d : ~ meaningful d -> letter_escape d = None /\ kind d = 5%nat.
Proof.
  intros H. destruct d as [[] [] [] [] [] [] [] []]; first [split; reflexivity|exfalso; apply H; unfold meaningful; cbn; tauto].
Qed.
Lemma kind_kept d : letter_escape d = None -> kind d = 5%nat -> d <> Ascii.zero -> ~ meaningful d.
Proof.
  intros L K N [M|M].
  - cbn in M. repeat destruct M as [<-|M]; try discriminate L; try discriminate K. exact M.
  - destruct M as [M|[M|[M|[]]]]; (apply (f_equal ascii_of_nat) in M; rewrite ascii_nat_embedding in M; subst d); [apply N; reflexivity|discriminate K|discriminate K].
Qed.
Lemma read_plain q c r : mark q -> c <> q -> c <> "\"%char -> ~ In (nat_of_ascii c) [0; 10; 13]%nat -> read_literal q (String c r) = first_of c (read_literal q r).
Proof.
  intros Q A B N. cbn [read_literal]. destruct (Ascii.eqb_spec c q); [contradiction|]. destruct (Ascii.eqb_spec c backslash) as [E|]; [exfalso; apply B; exact E|].
  assert ((code c =? 10) || (code c =? 13) = false)%bool as ->; [|reflexivity].
  destruct c as [[] [] [] [] [] [] [] []]; first [reflexivity|exfalso; apply N; cbn; tauto].
Qed.
Definition after (t : string) (l : literal) : literal := match l with LitStr u => LitStr (t ++ u) | x => x end.
Lemma first_after c t l : first_of c (after t l) = after (String c t) l.
Proof. destruct l; reflexivity. Qed.
Lemma next_no_octal x y s : is_octal x = false -> no_octal_next s -> exists e r, s ++ String x y = String e r /\ is_octal e = false.
Proof.
  intros Q H. destruct s as [|c s]; cbn [append].
  - exists x, y. split; [reflexivity|exact Q].
  - exists c, (s ++ String x y). split; [reflexivity|]. apply octal_no, H.
Qed.
(** what denotes a text is read as that text, whatever follows (an octal digit aside) *)
Lemma read_prefix q x y s t : mark q -> is_octal x = false -> escaped q s t -> read_literal q (s ++ String x y) = after t (read_literal q (String x y)).
Proof.
  intros Q X0 E. induction E as [|c s t A B N E IH|d c s t D E IH|a s t A N E IH|a b s t A B N E IH|a b c s t A B C L E IH|h1 h2 m n s t H1 H2 E IH|h1 h2 m n s t H1 H2 E IH|d s t D E IH];
    try (change ("" ++ String x y) with (String x y)); cbn [append].
  - destruct (read_literal q (String x y)); reflexivity.
  - rewrite (read_plain q c _ Q A B N), IH. apply first_after.
  - apply letter_short in D. rewrite (read_letter q d c _ Q D), IH. apply first_after.
  - destruct (octal_kind a A) as [L K]. rewrite (read_other q a _ Q L), K. destruct (next_no_octal x y s X0 N) as (e & r & X & O). rewrite X, O, <- X, IH.
    destruct (octal_code a A) as [-> _]. rewrite chr_Z, Nat2Z.id by lia. apply first_after.
  - destruct (octal_kind a A) as [L K]. rewrite (read_other q a _ Q L), K, (proj2 (octal_iff b) B). destruct (next_no_octal x y s X0 N) as (e & r & X & O). rewrite X, O, <- X, IH.
    destruct (octal_code a A) as [-> _], (octal_code b B) as [-> _]. rewrite chr_Z, first_after by lia. do 3 f_equal. lia.
  - destruct (octal_kind a A) as [La K]. rewrite (read_other q a _ Q La), K, (proj2 (octal_iff b) B), (proj2 (octal_iff c) C).
    destruct (octal_code a A) as [Ea _], (octal_code b B) as [-> _], (octal_code c C) as [-> _].
    assert (code a <=? 51 = true) as -> by (apply Z.leb_le; lia). rewrite Ea, IH. rewrite chr_Z, first_after by lia. do 3 f_equal. lia.
  - rewrite (read_other q "x" _ Q eq_refl). change (kind "x") with 1%nat. rewrite (hex_val h1 m H1), (hex_val h2 n H2), IH. rewrite chr_Z, first_after by lia. do 3 f_equal. lia.
  - rewrite (read_other q "u" _ Q eq_refl). change (kind "u") with 2%nat. change (digit_in 16 "0") with (Some 0). rewrite (hex_val h1 m H1), (hex_val h2 n H2), IH. cbn [Z.eqb andb]. rewrite chr_Z, first_after by lia. do 3 f_equal. lia.
  - destruct (kept_kind d D) as [L K]. rewrite (read_other q d _ Q L), K, IH. destruct (read_literal q (String x y)); reflexivity.
Qed.
Lemma append_nil s : s ++ "" = s.
Proof. induction s as [|c s IH]; cbn; [|rewrite IH]; reflexivity. Qed.
(** every text that denotes something is read as what it denotes *)
Lemma read_escaped q s t : mark q -> escaped q s t -> read_literal q (s ++ String q "") = LitStr t.
Proof.
  intros Q E. rewrite (read_prefix q q "" s t Q); [|destruct Q as [-> | ->]; reflexivity|exact E]. cbn [read_literal]. rewrite Ascii.eqb_refl. cbn [after]. rewrite append_nil. reflexivity.
Qed.
Lemma contains_in x s : contains x s = true <-> In x (list_ascii_of_string s).
Proof.
  unfold contains. rewrite existsb_exists. split.
  - intros (y & I & E). apply Ascii.eqb_eq in E. subst. exact I.
  - intros I. exists x. split; [exact I|apply Ascii.eqb_refl].
Qed.
Lemma escaped_no_zero q s t : mark q -> escaped q s t -> ~ In Ascii.zero (list_ascii_of_string s).
Proof.
  intros Q E.
  assert (OC : forall c, octal c -> c <> Ascii.zero) by (intros c C ->; unfold octal in C; cbn in C; repeat destruct C as [C|C]; try discriminate C; exact C).
  assert (HX : forall c n, hexadecimal c n -> c <> Ascii.zero) by (intros c n C ->; apply hex_val in C; discriminate C).
  induction E; cbn [list_ascii_of_string In]; intros J; repeat (destruct J as [J|J]; [try discriminate J|]); try contradiction;
    try (match goal with O : octal ?x, X : ?x = Ascii.zero |- _ => exact (OC _ O X) end);
    try (match goal with O : hexadecimal ?x _, X : ?x = Ascii.zero |- _ => exact (HX _ _ O X) end).
  - subst c. match goal with N : ~ In _ [0; 10; 13]%nat |- _ => apply N end. left. reflexivity.
  - subst d. match goal with N : short_escape _ _ |- _ => apply letter_short in N; discriminate N end.
  - subst d. match goal with N : ~ meaningful _ |- _ => apply N end. right. left. reflexivity.
Qed.
Lemma mark_not_slash q : mark q -> Ascii.eqb "\" q = false.
Proof. intros [-> | ->]; reflexivity. Qed.
(** an opening quotation mark is not the first of three *)
Lemma escaped_single q s t x y : mark q -> escaped q s t -> (s = "" -> triple q (String x y) = false) -> triple q (s ++ String x y) = false.
Proof.
  intros Q E H. pose proof (mark_not_slash q Q) as B. destruct E; cbn [append] in *; try (apply H; reflexivity); cbn [triple]; rewrite ?B;
    try (destruct (_ ++ _); reflexivity); try reflexivity.
  destruct (Ascii.eqb_spec c q); [contradiction|]. destruct (_ ++ _); reflexivity.
Qed.
(** no NUL in a literal, whatever follows *)
Lemma escaped_contains q s t r : mark q -> escaped q s t -> contains Ascii.zero (s ++ r) = contains Ascii.zero r.
Proof.
  intros Q E. pose proof (escaped_no_zero q s t Q E) as Z0. clear E. induction s as [|c s IH]; [reflexivity|]. cbn [append]. unfold contains in *. cbn [list_ascii_of_string existsb].
  destruct (Ascii.eqb_spec Ascii.zero c) as [<-|N]; [exfalso; apply Z0; left; reflexivity|]. apply IH. intros I. apply Z0. right. exact I.
Qed.
Lemma mark_no_zero q r : mark q -> contains Ascii.zero (String q r) = contains Ascii.zero r.
Proof. intros [-> | ->]; reflexivity. Qed.
(** the literals of strings that start with a quotation mark *)
Lemma literal_read w t : literal_of w t -> literal_eval w = LitStr t.
Proof.
  intros (q & s & Q & E & ->). unfold literal_eval. rewrite (mark_no_zero q _ Q), (escaped_contains q s t _ Q E), (mark_no_zero q _ Q).
  change (contains Ascii.zero "") with false. cbv iota.
  assert ((Ascii.eqb q squote || Ascii.eqb q dquote)%bool = true) as -> by (destruct Q as [-> | ->]; reflexivity).
  rewrite (escaped_single q s t q "" Q E) by reflexivity. apply read_escaped; assumption.
Qed.

(** after \x or \u come too few hexadecimal digits *)
Lemma read_broken q s t d r n : mark q -> escaped q s t -> (d = "x"%char /\ n = 2%nat \/ d = "u"%char /\ n = 4%nat) -> ~ (exists h r', r = h ++ r' /\ String.length h = n /\ Forall (fun c => exists v, hexadecimal c v) (list_ascii_of_string h)) ->
  read_literal q (s ++ String "\" (String d r)) = LitBad.
Proof.
  intros Q E D H. rewrite (read_prefix q "\" _ s t Q eq_refl E). assert (read_literal q (String "\" (String d r)) = LitBad) as ->; [|reflexivity].
  assert (HV : forall c z, digit_in 16 c = Some z -> exists v, hexadecimal c v) by (intros c z X; destruct (hex_inv c z X) as (v & _ & V); exists v; exact V).
  destruct D as [[-> ->]|[-> ->]].
  - rewrite (read_other q "x" _ Q eq_refl). change (kind "x") with 1%nat. destruct r as [|h1 [|h2 r]]; try reflexivity.
    destruct (digit_in 16 h1) eqn:H1; [|reflexivity]. destruct (digit_in 16 h2) eqn:H2; [|reflexivity]. exfalso. apply H.
    exists (String h1 (String h2 "")), r. split; [reflexivity|]. split; [reflexivity|]. cbn. eauto.
  - rewrite (read_other q "u" _ Q eq_refl). change (kind "u") with 2%nat. destruct r as [|h1 [|h2 [|h3 [|h4 r]]]]; try reflexivity.
    destruct (digit_in 16 h1) eqn:H1; [|reflexivity]. destruct (digit_in 16 h2) eqn:H2; [|reflexivity]. destruct (digit_in 16 h3) eqn:H3; [|reflexivity]. destruct (digit_in 16 h4) eqn:H4; [|reflexivity].
    exfalso. apply H. exists (String h1 (String h2 (String h3 (String h4 "")))), r. split; [reflexivity|]. split; [reflexivity|]. cbn. constructor; [eauto|]. constructor; eauto.
Qed.
