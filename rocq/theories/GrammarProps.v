(** * C163: every property accepts exactly the values of its grammar *)
From Coq Require Import ZArith QArith Qcanon Bool String Ascii List Lia.
From Verif Require Import PyNum NumFacts Units Float64 PyStr StrFacts TextFacts Colors Values Parser ParserFacts Choices Shorthand Decl DeclSpec DeclFacts DeclNorm DeclErrors
  DeclProps DeclProps2 ColorText ColorSpec ColorProps ParseSpec ParserSpec ParserProps UnitsParseProps AcceptSpec AcceptProps ReadSpec ReadProps FuncSpec FuncProps RaiseSpec
  RaiseProps AnyColorSpec AnyColorProps GrammarSpec.
Import ListNotations.
Open Scope string_scope.
Open Scope Z_scope.

(** *** Lengths, whole numbers, colours *)
Lemma len_units s u : units (VStr s) = Ok u <-> len_text s u.
Proof.
  rewrite C87_accepted_texts. unfold len_text. split; intros (d & x & F & H); exists d, x; (split; [apply C147_float, F|exact H]).
Qed.
Lemma length_is v u : units v = Ok u <-> length_of v u.
Proof.
  rewrite length_units. split; intros H.
  - destruct H as [u N|z|x|d x F|d x t k F I]; try (constructor; assumption).
    + constructor. apply len_units. apply C87_accepted_texts. exists d, x. auto.
    + constructor. apply len_units. apply C87_accepted_texts. exists d, x. split; [exact F|]. right. eauto.
  - destruct H as [u N|z|x|s u L]; try (constructor; assumption). apply length_units, len_units, L.
Qed.
Lemma whole_is v z : int_of v = Ok z <-> whole_of v z.
Proof.
  rewrite integer_int_of. split; intros [y|q y A B C|q y A B C|s y E]; [apply whole_int|apply whole_down; assumption|apply whole_up; assumption|apply whole_string, C147_int, E
    |apply integer_int|apply integer_down; assumption|apply integer_up; assumption|apply integer_text, C147_int, E].
Qed.
Lemma hue_is n v w m : color n v = Ok (w, m) <-> hue_of n v w m.
Proof.
  split.
  - intros H. destruct v; try discriminate H; [constructor; apply C162_accepted, H|]. injection H as <- <-. constructor.
  - intros [o c|s v' m' C]; [reflexivity|]. apply C162_accepted, C.
Qed.

(** *** Border spacings *)
Lemma items_of_spacing n v l : spacing_items v l -> border_spacing n v = border_spacing n (VList l).
Proof.
  intros [s ts W S|z|x|w l' M].
  - apply C34_text; assumption.
  - reflexivity.
  - reflexivity.
  - destruct M as [-> | [-> | ->]]; reflexivity.
Qed.
Lemma spacing_is n v w m : border_spacing n v = Ok (w, m) <-> (spacing_of n v w /\ m = S n).
Proof.
  split.
  - intros H. assert (I : exists l, spacing_items v l).
    { destruct v; try discriminate H; try (eexists; constructor; fail).
      - destruct (C34_every_text s) as (ts & W & S). eexists. eapply spacing_words; eassumption.
      - exists l. apply spacing_members. left. reflexivity.
      - exists l. apply spacing_members. right. left. reflexivity.
      - exists l. apply spacing_members. right. right. reflexivity. }
    destruct I as (l & I). rewrite (items_of_spacing n v l I) in H. unfold border_spacing in H. cbn [sequence bindr] in H.
    destruct l as [|h [|k [|? ?]]]; try discriminate.
    + destruct (units h) as [u|] eqn:U; [|discriminate]. cbn [bindr] in H. injection H as <- <-. split; [|reflexivity]. eapply spacing_one; [exact I|apply length_is, U].
    + destruct (units h) as [u|] eqn:U; [|discriminate]. cbn [bindr] in H. destruct (units k) as [u'|] eqn:U'; [|discriminate]. cbn [bindr] in H. injection H as <- <-.
      split; [|reflexivity]. eapply spacing_two; [exact I|apply length_is, U|apply length_is, U'].
  - intros [[v' h u I L|v' h k a b I L K] ->]; rewrite (items_of_spacing n _ _ I); unfold border_spacing; cbn [sequence bindr].
    + rewrite (proj2 (length_is h u) L). reflexivity.
    + rewrite (proj2 (length_is h a) L). cbn [bindr]. rewrite (proj2 (length_is k b) K). reflexivity.
Qed.

(** *** Blanks around a text *)
Lemma around_strip t x : around t x -> strip x = t.
Proof. intros (T & p & q & P & Q & ->). apply (strip_spaces p t q P Q), trim_trimmed, T. Qed.
Lemma lstrip_first f s c : first_char (lstrip_by f s) = Some c -> f c = false.
Proof. induction s as [|d s IH]; [discriminate|]. cbn [lstrip_by]. destruct (f d) eqn:E; [exact IH|]. intros H. injection H as <-. exact E. Qed.
Lemma rstrip_last f s c : ParserSpec.last_char (rstrip_by f s) = Some c -> f c = false.
Proof.
  induction s as [|d s IH]; [discriminate|]. cbn [rstrip_by]. destruct (rstrip_by f s) as [|x r] eqn:E.
  - destruct (f d) eqn:D; [discriminate|]. intros H. injection H as <-. exact D.
  - intros H. apply IH. exact H.
Qed.
Lemma rstrip_first f s c : first_char (rstrip_by f s) = Some c -> first_char s = Some c.
Proof. destruct s as [|d s]; [discriminate|]. cbn [rstrip_by]. destruct (rstrip_by f s); [destruct (f d); [discriminate|]|]; intros H; exact H. Qed.
Lemma strip_ends x : trim_ends (strip x).
Proof.
  unfold strip. split; intros c H; rewrite ws_is.
  - apply rstrip_first in H. exact (lstrip_first _ _ _ H).
  - exact (rstrip_last _ _ _ H).
Qed.
Lemma strip_around x : around (strip x) x.
Proof. split; [apply strip_ends|]. destruct (strip_split x) as (p & q & P & Q & E). exists p, q. auto. Qed.

(** *** The characters of lengths *)
Definition safe (c : ascii) : bool := negb (Ascii.eqb "," c) && negb (Ascii.eqb "(" c) && negb (Ascii.eqb ")" c).
Lemma core_safe s : all_chars core_char s = true -> all_chars safe s = true.
Proof. apply core_impl. by_chars (fun c => implb (core_char c) (safe c)). intros E. rewrite E in X. exact X. Qed.
Lemma blanks_safe s : blanks s -> all_chars safe s = true.
Proof. apply all_chars_impl. by_chars (fun c => implb (blank c) (safe c)). intros E. rewrite E in X. exact X. Qed.
Lemma opt_run_safe w ds : opt_run w ds -> all_chars safe w = true.
Proof. intros [[-> _]|R]; [reflexivity|]. apply core_safe, (run_core _ _ R). Qed.
Lemma letters_safe word s : Forall (fun c => (97 <= N_of_ascii c <= 122)%N) (list_ascii_of_string word) -> ReadSpec.spelled word s -> all_chars safe s = true.
Proof.
  intros L S. unfold ReadSpec.spelled in S. revert L S. generalize (list_ascii_of_string word) as l. clear word. intros l L. revert s. induction L as [|a l A L IH]; intros s S.
  - destruct s; [reflexivity|inversion S].
  - destruct s as [|b s]; [reflexivity|]. inversion S as [|? ? ? ? H T]; subst. cbn [all_chars]. rewrite (IH s T), andb_true_r.
    assert (B : (65 <= N_of_ascii b)%N) by (destruct H as [-> | H]; lia). unfold safe.
    assert (N : forall d : ascii, (N_of_ascii d < 65)%N -> negb (Ascii.eqb d b) = true) by (intros d D; apply negb_true_iff, Ascii.eqb_neq; intros ->; lia).
    rewrite !N by reflexivity. reflexivity.
Qed.
Lemma float_safe d x : float_text d x -> all_chars safe d = true.
Proof.
  intros (p & sg & neg & b & q & P & Q & S & B & ->). rewrite !all_chars_app, (blanks_safe _ P), (blanks_safe _ Q), (core_safe _ (sign_core _ _ S)). cbn [andb]. rewrite andb_true_r.
  destruct B as [w ip fp e x' neg v M E R|s neg [H|H]|s neg H].
  - rewrite all_chars_app. assert (all_chars safe w = true) as ->.
    { destruct M as [[M _]|(a & c & -> & A & C & _)]; [apply core_safe, (run_core _ _ M)|]. rewrite !all_chars_app, (opt_run_safe _ _ A), (opt_run_safe _ _ C). reflexivity. }
    destruct E as [[-> _]|(m & s & ng & dd & ds & M' & S' & R' & -> & _)]; [reflexivity|]. rewrite !all_chars_app, (core_safe _ (sign_core _ _ S')), (core_safe _ (proj1 (run_core _ _ R'))).
    destruct M' as [-> | ->]; reflexivity.
  - eapply letters_safe; [|exact H]. repeat constructor; vm_compute; discriminate.
  - eapply letters_safe; [|exact H]. repeat constructor; vm_compute; discriminate.
  - eapply letters_safe; [|exact H]. repeat constructor; vm_compute; discriminate.
Qed.
Lemma len_safe s u : len_text s u -> all_chars safe s = true /\ s <> "".
Proof.
  intros (d & x & F & H). split.
  - apply float_safe in F. destruct H as [[-> _]|(t & k & I & -> & _)]; [exact F|]. rewrite all_chars_app, F.
    revert I. generalize u. clear. assert (X : forallb (fun p => all_chars safe (fst p)) css_units = true) by (vm_compute; reflexivity).
    rewrite forallb_forall in X. intros _ I. exact (X _ I).
  - intros E. assert (U : units (VStr s) = Ok u) by (apply len_units; exists d, x; auto). rewrite E in U. vm_compute in U. discriminate.
Qed.
Lemma safe_not c s : In c [","%char; "("%char; ")"%char] -> all_chars safe s = true -> all_chars (fun d => negb (Ascii.eqb c d)) s = true.
Proof.
  intros I. apply all_chars_impl. intros d D. unfold safe in D. apply andb_prop in D. destruct D as [D D3]. apply andb_prop in D. destruct D as [D1 D2].
  destruct I as [<- |[<- |[<- |[]]]]; assumption.
Qed.
Lemma spaces_safe s : spaces s -> all_chars safe s = true.
Proof. apply all_chars_impl. by_chars (fun c => implb (ws c) (safe c)). intros E. rewrite E in X. exact X. Qed.
Lemma piece_safe x u : piece x u -> all_chars safe x = true.
Proof. intros (t & (_ & p & q & P & Q & ->) & L). rewrite !all_chars_app, (spaces_safe _ P), (spaces_safe _ Q), (proj1 (len_safe _ _ L)). reflexivity. Qed.

(** *** Clip rectangles *)
Definition lengths4 (l : list string) : res pyval :=
  match l with
  | [a; b; c; d] => a <-r units (VStr (strip a)) ;; b <-r units (VStr (strip b)) ;; c <-r units (VStr (strip c)) ;; d <-r units (VStr (strip d)) ;; Ok (VRect a b c d)
  | _ => Err ValueError
  end.
Lemma rect_values_eq v : rect_values v =
  if Nat.eqb (count "," v) 3 then lengths4 (split_on "," v)
  else if Nat.eqb (count "," v) 0 && Nat.eqb (count " " v) 3 then lengths4 (split_on " " v) else Err ValueError.
Proof. unfold rect_values, lengths4. destruct (Nat.eqb (count "," v) 3); [reflexivity|]. destruct (_ && _)%bool; reflexivity. Qed.
Lemma lengths4_ok l v : lengths4 l = Ok v -> exists ta tb tc td a b c d, l = [ta; tb; tc; td] /\ v = VRect a b c d
  /\ len_text (strip ta) a /\ len_text (strip tb) b /\ len_text (strip tc) c /\ len_text (strip td) d.
Proof.
  unfold lengths4. destruct l as [|ta [|tb [|tc [|td [|? ?]]]]]; try discriminate.
  destruct (units (VStr (strip ta))) as [a|] eqn:U1; [|discriminate]. destruct (units (VStr (strip tb))) as [b|] eqn:U2; [|discriminate].
  destruct (units (VStr (strip tc))) as [c|] eqn:U3; [|discriminate]. destruct (units (VStr (strip td))) as [d|] eqn:U4; [|discriminate].
  cbn [bindr]. intros H. injection H as <-. exists ta, tb, tc, td, a, b, c, d. split; [reflexivity|]. split; [reflexivity|]. repeat split; apply len_units; assumption.
Qed.
Lemma lengths4_of ta tb tc td a b c d : len_text (strip ta) a -> len_text (strip tb) b -> len_text (strip tc) c -> len_text (strip td) d ->
  lengths4 [ta; tb; tc; td] = Ok (VRect a b c d).
Proof.
  intros A B C D. unfold lengths4. rewrite (proj2 (len_units _ _) A). cbn [bindr]. rewrite (proj2 (len_units _ _) B). cbn [bindr]. rewrite (proj2 (len_units _ _) C). cbn [bindr].
  rewrite (proj2 (len_units _ _) D). reflexivity.
Qed.
Lemma first_app a b : a <> "" -> first_char (a ++ b) = first_char a.
Proof. destruct a; [contradiction|reflexivity]. Qed.
Lemma last_app_ne a b : b <> "" -> ParserSpec.last_char (a ++ b) = ParserSpec.last_char b.
Proof.
  intros N. induction a as [|c a IH]; [reflexivity|]. cbn [append ParserSpec.last_char]. rewrite IH. destruct (a ++ b) as [|d r] eqn:E; [|reflexivity].
  destruct a; [contradiction|discriminate].
Qed.
Lemma trim_join a m b : trim_ends a -> trim_ends b -> a <> "" -> b <> "" -> trim_ends (a ++ m ++ b).
Proof.
  intros [A _] [_ B] NA NB. split; intros c H.
  - rewrite (first_app a _ NA) in H. apply A, H.
  - rewrite <- app_assoc_s, (last_app_ne _ b NB) in H. apply B, H.
Qed.
Lemma no_comma_safe s : all_chars safe s = true -> no_comma s = true.
Proof. intros H. apply (safe_not ","%char) in H; [|cbn; auto]. revert H. unfold no_comma. apply all_chars_impl. intros c X. rewrite Ascii.eqb_sym. exact X. Qed.
Lemma comma_free s : all_chars safe s = true -> occurrences "," s = 0%nat.
Proof. intros H. apply occurrences_none. apply (safe_not ","%char); [cbn; auto|exact H]. Qed.
(** The pieces of a split do not contain the separator. *)
Lemma split_free sep s : Forall (fun t => all_chars (fun d => negb (Ascii.eqb sep d)) t = true) (split_on sep s) /\ split_on sep s <> [].
Proof.
  induction s as [|c s [IH N]]; [split; [repeat constructor|discriminate]|]. cbn [split_on]. destruct (Ascii.eqb_spec c sep) as [->|X].
  - split; [constructor; [reflexivity|exact IH]|discriminate].
  - destruct (split_on sep s) as [|w l]; [contradiction|]. split; [|discriminate]. inversion IH; subst. constructor; [|assumption].
    cbn [all_chars]. match goal with H : all_chars _ w = true |- _ => rewrite H end. rewrite andb_true_r. apply negb_true_iff, Ascii.eqb_neq. congruence.
Qed.
(** The only blanks of words joined by spaces are the spaces. *)
Definition flat (c : ascii) : bool := negb (is_space c) || Ascii.eqb " " c.
Lemma words_flat ts : Forall word ts -> all_chars flat (join " " ts) = true.
Proof.
  assert (W : forall t, word t -> all_chars flat t = true) by (intros t [_ H]; revert H; apply all_chars_impl; intros c C; unfold flat; rewrite C; reflexivity).
  induction 1 as [|t ts T F IH]; [reflexivity|]. destruct ts as [|u ts]; [apply W, T|].
  change (join " " (t :: u :: ts)) with (t ++ String " " (join " " (u :: ts))). rewrite all_chars_app, (W t T). cbn [all_chars]. rewrite IH. reflexivity.
Qed.
Lemma flat_word t : all_chars flat t = true -> all_chars (fun d => negb (Ascii.eqb " " d)) t = true -> no_space t = true.
Proof.
  induction t as [|c t IH]; [reflexivity|]. unfold no_space. cbn [all_chars]. intros A B. apply andb_prop in A, B. destruct A as [A1 A2], B as [B1 B2].
  fold (no_space t). rewrite (IH A2 B2), andb_true_r. unfold flat in A1. apply negb_true_iff in B1. rewrite B1, orb_false_r in A1. exact A1.
Qed.
Lemma inside_ok B a b c d : rect_inside B a b c d ->
  (forall x, In x ["("%char; ")"%char] -> all_chars (fun d => negb (Ascii.eqb x d)) B = true) /\ rect_values (strip B) = Ok (VRect a b c d).
Proof.
  intros [ta tb tc td a' b' c' d' PA PB PC PD|p ta tb tc td q a' b' c' d' P Q WA WB WC WD LA LB LC LD].
  - pose proof (piece_safe _ _ PA) as SA. pose proof (piece_safe _ _ PB) as SB. pose proof (piece_safe _ _ PC) as SC. pose proof (piece_safe _ _ PD) as SD.
    destruct PA as (xa & AA & LA). destruct PB as (xb & AB & LB). destruct PC as (xc & AC & LC). destruct PD as (xd & AD & LD).
    split.
    + intros x I. assert (I' : In x [","%char; "("%char; ")"%char]) by (right; exact I).
      cbn [String.concat]. rewrite !all_chars_app, (safe_not x ta I' SA), (safe_not x tb I' SB), (safe_not x tc I' SC), (safe_not x td I' SD).
      destruct I as [<- |[<- |[]]]; reflexivity.
    + apply around_strip in AB as EB. apply around_strip in AC as EC. destruct AA as (TA & p & q & P & Q & ->). destruct AD as (TD & p' & q' & P' & Q' & ->).
      pose (ya := xa ++ q). pose (yd := p' ++ xd).
      assert (E : strip (String.concat "," [p ++ xa ++ q; tb; tc; p' ++ xd ++ q']) = join "," [ya; tb; tc; yd]).
      { replace (String.concat "," [p ++ xa ++ q; tb; tc; p' ++ xd ++ q']) with (p ++ (xa ++ (q ++ "," ++ tb ++ "," ++ tc ++ "," ++ p') ++ xd) ++ q')
          by (cbn [String.concat]; rewrite !app_assoc_s; reflexivity).
        rewrite (strip_spaces p _ q' P Q').
        - cbn [join]. unfold ya, yd. rewrite !app_assoc_s. reflexivity.
        - apply trim_trimmed, trim_join; [exact TA|exact TD|exact (proj2 (len_safe _ _ LA))|exact (proj2 (len_safe _ _ LD))]. }
      rewrite E. assert (SYA : all_chars safe ya = true) by (unfold ya; rewrite all_chars_app, (proj1 (len_safe _ _ LA)), (spaces_safe _ Q); reflexivity).
      assert (SYD : all_chars safe yd = true) by (unfold yd; rewrite all_chars_app, (proj1 (len_safe _ _ LD)), (spaces_safe _ P'); reflexivity).
      rewrite rect_values_eq, (count_char ","), split_on_join; [|discriminate|repeat constructor; apply no_comma_safe; assumption].
      assert (occurrences "," (join "," [ya; tb; tc; yd]) = 3%nat) as ->.
      { cbn [join]. rewrite !occurrences_app, (comma_free _ SYA), (comma_free _ SB), (comma_free _ SC), (comma_free _ SYD). reflexivity. }
      cbn [Nat.eqb]. apply lengths4_of.
      * assert (strip ya = xa) as ->; [|exact LA]. exact (strip_spaces "" xa q eq_refl Q (trim_trimmed _ TA)).
      * rewrite EB. exact LB.
      * rewrite EC. exact LC.
      * assert (strip yd = xd) as ->; [|exact LD]. pose proof (strip_spaces p' xd "" P' eq_refl (trim_trimmed _ TD)) as X. rewrite app_nil_r_s in X. exact X.
  - pose proof (proj1 (len_safe _ _ LA)) as SA. pose proof (proj1 (len_safe _ _ LB)) as SB. pose proof (proj1 (len_safe _ _ LC)) as SC. pose proof (proj1 (len_safe _ _ LD)) as SD.
    split.
    + intros x I. assert (I' : In x [","%char; "("%char; ")"%char]) by (right; exact I).
      cbn [String.concat]. rewrite !all_chars_app, (safe_not x p I' (spaces_safe _ P)), (safe_not x q I' (spaces_safe _ Q)), (safe_not x ta I' SA), (safe_not x tb I' SB), (safe_not x tc I' SC), (safe_not x td I' SD).
      destruct I as [<- |[<- |[]]]; reflexivity.
    + rewrite (strip_spaces p _ q P Q) by (apply (trimmed_words _ ta (" " ++ tb ++ " " ++ tc ++ " ") td WA WD); cbn [String.concat]; rewrite !app_assoc_s; reflexivity).
      change (String.concat " " [ta; tb; tc; td]) with (join " " [ta; tb; tc; td]).
      rewrite rect_values_eq, (count_char ","), (count_char " ").
      assert (occurrences "," (join " " [ta; tb; tc; td]) = 0%nat) as ->.
      { cbn [join]. rewrite !occurrences_app, (comma_free _ SA), (comma_free _ SB), (comma_free _ SC), (comma_free _ SD). reflexivity. }
      assert (occurrences " " (join " " [ta; tb; tc; td]) = 3%nat) as ->.
      { cbn [join]. rewrite !occurrences_app, (occurrences_none " " ta), (occurrences_none " " tb), (occurrences_none " " tc), (occurrences_none " " td) by (apply word_no_sp; assumption). reflexivity. }
      cbn [Nat.eqb andb]. cbn [join append].
      rewrite (split_on_first " " ta) by (apply word_no_sp, WA). rewrite (split_on_first " " tb) by (apply word_no_sp, WB). rewrite (split_on_first " " tc) by (apply word_no_sp, WC).
      rewrite (split_on_absent " " td) by (apply word_no_sp, WD).
      apply lengths4_of; rewrite strip_word by (first [apply WA|apply WB|apply WC|apply WD]); assumption.
Qed.
Lemma rect_is v w : rect v = Ok w <-> rect_of v w.
Proof.
  split.
  - intros H. destruct v; try discriminate H. destruct (C34_every_text s) as (ts & W & S). pose proof (spaced_split ts s W S) as E.
    unfold rect in H. rewrite (map_strip_words _ (split_ws_words s)), E in H. pose proof (words_flat ts W) as FL.
    destruct (startswith "rect(" (join " " ts)) eqn:SW; [|discriminate]. destruct (endswith ")" (join " " ts)) eqn:EW; [|discriminate].
    destruct (Nat.eqb (count "rect(" (join " " ts)) 1) eqn:C1; [|discriminate]. destruct (Nat.eqb (count ")" (join " " ts)) 1) eqn:C2; [|discriminate]. cbn [andb] in H.
    apply Nat.eqb_eq in C1, C2. apply startswith_spec in SW. destruct SW as (r & RE). apply endswith_spec in EW. destruct EW as (b0 & BE).
    assert (exists B, r = B ++ ")") as (B & ->).
    { rewrite RE in BE. destruct (app_split _ _ _ _ BE) as [(z & Z & _)|(z & NZ & Z & WZ)]; [exists z; exact Z|].
      exfalso. destruct z as [|c z]; [congruence|]. injection Z as <- Z. destruct z; [|discriminate]. apply (f_equal ParserSpec.last_char) in WZ. rewrite last_app in WZ. discriminate. }
    rewrite RE in H, C1, C2. rewrite (remove_head_tail _ C1) in H. rewrite (count_char ")"), !occurrences_app in C2. cbn [occurrences Ascii.eqb Bool.eqb] in C2.
    rewrite (remove_last ")" B) in H by (apply none_occurrences; lia). cbv zeta in H. change (rect_values (strip B) = Ok w) in H.
    assert (FB : all_chars flat B = true). { rewrite RE, !all_chars_app in FL. apply andb_prop in FL. destruct FL as [_ FL]. apply andb_prop in FL. exact (proj1 FL). }
    rewrite rect_values_eq in H. destruct (strip_split B) as (p & q & P & Q & EB). set (m := strip B) in *. clearbody m.
    assert (FM : all_chars flat m = true). { rewrite EB, !all_chars_app in FB. apply andb_prop in FB. destruct FB as [_ FB]. apply andb_prop in FB. exact (proj1 FB). }
    assert (IN : exists a b c d, w = VRect a b c d /\ rect_inside B a b c d).
    { destruct (Nat.eqb (count "," m) 3).
      - apply lengths4_ok in H. destruct H as (ta & tb & tc & td & a & b & c & d & L & -> & LA & LB & LC & LD). exists a, b, c, d. split; [reflexivity|].
        apply split_on_id in L. cbn [join] in L. 
        replace B with (String.concat "," [p ++ ta; tb; tc; td ++ q]) by (rewrite EB, <- L; cbn [String.concat]; rewrite !app_assoc_s; reflexivity).
        destruct (strip_around ta) as (TA & p1 & q1 & P1 & Q1 & EA). destruct (strip_around td) as (TD & p2 & q2 & P2 & Q2 & ED).
        constructor; [|exists (strip tb); split; [apply strip_around|exact LB]|exists (strip tc); split; [apply strip_around|exact LC]|].
        + exists (strip ta). split; [|exact LA]. split; [exact TA|]. exists (p ++ p1), q1. split; [unfold spaces; rewrite all_chars_app, P, P1; reflexivity|]. split; [exact Q1|].
          rewrite app_assoc_s, <- EA. reflexivity.
        + exists (strip td). split; [|exact LD]. split; [exact TD|]. exists p2, (q2 ++ q). split; [exact P2|]. split; [unfold spaces; rewrite all_chars_app, Q2, Q; reflexivity|].
          rewrite <- !app_assoc_s, (app_assoc_s p2), <- ED. reflexivity.
      - destruct (_ && _)%bool; [|discriminate].
        pose proof (proj1 (split_free " " m)) as SF. apply lengths4_ok in H. destruct H as (ta & tb & tc & td & a & b & c & d & L & -> & LA & LB & LC & LD). exists a, b, c, d. split; [reflexivity|].
        rewrite L in SF. apply split_on_id in L. cbn [join] in L. rewrite <- L, !all_chars_app in FM.
        repeat match goal with X : (_ && _)%bool = true |- _ => apply andb_prop in X; destruct X end.
        pose proof (Forall_inv SF) as F1. pose proof (Forall_inv (Forall_inv_tail SF)) as F2. pose proof (Forall_inv (Forall_inv_tail (Forall_inv_tail SF))) as F3. pose proof (Forall_inv (Forall_inv_tail (Forall_inv_tail (Forall_inv_tail SF)))) as F4.
        assert (G : forall t u, all_chars flat t = true -> all_chars (fun d => negb (Ascii.eqb " " d)) t = true -> len_text (strip t) u -> word t /\ len_text t u).
        { intros t u A A' LT. pose proof (flat_word t A A') as NS. rewrite (strip_word t NS) in LT. split; [split; [exact (proj2 (len_safe _ _ LT))|exact NS]|exact LT]. }
        destruct (G ta a) as [W1 L1]; [assumption..|]. destruct (G tb b) as [W2 L2]; [assumption..|]. destruct (G tc c) as [W3 L3]; [assumption..|]. destruct (G td d) as [W4 L4]; [assumption..|].
        rewrite EB, <- L. exact (inside_spaces p ta tb tc td q a b c d P Q W1 W2 W3 W4 L1 L2 L3 L4). }
    destruct IN as (a & b & c & d & -> & IN). econstructor; [exact W|exact S|exact RE|exact IN].
  - intros [s ts B a b c d W S E I]. destruct (inside_ok _ _ _ _ _ I) as [N R]. rewrite (rect_body s B); [exact R| |apply N; cbn; auto|apply N; cbn; auto].
    rewrite (spaced_split ts s W S). exact E.
Qed.

(** *** URLs and cursors *)
Lemma both_ends a v : startswith (String a "") v = true -> endswith (String a "") v = true -> v = String a "" \/ exists x, v = String a "" ++ x ++ String a "".
Proof.
  intros S E. apply startswith_spec in S. destruct S as (r & ->). destruct r as [|c r]; [left; reflexivity|]. right.
  apply endswith_spec in E. destruct E as (b & E). destruct (last_char (String c r)) as (u & y & R); [discriminate|]. rewrite R in *. exists u.
  assert (y = a) as ->; [|reflexivity]. apply (f_equal ParserSpec.last_char) in E. change (String a "" ++ u ++ String y "") with (String a u ++ String y "") in E. rewrite !last_app in E. congruence.
Qed.
Lemma url_is s x : uri_text s = Ok x <-> url_text s x.
Proof.
  split.
  - intros H. assert (SH : url_shaped s) by (apply shaped_accepts; eauto). destruct SH as (body & AR). exists body. split; [exact AR|].
    destruct AR as (p & q & P & Q & ->). rewrite (url_text_body p body q P Q) in H. cbv zeta in H. exists (strip body). split; [apply strip_around|].
    pose proof (strip_ends body) as T. set (v := strip body) in *. clearbody v.
    destruct (startswith "'" v && endswith "'" v)%bool eqn:E1.
    + apply andb_prop in E1. destruct E1 as [A B]. destruct (both_ends "'" v A B) as [-> | (y & ->)].
      * injection H as <-. right. right. left. split; [left; reflexivity|reflexivity].
      * injection H as <-. left. unfold q1. cbn [append]. rewrite (inner_wrapped "'" y "'"). reflexivity.
    + destruct (startswith """" v && endswith """" v)%bool eqn:E2.
      * apply andb_prop in E2. destruct E2 as [A B]. destruct (both_ends """" v A B) as [-> | (y & ->)].
        -- injection H as <-. right. right. left. split; [right; reflexivity|reflexivity].
        -- injection H as <-. right. left. unfold q2. cbn [append]. rewrite (inner_wrapped """" y """"). reflexivity.
      * injection H as <-. right. right. right. split; [reflexivity|]. split; [exact T|].
        split; intros X; apply quoted_true in X; destruct X as [A B]; [change q1 with "'" in A, B; rewrite A, B in E1|change q2 with """" in A, B; rewrite A, B in E2]; discriminate.
  - intros (body & (p & q & P & Q & ->) & m & AR & H). rewrite (url_text_body p body q P Q). pose proof (around_strip _ _ AR) as E. destruct AR as (T & p' & q' & P' & Q' & EB).
    destruct H as [H|[H|[[H ->]|[H B]]]].
    + apply body_value. exists p', q'. split; [exact P'|]. split; [exact Q'|]. left. rewrite EB, H. reflexivity.
    + apply body_value. exists p', q'. split; [exact P'|]. split; [exact Q'|]. right. left. rewrite EB, H. reflexivity.
    + cbv zeta. rewrite E. destruct H as [-> | ->]; reflexivity.
    + apply body_value. exists p', q'. split; [exact P'|]. split; [exact Q'|]. right. right. subst m. split; [exact EB|exact B].
Qed.
Lemma items_is l : forall n r m, cursor_items n false l = Ok (r, m) <-> cursor_items_of n l r m.
Proof.
  induction l as [|v l IH]; intros n r m.
  - split; [intros H; injection H as <- <-; constructor|]. intros H. inversion H; subst. reflexivity.
  - cbn [cursor_items]. destruct (is_cursor_option v) eqn:O.
    + apply option_is in O. pose proof (option_not_url v O) as NU. destruct O as (k & -> & I). split.
      * destruct (cursor_items n true l) as [[r' m']|] eqn:C; [|discriminate]. pose proof (items_seen _ _ _ C) as ->. injection C as <- <-. intros H. injection H as <- <-. constructor. exact I.
      * intros H. inversion H as [|k' I' E1 E2 E3|s x l' r' m' U T E1 E2 E3]; subst; [reflexivity|]. exfalso. apply NU. exists k. split; [reflexivity|]. destruct U as (body & A & _). exists body. exact A.
    + split.
      * unfold try_value. destruct (uri n v) as [[u k]|e] eqn:U; [|destruct (is_value_error e); discriminate].
        cbn [bindr fst snd]. destruct (cursor_items k false l) as [[r' m']|] eqn:C; [|discriminate]. cbn [bindr fst snd]. intros H. injection H as <- <-.
        destruct v; try discriminate U. cbn in U. destruct (uri_text s) as [x|] eqn:X; [|discriminate]. cbn in U. injection U as <- <-. constructor; [apply url_is, X|apply IH, C].
      * intros H. inversion H as [|k I E1 E2 E3|s x l' r' m' U T E1 E2 E3]; subst.
        -- assert (is_cursor_option (VStr k) = true) by (apply option_is; exists k; auto). congruence.
        -- apply url_is in U. unfold uri. rewrite U. cbn [bindr try_value fst snd]. apply IH in T. rewrite T. reflexivity.
Qed.
Lemma parts_is n v l : cursor_parts v l -> cursor n v = cursor n (VList l).
Proof.
  intros [ts ps N F|w l' M].
  - apply (C31_text n ts ps N). revert F. clear. induction 1 as [|t p ts ps (A & T & X) F IH]; constructor; auto.
  - destruct M as [-> | [-> | ->]]; reflexivity.
Qed.
Lemma cursor_is_of n v w m : cursor n v = Ok (w, m) <-> cursor_of n v w m.
Proof.
  split.
  - intros H. assert (P : exists l, cursor_parts v l).
    { destruct v; try discriminate H; try (eexists; apply parts_members; unfold members; auto; fail).
      exists (map VStr (map strip (split_on "," s))). replace s with (String.concat "," (split_on "," s)) at 1 by (exact (split_on_id "," s _ eq_refl)).
      constructor.
      - destruct (split_commas s) as [_ N]. destruct (split_on "," s); [contradiction|discriminate].
      - destruct (split_commas s) as [C _]. revert C. generalize (split_on "," s) as ps. induction ps as [|p ps IH]; intros C; cbn [map]; constructor.
        + split; [exact (Forall_inv C)|apply strip_around].
        + apply IH, (Forall_inv_tail C). }
    destruct P as (l & P). rewrite (parts_is n v l P) in H. cbn [cursor iterate bindr] in H. unfold cursor in H. cbn [iterate bindr] in H.
    destruct (cursor_items n false l) as [[r k]|] eqn:C; [|discriminate]. cbn [bindr fst snd] in H. injection H as <- <-. econstructor; [exact P|apply items_is, C].
  - intros [v' l r m' P I]. rewrite (parts_is n v' l P). unfold cursor. cbn [iterate bindr]. apply items_is in I. rewrite I. reflexivity.
Qed.

(** *** Every property *)
Lemma accepts_written p n v w m : p <> L_quotes -> (accepts p n v w m <-> written p n v w m).
Proof.
  intros NQ. assert (NK : kind_of p <> Some QuotesK) by (destruct p; try discriminate; contradiction). split.
  - intros [k v' w' m' K T|s I N|I|I|I]; [|constructor; assumption..]. destruct k; cbn [takes] in T.
    + destruct T as (u & L & -> & ->). apply w_length; [exact K|apply length_is, length_units, L].
    + destruct T as (z & L & -> & ->). apply w_whole; [exact K|apply whole_is, integer_int_of, L].
    + apply w_color; [exact K|apply hue_is, T].
    + apply spacing_is in T. destruct T as [T ->]. apply w_spacing; assumption.
    + destruct T as [T ->]. apply w_rect; [exact K|apply rect_is, T].
    + contradiction.
    + apply w_cursor; [exact K|apply cursor_is_of, T].
  - intros [v' u K L|v' z K L|v' w' m' K L|v' w' K L|v' w' K L|v' w' m' K L|s I N|I|I|I]; [..|constructor; assumption|constructor; assumption|constructor; assumption|constructor; assumption].
    + apply (accepts_kind _ _ LengthK); [exact K|]. exists u. split; [apply length_units, length_is, L|auto].
    + apply (accepts_kind _ _ IntegerK); [exact K|]. exists z. split; [apply integer_int_of, whole_is, L|auto].
    + apply (accepts_kind _ _ ColorK); [exact K|]. apply hue_is, L.
    + apply (accepts_kind _ _ SpacingK); [exact K|]. apply spacing_is. auto.
    + apply (accepts_kind _ _ RectK); [exact K|]. split; [apply rect_is, L|reflexivity].
    + apply (accepts_kind _ _ CursorK); [exact K|]. apply cursor_is_of, L.
Qed.
(** C163. *)
Theorem C163_written : forall ho p v c n, valid_order ho -> reachable ho c n -> has_layout c -> p <> L_quotes ->
  (forall w m, written p n v w m -> exists c', set_prop ho (Long p) v c n = (c', m, Ok tt)
     /\ exists r, get_prop ho c' (Long p) = Ok (RValue r) /\ (r = w \/ equals w r))
  /\ ((forall w m, ~ written p n v w m) -> exists e, set_prop ho (Long p) v c n = (c, n, Err e) /\ (e = ValueError \/ raises p v e)).
Proof.
  intros ho p v c n V R L NQ. destruct (C103_accepted ho p v c n V R L) as [A B]. split.
  - intros w m W. apply A, accepts_written; assumption.
  - intros N. destruct B as (e & E); [intros w m X; apply accepts_written in X; [exact (N w m X)|exact NQ]|]. exists e. split; [exact E|].
    assert (D : e = ValueError \/ e <> ValueError) by (destruct e; auto; right; discriminate). destruct D as [D|D]; [left; exact D|right].
    apply (proj1 (C161_which_exception ho c n p v e L NQ D)), E.
Qed.
Print Assumptions C163_written.
Lemma computed_written p n v w m : p <> L_quotes -> validate (ho_set plain_order) (choices_of p) n v = Ok (w, m) -> written p n v w m.
Proof. intros NQ H. apply accepts_written; [exact NQ|]. apply (validate_accepts plain_order); [apply plain_valid|exact H]. Qed.
Lemma not_written p n v e : p <> L_quotes -> validate (ho_set plain_order) (choices_of p) n v = Err e -> forall w m, ~ written p n v w m.
Proof. intros NQ H w m W. apply accepts_written in W; [|exact NQ]. apply (validate_accepts plain_order) in W; [congruence|apply plain_valid]. Qed.
Example C163_example : written L_width 0 (VStr "12.5mm") (VUnit (unit_of "12.5mm")) 0
  /\ written L_clip 0 (VStr "rect(  1px,  2em ,3%, 4)") (VRect (unit_of "1px") (unit_of "2em") (unit_of "3%") (unit_of "4")) 0
  /\ written L_border_spacing 3 (VStr " 1px   2em ") (VSpacing (OId 3) (unit_of "1px") (Some (unit_of "2em"))) 4
  /\ written L_cursor 3 (VStr "url( 'a.png' ), pointer") (VCursor [VUri (OId 3) "a.png"; VStr "pointer"]) 4
  /\ (forall w m, ~ written L_cursor 3 (VStr "pointer, url(a.png)") w m)
  /\ (forall w m, ~ written L_clip 3 (VStr "rect(1px, 2em, 3%)") w m)
  /\ (forall w m, ~ written L_border_spacing 3 (VStr "1px 2px 3px") w m)
  /\ reachable plain_order sample sample_n /\ has_layout sample.
Proof.
  do 4 (split; [apply computed_written; [discriminate|vm_compute; reflexivity]|]).
  do 3 (split; [eapply not_written; [discriminate|vm_compute; reflexivity]|]).
  split; [apply sample_reachable|]. vm_compute. discriminate.
Qed.
