(** * C164, C165: the shorthands *)
From Coq Require Import ZArith QArith Qcanon Bool String Ascii List Lia.
From Verif Require Import PyNum NumFacts Units Float64 PyStr StrFacts TextFacts Colors Values Parser ParserFacts Choices Shorthand Decl DeclSpec DeclFacts DeclNorm DeclErrors
  DeclProps DeclProps2 ColorText ColorSpec ColorProps ParseSpec ParserSpec ParserProps UnitsParseProps AcceptSpec AcceptProps ReadSpec ReadProps FuncSpec FuncProps RaiseSpec
  RaiseProps AnyColorSpec AnyColorProps GrammarSpec GrammarProps ShortSpec.
Import ListNotations.
Open Scope string_scope.
Open Scope Z_scope.

(** *** No text is both a length and a colour *)
Definition number_head (c : ascii) : bool := blank c || dec_digit c || Ascii.eqb c "+" || Ascii.eqb c "-" || Ascii.eqb c ".".
Definition number_words := ["inf"; "infinity"; "nan"].
Lemma run_head w ds : run w ds -> exists c r, w = String c r /\ dec_digit c = true.
Proof. intros []; eauto. Qed.
Lemma body_head b neg x : float_body b neg x -> In (lower b) number_words \/ exists c r, b = String c r /\ number_head c = true.
Proof.
  unfold number_head. intros [w ip fp e y ng v M _ _|s ng [S|S]|s ng S].
  - right. destruct M as [[R _]|(a & b' & -> & A & _)].
    + destruct (run_head _ _ R) as (c & r & -> & D). cbn [append]. exists c, (r ++ e). rewrite D, orb_true_r. auto.
    + destruct A as [[-> _]|R].
      * cbn [append]. eexists. eexists. split; [reflexivity|]. rewrite !orb_true_r. reflexivity.
      * destruct (run_head _ _ R) as (c & r & -> & D). cbn [append]. eexists. eexists. split; [reflexivity|]. rewrite D, orb_true_r. reflexivity.
  - apply (spelled_lower "inf") in S; [|intros z; cbn; tauto]. left. rewrite S. cbn. auto.
  - apply (spelled_lower "infinity") in S; [|intros z; cbn; tauto]. left. rewrite S. cbn. auto.
  - apply (spelled_lower "nan") in S; [|intros z; cbn; tauto]. left. rewrite S. cbn. auto.
Qed.
Lemma float_head d x : float_text d x -> (exists b r, In (lower b) number_words /\ d = b ++ r) \/ exists c r, d = String c r /\ number_head c = true.
Proof.
  intros (p & sg & neg & b & q & P & Q & S & B & ->). destruct p as [|c p].
  - destruct S as [[[-> | ->] _]|[-> _]]; [|right; eexists; eexists; split; [reflexivity|]; reflexivity..].
    cbn [append]. destruct (body_head _ _ _ B) as [W|(c & r & -> & N)]; [left; eauto|right; cbn [append]; eauto].
  - right. cbn [append]. eexists. eexists. split; [reflexivity|]. unfold number_head. unfold blanks in P. cbn [all_chars] in P. apply andb_prop in P. destruct P as [-> _]. reflexivity.
Qed.
Lemma len_head s u : len_text s u -> (exists b r, In (lower b) number_words /\ s = b ++ r) \/ exists c r, s = String c r /\ number_head c = true.
Proof.
  intros (d & x & F & [[-> _]|(t & k & _ & -> & _)]); [exact (float_head _ _ F)|]. destruct (float_head _ _ F) as [(b & r & W & ->)|(c & r & -> & N)].
  - left. exists b, (r ++ t). split; [exact W|]. rewrite app_assoc_s. reflexivity.
  - right. cbn [append]. eauto.
Qed.
Lemma lower_app a b : lower (a ++ b) = lower a ++ lower b.
Proof. induction a as [|c a IH]; cbn; [reflexivity|]. rewrite IH. reflexivity. Qed.
(** every length begins like a number, every colour like a word *)
Lemma len_start s u c r : len_text s u -> lower s = String c r ->
  number_head c = true \/ exists w r', In w number_words /\ lower s = w ++ r'.
Proof.
  intros L E. destruct (len_head _ _ L) as [(b & r' & W & ->)|(a & r' & -> & N)].
  - right. rewrite lower_app. eauto.
  - left. cbn in E. injection E as <- _. revert N. clear. intros N. destruct a as [[] [] [] [] [] [] [] []]; vm_compute in N |- *; congruence.
Qed.
Lemma not_numeric s u k : len_text s u -> startswith k (lower s) = true -> In k ["#"; "rgb"; "hsl"] -> False.
Proof.
  intros L S I. apply startswith_spec in S. destruct S as (r & E). assert (X : exists c r', lower s = String c r' /\ In c ["#"%char; "r"%char; "h"%char]).
  { rewrite E. cbn in I. destruct I as [<- | [<- | [<- | []]]]; cbn [append]; eexists; eexists; (split; [reflexivity|cbn; auto]). }
  destruct X as (c & r' & E' & C). destruct (len_start _ _ _ _ L E') as [N|(w & r2 & W & E2)].
  - cbn in C. destruct C as [<- | [<- | [<- | []]]]; vm_compute in N; discriminate.
  - rewrite E' in E2. cbn in C, W. destruct W as [<- | [<- | [<- | []]]], C as [<- | [<- | [<- | []]]]; discriminate E2.
Qed.
Lemma names_not_numbers : forallb (fun p => match fst p with
    | "" => false
    | String c _ => negb (number_head c) end && negb (startswith "inf" (fst p)) && negb (startswith "nan" (fst p)) && all_chars lower_letter (fst p)) css_colors = true.
Proof. vm_compute. reflexivity. Qed.
Lemma start_lower k s : all_chars lower_letter k = true \/ k = "#" -> startswith k s = true -> startswith k (lower s) = true.
Proof.
  intros K S. apply startswith_spec in S. destruct S as (r & ->). rewrite lower_app. assert (lower k = k) as ->.
  { destruct K as [K| ->]; [|reflexivity]. clear -K. induction k as [|c k IH]; [reflexivity|]. cbn [all_chars] in K. apply andb_prop in K. destruct K as [A B]. cbn [lower]. rewrite IH by exact B.
    f_equal. clear -A. destruct c as [[] [] [] [] [] [] [] []]; vm_compute in A |- *; congruence. }
  clear. induction k as [|c k IH]; [reflexivity|]. cbn [append startswith]. rewrite Ascii.eqb_refl. exact IH.
Qed.
Lemma starts_applied name x ts y : startswith name (FuncSpec.applied name x ts y) = true.
Proof. unfold FuncSpec.applied. generalize (String x (String.concat "," ts ++ String y "")) as r. clear. intros r. induction name as [|c k IH]; [reflexivity|]. cbn [append startswith]. rewrite Ascii.eqb_refl. exact IH. Qed.
Lemma starts_short k s : startswith (k ++ "a") s = true -> startswith k s = true.
Proof. intros H. apply startswith_spec in H. destruct H as (r & ->). clear. induction k as [|c k IH]; [reflexivity|]. cbn [append startswith]. rewrite Ascii.eqb_refl. exact IH. Qed.
Lemma opened_start name x ts y : opened name x -> exists k, In k ["#"; "rgb"; "hsl"] /\ startswith k (lower (FuncSpec.applied name x ts y)) = true.
Proof.
  intros O. pose proof (starts_applied name x ts y) as S. destruct O as [O|[O _]]; cbn in O; destruct O as [<- | [<- | []]].
  - exists "rgb". split; [cbn; auto|]. apply start_lower; [left; reflexivity|]. apply starts_short, S.
  - exists "hsl". split; [cbn; auto|]. apply start_lower; [left; reflexivity|]. apply starts_short, S.
  - exists "rgb". split; [cbn; auto|]. apply start_lower; [left; reflexivity|exact S].
  - exists "hsl". split; [cbn; auto|]. apply start_lower; [left; reflexivity|exact S].
Qed.
Lemma color_not_length n s v m u : color_of n s v m -> len_text s u -> False.
Proof.
  intros C L. destruct C as [l v H|name x ts y c O _ _|name hex r g b s I _ SM].
  - apply (not_numeric _ _ "#" L); [|cbn; auto]. apply start_lower; [auto|]. reflexivity.
  - destruct (opened_start name x ts y O) as (k & K & S). exact (not_numeric _ _ k L S K).
  - pose proof names_not_numbers as N. rewrite forallb_forall in N. specialize (N _ I). cbn [fst] in N.
    apply andb_prop in N. destruct N as [N N4]. apply andb_prop in N. destruct N as [N N3]. apply andb_prop in N. destruct N as [N1 N2].
    rewrite (same_lower _ N4) in SM. apply String.eqb_eq in SM. destruct name as [|c name]; [discriminate|].
    destruct (len_start _ _ _ _ L SM) as [Y|(w & r' & W & E)]; [rewrite Y in N1; discriminate|].
    rewrite <- SM, E in N2, N3. cbn in W. destruct W as [<- | [<- | [<- | []]]]; cbn in N2, N3; discriminate.
Qed.

(** *** The three components are apart *)
Definition looks (q : longhand) (part : pyval) : Prop :=
  (kind_of q = Some LengthK /\ exists u, length_of part u) \/ (kind_of q = Some ColorK /\ exists n w m, hue_of n part w m)
  \/ exists s, In s (keywords q) /\ (part = VStr s \/ (part = VNone /\ s = "none")).
Lemma written_looks sh k q n part w m : In q (component sh k) -> written q n part w m -> looks q part.
Proof.
  intros I H. assert (K : forall x, kind_of q = Some x -> x = LengthK \/ x = ColorK).
  { destruct sh, k; cbn in I; repeat destruct I as [<- | I]; try destruct I; cbn; intros x E; try discriminate E; injection E as <-; auto. }
  unfold looks. destruct H as [v u E L|v z E L|v w m E L|v w E L|v w E L|v w m E L|s J N|J|J|J].
  all: try (destruct (K _ E); discriminate).
  - left. eauto.
  - right. left. split; [exact E|]. eauto.
  - right. right. exists s. auto.
  - right. right. exists "none". auto.
  - right. right. exists "none". auto.
  - exfalso. destruct J as [-> | ->]; destruct sh, k; cbn in I; repeat destruct I as [I | I]; try discriminate I; destruct I.
Qed.
Definition part_words : list string := (["thin"; "medium"; "thick"; "inherit"; "transparent"; "initial"; "unset"; "revert"; "invert"] ++ line_style_words)%list.
Lemma words_not_lengths s u : In s part_words -> ~ len_text s u.
Proof.
  intros I L. apply len_units in L. assert (F : forallb (fun s => match units (VStr s) with Ok _ => false | Err _ => true end) part_words = true) by (vm_compute; reflexivity).
  rewrite forallb_forall in F. specialize (F _ I). rewrite L in F. discriminate.
Qed.
Lemma words_not_colors s n : In s part_words -> color n (VStr s) = Err ValueError.
Proof. intros I. cbn in I. repeat destruct I as [<- | I]; try destruct I; vm_compute; reflexivity. Qed.
Lemma keywords_words sh k q : In q (component sh k) -> incl (keywords q) part_words.
Proof. intros I. destruct sh, k; cbn in I; repeat destruct I as [<- | I]; try destruct I; intros z J; cbn in J |- *; tauto. Qed.
Definition kind_for (k : comp) : option kind := match k with CWidth => Some LengthK | CStyle => None | CColor => Some ColorK end.
Lemma component_kind sh k q : In q (component sh k) -> kind_of q = kind_for k.
Proof. intros I. destruct sh, k; cbn in I; repeat destruct I as [<- | I]; try destruct I; reflexivity. Qed.
Lemma keywords_apart sh j k q q' s : j <> k -> In q (component sh k) -> In q' (component sh j) -> In s (keywords q) -> In s (keywords q') -> sh = S_outline /\ s = "inherit".
Proof.
  intros N I I'. destruct sh.
  1, 2: intros J J'; exfalso; revert J J'; destruct j, k; try (exfalso; apply N; reflexivity); cbn in I, I'; repeat destruct I as [<- | I]; try destruct I; repeat destruct I' as [<- | I']; try destruct I'; cbn; intuition (subst; discriminate).
  intros J J'. split; [reflexivity|]. revert J J'. destruct j, k; try (exfalso; apply N; reflexivity); cbn in I, I'; destruct I as [<- | []]; destruct I' as [<- | []]; cbn; intuition (subst; discriminate || reflexivity).
Qed.
Lemma looks_apart sh j k q q' part : j <> k -> In q (component sh k) -> In q' (component sh j) -> looks q part -> looks q' part -> sh = S_outline /\ part = VStr "inherit".
Proof.
  intros N I I' L L'. assert (KW : forall q k s, In q (component sh k) -> In s (keywords q) -> In s part_words) by (intros ? ? ? A B; exact (keywords_words _ _ _ A _ B)).
  destruct L as [[K (u & L)]|[[K (n & w & m & L)]|(s & J & L)]], L' as [[K' (u' & L')]|[[K' (n' & w' & m' & L')]|(s' & J' & L')]].
  all: try (exfalso; rewrite (component_kind _ _ _ I) in K; rewrite (component_kind _ _ _ I') in K'; destruct j, k; try discriminate; apply N; reflexivity).
  - exfalso. destruct L' as [w' m'|s w' m' C]; inversion L; subst. eapply color_not_length; eassumption.
  - exfalso. destruct L' as [-> |[-> _]]; inversion L; subst. eapply words_not_lengths; [|eassumption]. exact (KW _ _ _ I' J').
  - exfalso. destruct L as [o c|s w m C]; inversion L'; subst. eapply color_not_length; eassumption.
  - exfalso. destruct L' as [-> |[-> _]]; inversion L; subst. apply C162_accepted in H0. rewrite (words_not_colors _ n) in H0; [discriminate|]. exact (KW _ _ _ I' J').
  - exfalso. destruct L as [-> |[-> _]]; inversion L'; subst. eapply words_not_lengths; [|eassumption]. exact (KW _ _ _ I J).
  - exfalso. destruct L as [-> |[-> _]]; inversion L'; subst. apply C162_accepted in H0. rewrite (words_not_colors _ n') in H0; [discriminate|]. exact (KW _ _ _ I J).
  - destruct L as [-> |[-> ->]], L' as [E|[E ->]]; try discriminate E.
    + injection E as <-. destruct (keywords_apart _ _ _ _ _ _ N I I' J J') as [A ->]. auto.
    + destruct (keywords_apart _ _ _ _ _ _ N I I' J J') as [_ X]. discriminate X.
Qed.
(** what one component accepts, no other raises for *)
Lemma looks_quiet sh j k q q' part e : In q (component sh k) -> In q' (component sh j) -> looks q part -> ~ raises q' part e.
Proof.
  intros I I' L R. assert (X : exists n s, part = VStr s /\ color n (VStr s) = Err e /\ (s = "" \/ overflowing s)).
  { destruct R as [q1 P|q1 name x ts y P O C V|q1 ng P|v P|v P Z X|v P].
    - exists 0%nat, "". auto.
    - exists 0%nat, (FuncSpec.applied name x ts y). assert (OV : overflowing (FuncSpec.applied name x ts y)) by (exists name, x, ts, y; auto). split; [reflexivity|]. split; [apply (proj1 (proj2 (C162_rejected 0%nat _))), OV|auto].
    - exfalso. cbn in P. destruct sh, j; cbn in I'; repeat destruct I' as [<- | I']; intuition discriminate.
    - exfalso. destruct sh, j; cbn in I'; repeat destruct I' as [I' | I']; discriminate || destruct I'.
    - exfalso. destruct sh, j; cbn in I'; repeat destruct I' as [I' | I']; discriminate || destruct I'.
    - exfalso. destruct sh, j; cbn in I'; repeat destruct I' as [I' | I']; discriminate || destruct I'. }
  destruct X as (n & s & -> & C & Y). destruct L as [[_ (u & L)]|[[_ (n' & w & m & L)]|(s' & J & L)]].
  - inversion L; subst. destruct Y as [-> |(name & x & ts & y & O & _ & _ & ->)].
    + apply len_units in H0. vm_compute in H0. discriminate.
    + destruct (opened_start name x ts y O) as (k' & K & S). exact (not_numeric _ _ k' H0 S K).
  - apply hue_is in L. destruct Y as [-> |Y]; [discriminate|]. apply (proj1 (proj2 (C162_rejected n' s))) in Y. congruence.
  - destruct L as [L|[L _]]; [|discriminate]. injection L as ->. rewrite (words_not_colors s' n) in C by (exact (keywords_words _ _ _ I _ J)). injection C as <-.
    destruct Y as [-> |Y].
    + pose proof (words_not_colors "" n (keywords_words _ _ _ I _ J)) as Z. discriminate Z.
    + apply (proj1 (proj2 (C162_rejected n s'))) in Y. rewrite (words_not_colors s' n) in Y by (exact (keywords_words _ _ _ I _ J)). discriminate.
Qed.

(** *** Parsing the parts *)
Section Parse.
Context (ho : hash_order) (V : valid_order ho) (sh : shorthand).
Notation check k n v := (validate (ho_set ho) (comp_choices sh k) n v).
Lemma component_some k : exists q, In q (component sh k).
Proof. destruct sh, k; cbn; eauto. Qed.
Lemma not_quotes k q : In q (component sh k) -> q <> L_quotes.
Proof. intros I ->. destruct sh, k; cbn in I; repeat destruct I as [I | I]; discriminate || destruct I. Qed.
Lemma check_written k q n v w m : In q (component sh k) -> (check k n v = Ok (w, m) <-> written q n v w m).
Proof. intros I. rewrite (comp_choices_long _ _ _ I), (validate_accepts ho q n v w m V). apply accepts_written, (not_quotes _ _ I). Qed.
Lemma check_fits k n v w m : check k n v = Ok (w, m) -> forall q, In q (component sh k) -> exists n w m, written q n v w m.
Proof. intros H q I. exists n, w, m. apply (check_written k q n v w m I), H. Qed.
Lemma check_any k q n v w m : In q (component sh k) -> written q n v w m -> forall n', exists w' m', check k n' v = Ok (w', m').
Proof. intros I W n'. apply (check_written k q n v w m I) in W. exact (validate_any _ _ _ n' _ _ _ W). Qed.
(** what fits a component is passed over by the others *)
Lemma fits_other j k n v : fits sh k v -> j <> k -> (sh = S_outline -> v <> VStr "inherit") -> exists e, check j n v = Err e /\ is_value_error e = true.
Proof.
  intros [F IN] N NI. destruct (component_some k) as (q & I), (component_some j) as (q' & I'). destruct (F q I) as (n0 & w0 & m0 & W). pose proof (written_looks _ _ _ _ _ _ _ I W) as L.
  destruct (check j n v) as [[w m]|e] eqn:C.
  - apply (check_written j q' n v w m I') in C. pose proof (written_looks _ _ _ _ _ _ _ I' C) as L'. destruct (looks_apart _ _ _ _ _ _ N I I' L L') as [A B]. destruct (NI A B).
  - exists e. split; [reflexivity|]. destruct (is_value_error e) eqn:X; [reflexivity|]. exfalso. rewrite (comp_choices_long _ _ _ I') in C.
    apply validate_raises in C; [|exact (not_quotes _ _ I')|exact X]. exact (looks_quiet _ _ _ _ _ _ _ I I' L C).
Qed.
Lemma fits_classify k n v : fits sh k v -> exists w m, check k n v = Ok (w, m) /\ classify ho (table_of sh) n v = Ok (k, w, m).
Proof.
  intros F. destruct (component_some k) as (q & I). destruct (proj1 F q I) as (n0 & w0 & m0 & W). destruct (check_any _ _ _ _ _ _ I W n) as (w & m & C). exists w, m. split; [exact C|].
  assert (D : (sh = S_outline -> v <> VStr "inherit") \/ (sh = S_outline /\ k = CColor)).
  { assert (D : v = VStr "inherit" \/ v <> VStr "inherit") by (destruct v; try (right; discriminate); destruct (String.eqb_spec s "inherit") as [->|X]; [auto|right; congruence]).
    destruct D as [D|D]; [|auto]. destruct sh; [left; discriminate..|]. right. split; [reflexivity|]. apply F; auto. }
  rewrite table_choices. destruct D as [D|[E ->]].
  - assert (K : forall j, j <> k -> exists e, check j n v = Err e /\ is_value_error e = true) by (intros j J; exact (fits_other j k n v F J D)).
    destruct k.
    + destruct (K CStyle) as (e1 & E1 & X1); [discriminate|]. destruct (K CColor) as (e2 & E2 & X2); [discriminate|].
      destruct sh; cbn [map classify]; rewrite ?C, ?E1, ?E2, ?X1, ?X2, ?C; reflexivity.
    + destruct (K CWidth) as (e1 & E1 & X1); [discriminate|]. destruct (K CColor) as (e2 & E2 & X2); [discriminate|].
      destruct sh; cbn [map classify]; rewrite ?C, ?E1, ?E2, ?X1, ?X2, ?C; reflexivity.
    + destruct (K CWidth) as (e1 & E1 & X1); [discriminate|]. destruct (K CStyle) as (e2 & E2 & X2); [discriminate|].
      destruct sh; cbn [map classify]; rewrite ?C, ?E1, ?E2, ?X1, ?X2, ?C; reflexivity.
  - revert C. rewrite E. cbn [map classify]. intros ->. reflexivity.
Qed.
Lemma classify_fits k n v w m : classify ho (table_of sh) n v = Ok (k, w, m) -> fits sh k v.
Proof.
  intros C. split.
  - apply (classify_ok ho V) in C. destruct C as [C _]. exact (check_fits _ _ _ _ _ C).
  - intros E ->. rewrite table_choices, E in C. cbn [map classify] in C.
    destruct (component_some CColor) as (q & I). revert C. assert (X : validate (ho_set ho) (comp_choices S_outline CColor) n (VStr "inherit") = Ok (VStr "inherit", n)).
    { assert (I2 : In L_outline_color (component S_outline CColor)) by (cbn; auto). rewrite (comp_choices_long _ _ _ I2). apply (validate_accepts ho _ _ _ _ _ V). apply accepts_keyword; [cbn; auto|discriminate]. }
    rewrite X. congruence.
Qed.
(** a part that fits nothing: what the classification raises *)
Lemma classify_err n v e : classify ho (table_of sh) n v = Err e ->
  (forall k, ~ fits sh k v) /\ (is_value_error e = true \/ exists q, In q (component sh CColor) /\ raises q v e).
Proof.
  intros C. split.
  - intros k F. destruct (fits_classify k n v F) as (w & m & _ & E). congruence.
  - destruct (is_value_error e) eqn:X; [auto|]. right. destruct (component_some CColor) as (q & I). exists q. split; [exact I|].
    assert (K : exists k, check k n v = Err e).
    { rewrite table_choices in C. revert C. destruct sh; cbn [map classify];
      repeat (match goal with |- context [validate ?o ?c n v] => destruct (validate o c n v) as [[? ?]|?] eqn:? end; [discriminate|]; match goal with |- context [is_value_error ?y] => destruct (is_value_error y) eqn:? end;
        [|intros H; injection H as ->; eauto]); intros H; injection H as <-; discriminate X. }
    destruct K as (k & K). destruct (component_some k) as (q' & I'). rewrite (comp_choices_long _ _ _ I') in K. apply validate_raises in K; [|exact (not_quotes _ _ I')|exact X].
    destruct K as [q1 P|q1 name x ts y P O CO VV|q1 ng P|v P|v P Z Y|v P].
    + constructor. destruct sh; cbn in I; repeat destruct I as [<- | I]; try destruct I; try (right; eexists; reflexivity). left. cbn. auto.
    + constructor; try assumption. destruct sh; cbn in I; repeat destruct I as [<- | I]; try destruct I; try (right; eexists; reflexivity). left. cbn. auto.
    + exfalso. cbn in P. destruct sh, k; cbn in I'; repeat destruct I' as [<- | I']; intuition discriminate.
    + exfalso. destruct sh, k; cbn in I'; repeat destruct I' as [I' | I']; discriminate || destruct I'.
    + exfalso. destruct sh, k; cbn in I'; repeat destruct I' as [I' | I']; discriminate || destruct I'.
    + exfalso. destruct sh, k; cbn in I'; repeat destruct I' as [I' | I']; discriminate || destruct I'.
Qed.
Lemma fits_unique j k v : fits sh j v -> fits sh k v -> j = k.
Proof. intros A B. destruct (fits_classify j 0 v A) as (w & m & _ & E), (fits_classify k 0 v B) as (w' & m' & _ & E'). congruence. Qed.
Lemma raises_classify q n v e : In q (component sh CColor) -> raises q v e -> classify ho (table_of sh) n v = Err e /\ is_value_error e = false.
Proof.
  intros I R. pose proof R as R'. apply (raises_validate ho q n) in R'. destruct R' as [C X]. split; [|exact X]. rewrite <- (comp_choices_long _ _ _ I) in C.
  assert (O : forall j, j <> CColor -> exists e', check j n v = Err e' /\ is_value_error e' = true).
  { intros j J. destruct (component_some j) as (q' & I'). destruct (check j n v) as [[w m]|e'] eqn:Y.
    - exfalso. apply (check_written j q' n v w m I') in Y. exact (looks_quiet _ _ _ _ _ _ _ I' I (written_looks _ _ _ _ _ _ _ I' Y) R).
    - exists e'. split; [reflexivity|]. destruct (is_value_error e') eqn:Z; [reflexivity|]. exfalso. rewrite (comp_choices_long _ _ _ I') in Y.
      apply validate_raises in Y; [|exact (not_quotes _ _ I')|exact Z]. clear -Y I' J. inversion Y as [q1 P|q1 name x ts y P|q1 ng P|v1 P|v1 P|v1 P]; subst.
      1, 2: destruct sh, j; try (apply J; reflexivity); cbn in I'; repeat destruct I' as [<- | I']; try destruct I'; destruct P as [P|[? P]]; cbn in P; intuition discriminate.
      all: try (cbn in P); destruct sh, j; cbn in I'; repeat destruct I' as [<- | I']; try destruct I'; try discriminate; intuition discriminate. }
  rewrite table_choices. destruct (O CWidth) as (e1 & E1 & X1); [discriminate|]. destruct (O CStyle) as (e2 & E2 & X2); [discriminate|].
  destruct sh; cbn [map classify]; rewrite ?C, ?E1, ?E2, ?X1, ?X2, ?C, ?X; reflexivity.
Qed.
Lemma parse_fits ks l : Forall2 (fits sh) ks l -> forall room n d, NoDup ks -> (forall k, In k ks -> d k = None) -> (List.length l <= room)%nat ->
  exists a m, parse_parts (ho_set ho) (table_of sh) room n d l = Ok (a, m)
    /\ Forall2 (fun k v => exists w i j, check k i v = Ok (w, j) /\ a k = Some w) ks l /\ (forall k, ~ In k ks -> a k = d k).
Proof.
  induction 1 as [|k v ks l F FF IH]; intros room n d ND D R.
  - exists d, n. split; [destruct room; reflexivity|]. split; [constructor|auto].
  - destruct room as [|room]; [cbn in R; lia|]. cbn [parse_parts]. rewrite parse_part_classify. destruct (fits_classify k n v F) as (w & m & C' & C). rewrite C, (D k (or_introl eq_refl)). cbn [bindr fst snd].
    inversion ND as [|? ? NI ND']; subst. destruct (IH room m (set_part d k w)) as (a & m' & E & A & O); [exact ND'| |cbn in R; lia|].
    + intros j J. unfold set_part. rewrite comp_eqb_neq by (intros ->; contradiction). apply D. right. exact J.
    + exists a, m'. split; [exact E|]. split.
      * constructor; [|exact A]. exists w, n, m. split; [exact C'|]. rewrite O by exact NI. unfold set_part. rewrite comp_eqb_refl. reflexivity.
      * intros j J. cbn in J. rewrite O by tauto. unfold set_part. rewrite comp_eqb_neq; [reflexivity|]. intros ->. tauto.
Qed.
Lemma parse_error l : forall room n d e, parse_parts (ho_set ho) (table_of sh) room n d l = Err e ->
  (forall ks, NoDup ks -> (forall k, In k ks -> d k = None) -> (List.length l <= room)%nat -> ~ Forall2 (fits sh) ks l)
  /\ (is_value_error e = true \/ exists pre part post ks, l = (pre ++ part :: post)%list /\ (List.length pre < room)%nat /\ NoDup ks /\ (forall k, In k ks -> d k = None)
        /\ Forall2 (fits sh) ks pre /\ exists q, In q (component sh CColor) /\ raises q part e).
Proof.
  intros room n d e H. split.
  { intros ks ND D R F. destruct (parse_fits ks l F room n d ND D R) as (a & m & E & _). congruence. }
  revert room n d e H. induction l as [|v l IH]; intros room n d e H; [destruct room; discriminate|].
  destruct room as [|room]; cbn [parse_parts] in H; [injection H as <-; left; reflexivity|]. rewrite parse_part_classify in H.
  destruct (classify ho (table_of sh) n v) as [[[k w] m]|e'] eqn:C; cbn [bindr] in H.
  - destruct (d k) eqn:Dk; cbn [bindr fst snd] in H; [injection H as <-; left; reflexivity|].
    destruct (IH _ _ _ _ H) as [X|(pre & part & post & ks & -> & Le & ND & D & F & R)]; [auto|]. right.
    assert (NK : ~ In k ks) by (intros K; apply D in K; unfold set_part in K; rewrite comp_eqb_refl in K; discriminate).
    exists (v :: pre), part, post, (k :: ks). split; [reflexivity|]. split; [cbn; lia|]. split; [constructor; assumption|]. split; [|split; [constructor; [exact (classify_fits _ _ _ _ _ C)|exact F]|exact R]].
    intros j [<- | J]; [exact Dk|]. specialize (D j J). unfold set_part in D. rewrite comp_eqb_neq in D; [exact D|]. intros ->. contradiction.
  - injection H as <-. destruct (classify_err _ _ _ C) as [_ [X|(q & I & R)]]; [auto|]. right. exists [], v, l, []. split; [reflexivity|]. split; [cbn; lia|]. split; [constructor|]. split; [intros j []|]. split; [constructor|]. eauto.
Qed.
Lemma parse_parts_classes l : forall room n d a m, parse_parts (ho_set ho) (table_of sh) room n d l = Ok (a, m) ->
  exists ks, NoDup ks /\ Forall2 (fits sh) ks l /\ forall k, In k ks -> d k = None.
Proof.
  induction l as [|v l IH]; intros room n d a m H; [exists []; repeat constructor; intros k []|]. destruct room as [|room]; cbn [parse_parts] in H; [discriminate|]. rewrite parse_part_classify in H.
  destruct (classify ho (table_of sh) n v) as [[[k w] n']|] eqn:C; cbn [bindr] in H; [|discriminate]. destruct (d k) eqn:D; cbn [bindr fst snd] in H; [discriminate|].
  destruct (IH _ _ _ _ _ H) as (ks & ND & F & O). assert (NK : ~ In k ks) by (intros K; apply O in K; unfold set_part in K; rewrite comp_eqb_refl in K; discriminate).
  exists (k :: ks). split; [constructor; assumption|]. split; [constructor; [exact (classify_fits _ _ _ _ _ C)|exact F]|].
  intros j [<- | J]; [exact D|]. specialize (O j J). unfold set_part in O. rewrite comp_eqb_neq in O; [exact O|]. intros ->. contradiction.
Qed.
Lemma parse_raises ks pre : Forall2 (fits sh) ks pre -> forall room n d part post q e, NoDup ks -> (forall k, In k ks -> d k = None) -> (List.length pre < room)%nat ->
  In q (component sh CColor) -> raises q part e -> parse_parts (ho_set ho) (table_of sh) room n d (pre ++ part :: post) = Err e.
Proof.
  induction 1 as [|k v ks l F FF IH]; intros room n d part post q e ND D R I Z; (destruct room as [|room]; [cbn in R; lia|]); cbn [List.app parse_parts]; rewrite parse_part_classify.
  - destruct (raises_classify q n part e I Z) as [-> _]. reflexivity.
  - destruct (fits_classify k n v F) as (w & m & _ & C). rewrite C, (D k (or_introl eq_refl)). cbn [bindr fst snd].
    inversion ND as [|? ? NI ND']; subst. apply (IH _ _ _ _ _ q); [exact ND'| |cbn in R; lia|exact I|exact Z].
    intros j J. unfold set_part. rewrite comp_eqb_neq by (intros ->; contradiction). apply D. right. exact J.
Qed.
Lemma three (ks : list comp) : NoDup ks -> (List.length ks <= 3)%nat.
Proof. intros N. apply (NoDup_incl_length N (l' := [CWidth; CStyle; CColor])). intros [] _; cbn; auto. Qed.
Lemma F2_length (ks : list comp) (l : list pyval) : Forall2 (fits sh) ks l -> List.length ks = List.length l.
Proof. induction 1; cbn; congruence. Qed.
End Parse.

Lemma values_given v l : shorthand_values v = Ok l <-> parts_given v l.
Proof.
  split.
  - unfold shorthand_values. destruct (truthy v) eqn:T; [|discriminate].
    destruct v; cbn [sequence]; try discriminate.
    + intros H. injection H as <-. rewrite <- (map_map strip VStr). replace (map strip (split_ws s)) with (split_ws s).
      * constructor; [intros ->; discriminate|apply split_ws_words|]. apply split_spaced.
      * symmetry. apply map_strip_words, split_ws_words.
    + intros H. injection H as <-. constructor 2; [left; reflexivity|]. intros ->. discriminate.
    + intros H. injection H as <-. constructor 2; [right; left; reflexivity|]. intros ->. discriminate.
    + intros H. injection H as <-. constructor 2; [right; right; reflexivity|]. intros ->. discriminate.
  - intros [s ts N W S|w l' M N].
    + unfold shorthand_values. destruct s as [|c s]; [contradiction|]. cbn [truthy is_empty negb]. rewrite (spaced_split _ _ W S). f_equal. rewrite <- (map_map strip VStr). f_equal. apply map_strip_words, W.
    + destruct l' as [|x l']; [contradiction|]. destruct M as [-> | [-> | ->]]; reflexivity.
Qed.

(** *** Assigning *)
Section Assign.
Context (ho : hash_order) (V : valid_order ho) (sh : shorthand).
Lemma values_error v : (forall l, ~ parts_given v l) -> shorthand_values v = Err ValueError.
Proof.
  intros N. destruct (shorthand_values v) as [l|e] eqn:E; [destruct (N l); apply values_given, E|]. revert E. unfold shorthand_values.
  destruct (truthy v); [|congruence]. destruct v; cbn [sequence]; congruence.
Qed.
(** what the parsed parts hold *)
Lemma filled_parse ks l n : filled sh ks l -> exists d n1, parse_parts (ho_set ho) (table_of sh) 3 n no_parts l = Ok (d, n1)
  /\ Forall2 (fun k v => exists w i j, validate (ho_set ho) (comp_choices sh k) i v = Ok (w, j) /\ d k = Some w) ks l /\ (forall k, ~ In k ks -> d k = None).
Proof.
  intros [ND F]. apply (parse_fits ho V sh ks l F 3 n no_parts ND); [reflexivity|]. rewrite <- (F2_length sh ks l F). apply three, ND.
Qed.
Definition validated (d : parts) : Prop := forall k w, d k = Some w -> exists i v j, validate (ho_set ho) (comp_choices sh k) i v = Ok (w, j).
Lemma holds_validated ks l d : Forall2 (fun k v => exists w i j, validate (ho_set ho) (comp_choices sh k) i v = Ok (w, j) /\ d k = Some w) ks l -> (forall k, ~ In k ks -> d k = None) ->
  forall k w, d k = Some w -> exists i v j, In v l /\ validate (ho_set ho) (comp_choices sh k) i v = Ok (w, j) /\ In (k, v) (combine ks l).
Proof.
  intros F O k w D. assert (I : In k ks).
  { destruct (in_dec (fun a b : comp => ltac:(decide equality) : {a = b} + {a <> b}) k ks) as [|X]; [assumption|]. rewrite (O k X) in D. discriminate. }
  clear O. induction F as [|j v ks l (w' & i & m & C & A) F IH]; [destruct I|]. destruct I as [-> |I].
  - rewrite D in A. injection A as <-. exists i, v, m. cbn. auto.
  - destruct (IH I) as (i' & v' & j' & J & X & Y). exists i', v', j'. cbn. auto.
Qed.
(** a sequence of steps *)
Lemma each_steps d : validated d -> forall keys, incl keys (valid_keys sh) -> NoDup (map fst keys) -> forall c n c' n', each (step ho d) keys c n = (c', n', Ok tt) ->
  (forall k q, In k (map fst keys) -> In q (component sh k) -> (d k = None -> c_store c' q = None)
     /\ (forall w i x j, d k = Some w -> validate (ho_set ho) (comp_choices sh k) i x = Ok (w, j) -> took ho c' q x))
  /\ (forall q, (forall k, In k (map fst keys) -> ~ In q (component sh k)) -> c_store c' q = c_store c q).
Proof.
  intros D. induction keys as [|[k p] keys IH]; intros I ND c n c' n' H.
  - cbn in H. injection H as <- _. split; [intros k q []|reflexivity].
  - cbn [each] in H. unfold bind in H. destruct (step ho d (k, p) c n) as [[c1 n1] [[]|]] eqn:E; [|discriminate]. inversion ND as [|? ? NI ND']; subst.
    destruct (step_ok ho V sh _ _ _ _ _ _ _ (I _ (or_introl eq_refl)) (D k) E) as (A & B & C). destruct (IH (fun x X => I x (or_intror X)) ND' _ _ _ _ H) as [F G].
    assert (S : forall q, In q (component sh k) -> c_store c' q = c_store c1 q).
    { intros q Q. apply G. intros j J Q'. pose proof (component_disjoint sh _ _ _ Q Q') as ->. contradiction. }
    split.
    + intros j q J Q. destruct J as [J|J]; [cbn [fst] in J; subst j|apply F; assumption]. split.
      * intros X. rewrite (S q Q). apply A; assumption.
      * intros w i x m X W. apply (took_store ho c1); [symmetry; apply S, Q|]. exact (B w i x m q X W Q).
    + intros q Q. rewrite G by (intros j J; apply Q; right; exact J). apply C. apply Q. left. reflexivity.
Qed.
Lemma angle_value k i v w j : validate (ho_set ho) (comp_choices sh k) i v = Ok (w, j) -> is_angle_value w -> angle_text v.
Proof.
  intros C (u & -> & K). destruct (component_some sh k) as (q & I). apply (check_written ho V sh k q) in C; [|exact I].
  assert (L : length_of v u).
  { inversion C; subst; try assumption.
    - inversion H0; subst. inversion H1.
    - inversion H0.
    - inversion H0.
    - inversion H0. }
  assert (A : is_angle u) by (unfold is_angle; destruct (u_kind u); try discriminate K; eauto).
  destruct L as [u N| | |s u L]; [contradiction|discriminate K..|]. exists s, u. auto.
Qed.
Lemma angle_width i v w j : validate (ho_set ho) (comp_choices sh CWidth) i v = Ok (w, j) -> angle_text v -> is_angle_value w.
Proof.
  intros C (s & u & -> & L & A). destruct (component_some sh CWidth) as (q & I). apply (check_written ho V sh CWidth q) in C; [|exact I].
  destruct (written_looks _ _ _ _ _ _ _ I C) as [[K _]|[[K _]|(s' & J & [E|[E _]])]]; [| | |discriminate].
  - inversion C; subst; try congruence.
    + inversion H0; subst. apply len_units in L. apply len_units in H2. assert (u0 = u) by congruence. subst. exists u. split; [reflexivity|]. destruct A as (x & y & ->). reflexivity.
    + destruct (words_not_lengths s u); [|exact L]. exact (keywords_words _ _ _ I _ H0).
    + destruct (words_not_lengths "none" u); [|exact L]. exact (keywords_words _ _ _ I _ H0).
  - rewrite (component_kind _ _ _ I) in K. discriminate.
  - injection E as <-. destruct (words_not_lengths s u); [|exact L]. exact (keywords_words _ _ _ I _ J).
Qed.
(** an angle is taken for the width *)
Lemma angle_fits k v : fits sh k v -> angle_text v -> k = CWidth.
Proof.
  intros F (s & u & -> & L & A). destruct (component_some sh CWidth) as (q & I). apply (fits_unique ho V sh k CWidth (VStr s) F). split.
  - intros q' I'. exists 0%nat, (VUnit u), 0%nat. apply w_length; [exact (component_kind _ _ _ I')|constructor; exact L].
  - intros _ E. injection E as ->. destruct (words_not_lengths "inherit" u); [cbn; tauto|exact L].
Qed.
Lemma took_now c n q v : q <> L_quotes -> reachable ho c n -> took ho c q v -> now ho c q v.
Proof.
  intros NQ R T. destruct (took_get ho c n q v V R T) as (m & w & m' & r & W & G & X). exists m, w, m', r. split; [|auto].
  apply accepts_written; [exact NQ|]. apply (validate_accepts ho _ _ _ _ _ V), W.
Qed.
Lemma in_keys k : exists p, In (k, p) (valid_keys sh).
Proof. destruct sh, k; cbn; eauto. Qed.
Lemma long_component q : In q (longhands_of (Short sh)) <-> exists k, In q (component sh k).
Proof.
  split.
  - destruct sh; cbn; intros I; repeat destruct I as [<- | I]; try destruct I; first [exists CWidth; cbn; tauto|exists CStyle; cbn; tauto|exists CColor; cbn; tauto].
  - intros (k & I). destruct sh, k; cbn in *; tauto.
Qed.
Lemma keys_nodup : NoDup (map fst (valid_keys sh)).
Proof. destruct sh; cbn; repeat constructor; cbn; intuition discriminate. Qed.
End Assign.

Lemma short_accepted ho sh v l ks c n : valid_order ho -> has_layout c ->
  parts_given v l -> filled sh ks l -> ~ Exists angle_text l ->
  exists c' n', set_prop ho (Short sh) v c n = (c', n', Ok tt)
    /\ Forall2 (fun k part => forall q, In q (component sh k) -> took ho c' q part) ks l
    /\ (forall k q, ~ In k ks -> In q (component sh k) -> c_store c' q = None)
    /\ (forall q, ~ In q (longhands_of (Short sh)) -> c_store c' q = c_store c q).
Proof.
  intros V L P F NA. destruct (filled_parse ho V sh ks l n F) as (d & n1 & PA & H & O).
  pose proof (holds_validated ho sh ks l d H O) as D.
  destruct (set_short_accepts ho V sh c d n1 L) as (c' & n' & E).
  { intros k w Dk. destruct (D k w Dk) as (i & x & j & I & C & _). split; [|eauto]. destruct (comp_value _ _ _ _ _ _ _ V C) as [[X|[_ X]] _]; [exact X|].
    destruct NA. apply Exists_exists. exists x. split; [exact I|]. exact (angle_value ho V sh k i x w j C X). }
  assert (S : set_prop ho (Short sh) v c n = (c', n', Ok tt)).
  { cbn [set_prop]. rewrite set_short_step. unfold parse_shorthand. apply values_given in P. rewrite P. cbn [bindr]. rewrite PA. exact E. }
  exists c', n'. split; [exact S|].
  unfold bind in E. destruct (each (step ho d) (valid_keys sh) c n1) as [[c2 n2] [[]|]] eqn:EA; [|discriminate].
  assert (ST : c_store c' = c_store c2) by (unfold dirty in E; pose proof (mark_dirty_store c2) as M; destruct (mark_dirty c2); injection E as <- _ _; exact M).
  destruct (each_steps ho V sh d) with (keys := valid_keys sh) (c := c) (n := n1) (c' := c2) (n' := n2) as [A B]; [intros k w Dk; destruct (D k w Dk) as (i & x & j & _ & C & _); eauto|apply incl_refl|apply keys_nodup|exact EA|].
  assert (K : forall k, In k (map fst (valid_keys sh))) by (intros k; destruct (in_keys sh k) as (p & I); exact (in_map fst _ _ I)).
  split; [|split].
  - clear -V A H ST K. induction H as [|k x ks l (w & i & j & C & X) H IH]; constructor; [|exact IH]. intros q Q.
    apply (took_store ho c2); [rewrite ST; reflexivity|]. exact (proj2 (A k q (K k) Q) w i x j X C).
  - intros k q N Q. rewrite ST. apply (A k q (K k) Q), O, N.
  - intros q N. rewrite ST. apply B. intros k _ Q. apply N, long_component. eauto.
Qed.
(** C164. *)
Theorem C164_accepted : forall ho sh v l ks c n, valid_order ho -> reachable ho c n -> has_layout c ->
  parts_given v l -> filled sh ks l -> ~ Exists angle_text l ->
  exists c' n', set_prop ho (Short sh) v c n = (c', n', Ok tt)
    /\ Forall2 (fun k part => forall q, In q (component sh k) -> now ho c' q part) ks l
    /\ (forall k q, ~ In k ks -> In q (component sh k) -> c_store c' q = None)
    /\ (forall q, ~ In q (longhands_of (Short sh)) -> c_store c' q = c_store c q).
Proof.
  intros ho sh v l ks c n V R L P F NA. destruct (short_accepted ho sh v l ks c n V L P F NA) as (c' & n' & E & T & N & O). exists c', n'. split; [exact E|]. split; [|auto].
  assert (R' : reachable ho c' n') by (eapply (reachable_op ho c n (OpSet (Short sh) v) R); exact E).
  clear -V R' T. induction T as [|k x ks l H T IH]; constructor; [|exact IH]. intros q Q. apply (took_now ho V c' n'); [exact (not_quotes sh k q Q)|exact R'|auto].
Qed.
Print Assumptions C164_accepted.
(** the parts are in order, but the width is an angle *)
Lemma short_angle ho sh v l ks c n : valid_order ho -> has_layout c ->
  parts_given v l -> filled sh ks l -> Exists angle_text l ->
  exists c' n', set_prop ho (Short sh) v c n = (c', n', Err ValueError)
    /\ (sh <> S_outline -> c' = c)
    /\ (sh = S_outline ->
          Forall2 (fun k part => k <> CWidth -> forall q, In q (component sh k) -> took ho c' q part) ks l
          /\ (forall k q, ~ In k ks -> In q (component sh k) -> c_store c' q = None)
          /\ (forall q, q <> L_outline_color -> q <> L_outline_style -> c_store c' q = c_store c q)).
Proof.
  intros V L P F EA. destruct (filled_parse ho V sh ks l n F) as (d & n1 & PA & H & O).
  pose proof (holds_validated ho sh ks l d H O) as D.
  assert (W : exists w, d CWidth = Some w /\ is_angle_value w).
  { apply Exists_exists in EA. destruct EA as (x & I & A). destruct F as [_ F]. clear -V F H I A. induction H as [|k y ks l (w & i & j & C & X) H IH]; [destruct I|]. inversion F as [|? ? ? ? F1 F2]; subst.
    destruct I as [-> |I]; [|auto]. pose proof (angle_fits ho V sh k x F1 A) as ->. exists w. split; [exact X|]. exact (angle_width ho V sh i x w j C A). }
  destruct W as (w & DW & AW).
  assert (S : set_prop ho (Short sh) v c n = (each (step ho d) (valid_keys sh) ;;c dirty) c n1).
  { cbn [set_prop]. rewrite set_short_step. unfold parse_shorthand. apply values_given in P. rewrite P. cbn [bindr]. rewrite PA. reflexivity. }
  assert (FA : forall q c n, In (CWidth, q) (valid_keys sh) -> step ho d (CWidth, q) c n = (c, n, Err ValueError)).
  { intros q c0 n0 I. unfold step. cbn [fst snd]. rewrite DW. exact (set_ld_fail_angle ho V sh q CWidth w c0 n0 I AW). }
  assert (DS : sh = S_outline \/ sh <> S_outline) by (destruct sh; auto; right; discriminate). destruct DS as [DS|DS].
  - assert (IC : forall p, In p (firstn 2 (valid_keys sh)) -> In p (valid_keys sh)) by (intros p; rewrite DS; cbn; tauto).
    assert (VK : valid_keys sh = [(CColor, Long L_outline_color); (CStyle, Long L_outline_style); (CWidth, Long L_outline_width)]) by (rewrite DS; reflexivity).
    assert (ACC : forall k, k <> CWidth -> forall w, d k = Some w -> reassignable w /\ exists i v j, validate (ho_set ho) (comp_choices sh k) i v = Ok (w, j)).
    { intros k NK y Dk. destruct (D k y Dk) as (i & x & j & _ & C & _). split; [|eauto]. destruct (comp_value _ _ _ _ _ _ _ V C) as [[X|[X _]] _]; [exact X|contradiction]. }
    destruct (step_accepts ho V sh d CColor (Long L_outline_color) c n1) as (c1 & n2 & E1 & L1); [rewrite VK; cbn; auto|exact L|apply ACC; discriminate|].
    destruct (step_accepts ho V sh d CStyle (Long L_outline_style) c1 n2) as (c2 & n3 & E2 & L2); [rewrite VK; cbn; auto|exact L1|apply ACC; discriminate|].
    assert (SE : set_prop ho (Short sh) v c n = (c2, n3, Err ValueError)).
    { rewrite S, VK. cbn [each]. unfold bind. rewrite E1, E2, FA by (rewrite VK; cbn; auto). reflexivity. }
    exists c2, n3. split; [exact SE|]. split; [intros X; contradiction|]. intros _.
    destruct (each_steps ho V sh d) with (keys := firstn 2 (valid_keys sh)) (c := c) (n := n1) (c' := c2) (n' := n3) as [A B].
    { intros k y Dk. destruct (D k y Dk) as (i & x & j & _ & C & _). eauto. }
    { exact IC. }
    { rewrite VK. cbn. repeat constructor; cbn; intuition discriminate. }
    { rewrite VK. cbn [firstn each]. unfold bind. rewrite E1, E2. reflexivity. }
    rewrite VK in A, B. cbn [firstn map fst] in A, B. split; [|split].
    + clear -V A H. induction H as [|k x ks l (y & i & j & C & X) H IH]; constructor; [|exact IH]. intros NK q Q.
      apply (proj2 (A k q ltac:(destruct k; cbn; tauto) Q) y i x j X C).
    + intros k q N Q. assert (NK : k <> CWidth) by (intros ->; rewrite (O CWidth N) in DW; discriminate). apply (A k q); [destruct k; cbn; tauto|exact Q|apply O, N].
    + intros q N1 N2. apply B. intros k K Q. rewrite DS in Q. destruct K as [<- | [<- | []]]; cbn in Q; destruct Q as [Q|[]]; congruence.
  - exists c, n1. assert (VK : exists q r, valid_keys sh = (CWidth, q) :: r) by (destruct sh; cbn; eauto; contradiction). destruct VK as (q & r & VK). split; [|split; [reflexivity|intros X; contradiction]].
    rewrite S, VK. cbn [each]. unfold bind. rewrite FA by (rewrite VK; cbn; auto). reflexivity.
Qed.
Theorem C164_angle : forall ho sh v l ks c n, valid_order ho -> reachable ho c n -> has_layout c ->
  parts_given v l -> filled sh ks l -> Exists angle_text l ->
  exists c' n', set_prop ho (Short sh) v c n = (c', n', Err ValueError)
    /\ (sh <> S_outline -> c' = c)
    /\ (sh = S_outline ->
          Forall2 (fun k part => k <> CWidth -> forall q, In q (component sh k) -> now ho c' q part) ks l
          /\ (forall k q, ~ In k ks -> In q (component sh k) -> c_store c' q = None)
          /\ (forall q, q <> L_outline_color -> q <> L_outline_style -> c_store c' q = c_store c q)).
Proof.
  intros ho sh v l ks c n V R L P F EA. destruct (short_angle ho sh v l ks c n V L P F EA) as (c' & n' & E & N & O). exists c', n'. split; [exact E|]. split; [exact N|].
  intros X. destruct (O X) as (T & O1 & O2). split; [|auto].
  assert (R' : reachable ho c' n') by (eapply (reachable_op ho c n (OpSet (Short sh) v) R); exact E).
  clear -V R' T. induction T as [|k x ks l H T IH]; constructor; [|exact IH]. intros NK q Q. apply (took_now ho V c' n'); [exact (not_quotes sh k q Q)|exact R'|auto].
Qed.
Print Assumptions C164_angle.
(** the parts are not in order *)
Theorem C164_rejected : forall ho sh v c n, valid_order ho -> (forall l ks, parts_given v l -> ~ filled sh ks l) ->
  exists e, set_prop ho (Short sh) v c n = (c, n, Err e) /\ (e = ValueError \/ raising sh v e).
Proof.
  intros ho sh v c n V N. cbn [set_prop]. rewrite set_short_step. unfold parse_shorthand. destruct (shorthand_values v) as [l|e0] eqn:SV; cbn [bindr].
  - apply values_given in SV. destruct (parse_parts (ho_set ho) (table_of sh) 3 n no_parts l) as [[d n1]|e] eqn:P.
    + exfalso. destruct (parse_parts_classes ho V sh l 3 n no_parts d n1 P) as (ks & ND & F & _). exact (N l ks SV (conj ND F)).
    + destruct (parse_error ho V sh l 3 n no_parts e P) as [_ [X|(pre & part & post & ks & -> & Le & ND & _ & F & R)]].
      * exists ValueError. rewrite X. auto.
      * destruct R as (q & I & R). pose proof (raises_classify ho V sh q n part e I R) as [_ X]. exists e. rewrite X. split; [reflexivity|]. right. exists pre, part, post, ks. split; [exact SV|]. split; [lia|]. split; [split; assumption|]. eauto.
  - exists ValueError. assert (e0 = ValueError) as ->; [|auto]. revert SV. unfold shorthand_values. destruct (truthy v); [|congruence]. destruct v; cbn [sequence]; congruence.
Qed.
Print Assumptions C164_rejected.
Theorem C164_raises : forall ho sh v c n e, valid_order ho -> raising sh v e -> set_prop ho (Short sh) v c n = (c, n, Err e).
Proof.
  intros ho sh v c n e V (pre & part & post & ks & P & Le & [ND F] & q & I & R). cbn [set_prop]. rewrite set_short_step. unfold parse_shorthand. apply values_given in P. rewrite P. cbn [bindr].
  rewrite (parse_raises ho V sh ks pre F 3 n no_parts part post q e ND) by (assumption || reflexivity || lia). destruct (raises_classify ho V sh q n part e I R) as [_ ->]. reflexivity.
Qed.
Print Assumptions C164_raises.
Example C164_example : parts_given (VStr "  thin red ") [VStr "thin"; VStr "red"] /\ filled (S_border_side SLeft) [CWidth; CColor] [VStr "thin"; VStr "red"]
  /\ ~ Exists angle_text [VStr "thin"; VStr "red"]
  /\ filled S_outline [CColor] [VStr "inherit"]
  /\ filled S_outline [CColor; CWidth] [VStr "red"; VStr "10deg"] /\ Exists angle_text [VStr "red"; VStr "10deg"]
  /\ (forall ks, ~ filled S_border ks [VStr "thin"; VStr "2px"])
  /\ raising S_border (VTuple [VStr "thin"; VStr ""]) IndexError
  /\ parts_given (VStr " ") [] /\ filled S_border [] [].
Proof.
  assert (W : forall q n v w m, q <> L_quotes -> validate (ho_set plain_order) (choices_of q) n v = Ok (w, m) -> exists n w m, written q n v w m) by (intros q n v w m NQ H; exists n, w, m; apply computed_written; assumption).
  assert (FT : forall sh k v w, (forall q, In q (component sh k) -> q <> L_quotes /\ exists m, validate (ho_set plain_order) (choices_of q) 0 v = Ok (w, m)) -> (sh = S_outline -> v = VStr "inherit" -> k = CColor) -> fits sh k v).
  { intros sh k v w H I. split; [|exact I]. intros q Q. destruct (H q Q) as (NQ & m & E). exact (W q 0%nat v w m NQ E). }
  assert (thin : forall s, fits (S_border_side s) CWidth (VStr "thin")).
  { intros s. apply (FT _ _ _ (VStr "thin")); [|discriminate]. intros q [<- | []]. split; [discriminate|]. eexists. vm_compute. reflexivity. }
  assert (thin4 : fits S_border CWidth (VStr "thin")).
  { apply (FT _ _ _ (VStr "thin")); [|discriminate]. intros q I. cbn in I. repeat destruct I as [<- | I]; try destruct I; (split; [discriminate|]); eexists; vm_compute; reflexivity. }
  assert (px4 : fits S_border CWidth (VStr "2px")).
  { apply (FT _ _ _ (VUnit (unit_of "2px"))); [|discriminate]. intros q I. cbn in I. repeat destruct I as [<- | I]; try destruct I; (split; [discriminate|]); eexists; vm_compute; reflexivity. }
  assert (red : forall s, fits (S_border_side s) CColor (VStr "red")).
  { intros s. destruct (color 0 (VStr "red")) as [[w m]|] eqn:E; [|vm_compute in E; discriminate]. apply (FT _ _ _ w); [|discriminate]. intros q [<- | []]. split; [discriminate|]. exists m. vm_compute in E |- *. exact E. }
  assert (redo : fits S_outline CColor (VStr "red")).
  { destruct (color 0 (VStr "red")) as [[w m]|] eqn:E; [|vm_compute in E; discriminate]. apply (FT _ _ _ w); [|discriminate]. intros q [<- | []]. split; [discriminate|]. exists m. vm_compute in E |- *. exact E. }
  assert (inh : fits S_outline CColor (VStr "inherit")).
  { apply (FT _ _ _ (VStr "inherit")); [|reflexivity]. intros q [<- | []]. split; [discriminate|]. eexists. vm_compute. reflexivity. }
  assert (deg : fits S_outline CWidth (VStr "10deg")).
  { apply (FT _ _ _ (VUnit (unit_of "10deg"))); [|discriminate]. intros q [<- | []]. split; [discriminate|]. eexists. vm_compute. reflexivity. }
  assert (nl : forall s e, units (VStr s) = Err e -> ~ angle_text (VStr s)) by (intros s e E (t & u & T & L & _); injection T as <-; apply len_units in L; congruence).
  split; [apply (given_words "  thin red " ["thin"; "red"]); [discriminate|repeat constructor; discriminate|exact (split_spaced "  thin red ")]|].
  split; [split; [repeat constructor; cbn; intuition discriminate|repeat constructor; auto; apply thin || apply red]|].
  split. { intros E. inversion E as [? ? A|? ? E']; subst; [exact (nl "thin" _ eq_refl A)|]. inversion E' as [? ? A|? ? E2]; subst; [exact (nl "red" _ eq_refl A)|inversion E2]. }
  split; [split; [repeat constructor; cbn; intuition discriminate|constructor; [exact inh|constructor]]|].
  split; [split; [repeat constructor; cbn; intuition discriminate|constructor; [exact redo|constructor; [exact deg|constructor]]]|].
  split. { right. left. exists "10deg", (unit_of "10deg"). split; [reflexivity|]. split; [apply len_units; vm_compute; reflexivity|]. vm_compute. eexists. eexists. reflexivity. }
  split. { intros ks [ND F]. inversion F as [|k1 ? ks1 ? F1 F']; subst. inversion F' as [|k2 ? ks2 ? F2 F'']; subst.
    pose proof (fits_unique plain_order plain_valid _ _ _ _ F1 thin4). pose proof (fits_unique plain_order plain_valid _ _ _ _ F2 px4). subst. inversion ND as [|? ? NI _]. apply NI. left. reflexivity. }
  split. { exists [VStr "thin"], (VStr ""), [], [CWidth]. split; [constructor 2; [left; reflexivity|discriminate]|]. split; [cbn; lia|].
    split; [split; [repeat constructor; cbn; tauto|constructor; [exact thin4|constructor]]|]. exists (L_border_color STop). split; [cbn; auto|]. constructor. right. eexists. reflexivity. }
  split; [apply (given_words " " []); [discriminate|constructor|exact (split_spaced " ")]|]. split; constructor.
Qed.

(** *** Directional properties *)
Section Sides.
Context (ho : hash_order) (V : valid_order ho) (d : directional) (f : side -> pyval).
Lemma sides_each t r b l : (forall s, f s = sides_value t r b l s) -> forall c n,
  set_sides ho d t r b l c n = each (fun s => set_long ho (side_prop d s) (f s)) [STop; SRight; SBottom; SLeft] c n.
Proof.
  intros F c n. pose proof (F STop) as F1. pose proof (F SRight) as F2. pose proof (F SBottom) as F3. pose proof (F SLeft) as F4. cbn in F1, F2, F3, F4.
  assert (SP : forall s, side_prop d s = dir_side d s) by (destruct d; reflexivity).
  unfold set_sides. cbn [each]. rewrite (SP STop), (SP SRight), (SP SBottom), (SP SLeft), F1, F2, F3, F4. unfold bind.
  destruct (set_long ho (dir_side d STop) t c n) as [[c1 n1] [[]|]]; [|reflexivity]. destruct (set_long ho (dir_side d SRight) r c1 n1) as [[c2 n2] [[]|]]; [|reflexivity].
  destruct (set_long ho (dir_side d SBottom) b c2 n2) as [[c3 n3] [[]|]]; [|reflexivity]. destruct (set_long ho (dir_side d SLeft) l c3 n3) as [[c4 n4] [[]|]]; reflexivity.
Qed.
Lemma side_not_quotes s : side_prop d s <> L_quotes.
Proof. destruct d; discriminate. Qed.
Lemma side_inj a b : side_prop d a = side_prop d b -> a = b.
Proof. destruct d; cbn; congruence. Qed.
Lemma each_app {A} (g : A -> cm unit) x y c n : each g (x ++ y) c n = match each g x c n with (c1, n1, Ok _) => each g y c1 n1 | (c1, n1, Err e) => (c1, n1, Err e) end.
Proof.
  revert c n. induction x as [|a x IH]; intros c n; [reflexivity|]. cbn [List.app each]. unfold bind. destruct (g a c n) as [[c1 n1] [[]|]]; [apply IH|reflexivity].
Qed.
Lemma each_done l : NoDup l -> (forall r, In r l -> exists n w m, written (side_prop d r) n (f r) w m) -> forall c n, has_layout c ->
  exists c' n', each (fun s => set_long ho (side_prop d s) (f s)) l c n = (c', n', Ok tt) /\ has_layout c'
    /\ (forall r, In r l -> took ho c' (side_prop d r) (f r)) /\ (forall q, (forall r, In r l -> q <> side_prop d r) -> c_store c' q = c_store c q).
Proof.
  induction 1 as [|s l NI ND IH]; intros W c n L.
  - exists c, n. split; [reflexivity|]. split; [exact L|]. split; [intros r []|reflexivity].
  - destruct (W s (or_introl eq_refl)) as (n0 & w0 & m0 & W0). apply accepts_written in W0; [|apply side_not_quotes]. apply (validate_accepts ho _ _ _ _ _ V) in W0.
    destruct (validate_any _ _ _ n _ _ _ W0) as (w & m & W1). destruct (set_long_accepts ho _ _ c n _ _ L W1) as (c1 & E & L1).
    destruct (IH (fun r R => W r (or_intror R)) c1 m L1) as (c' & n' & E' & L' & T & Fr). exists c', n'. cbn [each]. unfold bind. rewrite E. split; [exact E'|]. split; [exact L'|]. split.
    + intros r [<- | R]; [|auto]. apply (took_store ho c1); [|apply (set_long_took _ _ _ _ _ _ _ V E)]. symmetry. apply Fr. intros r R X. apply side_inj in X. subst. contradiction.
    + intros q Q. rewrite Fr by (intros r R; apply Q; right; exact R). apply (set_long_other _ _ _ _ _ _ _ _ _ E), Q. left. reflexivity.
Qed.
End Sides.
(** C165. *)
Theorem C165_directional : forall ho d v f c n, valid_order ho -> reachable ho c n -> has_layout c -> sides_of v = Some f ->
  ((forall s, exists n w m, written (side_prop d s) n (f s) w m) ->
     exists c' n', set_prop ho (Dir d) v c n = (c', n', Ok tt) /\ (forall s, now ho c' (side_prop d s) (f s))
       /\ (forall q, (forall s, q <> side_prop d s) -> c_store c' q = c_store c q))
  /\ (forall done s, stopped d f done s ->
     exists c' n' e, set_prop ho (Dir d) v c n = (c', n', Err e) /\ (forall r, In r done -> now ho c' (side_prop d r) (f r))
       /\ (forall q, (forall r, In r done -> q <> side_prop d r) -> c_store c' q = c_store c q)
       /\ (e = ValueError \/ raises (side_prop d s) (f s) e)).
Proof.
  intros ho d v f c n V R L SO. pose proof (set_dir_sides ho d v) as SD. rewrite SO in SD. destruct SD as (t & r & b & l & SD & FS).
  assert (E : set_prop ho (Dir d) v c n = each (fun s => set_long ho (side_prop d s) (f s)) [STop; SRight; SBottom; SLeft] c n).
  { cbn [set_prop]. rewrite SD. apply sides_each, FS. }
  assert (ND4 : NoDup [STop; SRight; SBottom; SLeft]) by (repeat constructor; cbn; intuition discriminate). split.
  - intros W. destruct (each_done ho V d f _ ND4 (fun s _ => W s) c n L) as (c' & n' & E' & _ & T & Fr). rewrite E' in E.
    assert (R' : reachable ho c' n') by (eapply (reachable_op ho c n (OpSet (Dir d) v) R); exact E). exists c', n'. split; [exact E|]. split.
    + intros s. apply (took_now ho V c' n'); [apply side_not_quotes|exact R'|]. apply T. destruct s; cbn; auto.
    + intros q Q. apply Fr. intros s _. apply Q.
  - intros done s ((rest & O) & W & N). assert (ND : NoDup done /\ ~ In s done).
    { rewrite <- O in ND4. apply NoDup_remove in ND4. destruct ND4 as [A B]. split; [|intros I; apply B, in_or_app; auto]. clear -A. induction done as [|x y IH]; [constructor|]. inversion A as [|? ? NI A']; subst. constructor; [intros I; apply NI, in_or_app; auto|auto]. }
    destruct (each_done ho V d f _ (proj1 ND) W c n L) as (c' & n' & E' & L' & T & Fr).
    destruct (validate (ho_set ho) (choices_of (side_prop d s)) n' (f s)) as [[w m]|e] eqn:VE.
    { exfalso. apply (N n' w m), accepts_written; [apply side_not_quotes|]. apply (validate_accepts ho _ _ _ _ _ V), VE. }
    assert (SE : set_prop ho (Dir d) v c n = (c', n', Err (if is_value_error e then ValueError else e))).
    { rewrite E, <- O, each_app, E'. cbn [each]. unfold bind. rewrite set_long_eq, VE. reflexivity. }
    assert (R' : reachable ho c' n') by (eapply (reachable_op ho c n (OpSet (Dir d) v) R); exact SE).
    exists c', n'. eexists. split; [exact SE|]. split; [|split; [exact Fr|]].
    + intros x X. apply (took_now ho V c' n'); [apply side_not_quotes|exact R'|]. apply T, X.
    + destruct (is_value_error e) eqn:X; [auto|]. right. exact (validate_raises _ _ _ _ _ (side_not_quotes d s) VE X).
Qed.
Print Assumptions C165_directional.
Example C165_example : sides_of (VTuple [VInt 1; VStr "auto"; VStr "bad"]) = Some (fun s => match s with STop => VInt 1 | SBottom => VStr "bad" | SRight | SLeft => VStr "auto" end)
  /\ stopped D_margin (fun s => match s with STop => VInt 1 | SBottom => VStr "bad" | SRight | SLeft => VStr "auto" end) [STop; SRight] SBottom
  /\ stopped D_border_color (fun _ => VStr "") [] STop /\ raises (L_border_color STop) (VStr "") IndexError
  /\ reachable plain_order sample sample_n /\ has_layout sample.
Proof.
  split; [reflexivity|]. split.
  { split; [exists [SLeft]; reflexivity|]. split.
    - intros r [<- | [<- | []]]; eexists 0%nat, _, _; (apply computed_written; [discriminate|vm_compute; reflexivity]).
    - intros n w m. eapply not_written; [discriminate|]. vm_compute. reflexivity. }
  split. { split; [exists [SRight; SBottom; SLeft]; reflexivity|]. split; [intros r []|]. intros n w m. eapply not_written; [discriminate|]. vm_compute. reflexivity. }
  split; [constructor; right; eexists; reflexivity|]. split; [apply sample_reachable|]. vm_compute. discriminate.
Qed.
