(** * C160: exactly which texts rgb(...), rgba(...), hsl(...), hsla(...) are colours *)
From Coq Require Import ZArith QArith Qcanon Lqa Lia Bool String Ascii List.
From Verif Require Import PyNum NumFacts Float64 PyStr StrFacts Colors ColorSpec TextFacts FloatFacts ColorText Values Units ParserSpec Parser ParserFacts
  ColorFacts ColorProps ReadSpec ReadProps FuncSpec.
Import ListNotations.
Open Scope string_scope.
Open Scope Z_scope.

(** *** Percentages *)
Lemma rstrip_keep f s k : k <> "" -> rstrip_by f k = k -> rstrip_by f (s ++ k) = s ++ k.
Proof.
  intros N K. induction s as [|c s IH]; [exact K|]. cbn [append rstrip_by]. rewrite IH. destruct (s ++ k) as [|d u] eqn:E; [|reflexivity].
  destruct s; [contradiction|discriminate].
Qed.
Definition core_char (c : ascii) : bool := dec_digit c || Ascii.eqb c "_" || Ascii.eqb c "+" || Ascii.eqb c "-".
Lemma run_core w ds : run w ds -> all_chars core_char w = true /\ w <> "".
Proof.
  induction 1 as [c D|c w ds D _ [IH _]|c w ds D _ [IH _]]; cbn; unfold core_char at 1; rewrite D; cbn; split; try discriminate; try exact IH; reflexivity.
Qed.
Lemma sign_core s neg : sign_text s neg -> all_chars core_char s = true.
Proof. intros [[[-> | ->] _]|[-> _]]; reflexivity. Qed.
Lemma core_impl (g : ascii -> bool) s : (forall c, core_char c = true -> g c = true) -> all_chars core_char s = true -> all_chars g s = true.
Proof. intros H. apply all_chars_impl, H. Qed.
Lemma percents_is k : percents k -> all_chars (Ascii.eqb "%") k = true.
Proof. apply all_chars_impl. intros c H. rewrite Ascii.eqb_sym. exact H. Qed.
Lemma percent_ok t z : py_int (rstrip_percent (strip t)) = Ok z <-> percent_arg t z.
Proof.
  split.
  - intros H. destruct (strip_split t) as (p & q & P & Q & E). set (s := strip t) in *. clearbody s. unfold rstrip_percent in H.
    destruct (rstrip_split (Ascii.eqb "%") s) as (k & Ek & K). set (w := rstrip_by _ s) in *. clearbody w. subst s.
    exists p, w, k, q. split; [exact P|]. split; [exact Q|]. split; [revert K; apply all_chars_impl; intros c X; rewrite Ascii.eqb_sym; exact X|].
    split; [apply C147_int, H|rewrite E, !app_assoc_s; reflexivity].
  - intros (P & w & k & Q & HP & HQ & K & (p & sg & neg & r & ds & q & Bp & Bq & Sg & R & -> & Ez) & ->).
    set (core := sg ++ r). destruct (run_core _ _ R) as [Rc Rn].
    assert (C : all_chars core_char core = true) by (unfold core; rewrite all_chars_app, (sign_core _ _ Sg); exact Rc).
    assert (Cn : core <> "") by (unfold core; destruct sg; [exact Rn|discriminate]).
    assert (CS : all_chars (fun c => negb (is_space c)) core = true) by (revert C; apply core_impl; by_chars (fun c => implb (core_char c) (negb (is_space c))); intros E; rewrite E in X; exact X).
    assert (CP : all_chars (fun c => negb (Ascii.eqb "%" c)) core = true) by (revert C; apply core_impl; by_chars (fun c => implb (core_char c) (negb (Ascii.eqb "%" c))); intros E; rewrite E in X; exact X).
    assert (BP : all_chars (fun c => negb (Ascii.eqb "%" c)) q = true) by (revert Bq; apply all_chars_impl; by_chars (fun c => implb (blank c) (negb (Ascii.eqb "%" c))); intros E; rewrite E in X; exact X).
    assert (IT : forall q', blanks q' -> py_int (core ++ q') = Ok z).
    { intros q' B. apply C147_int. exists "", sg, neg, r, ds, q'. split; [reflexivity|]. split; [exact B|]. split; [exact Sg|]. split; [exact R|]. split; [unfold core; cbn [append]; rewrite app_assoc_s; reflexivity|exact Ez]. }
    replace (P ++ (p ++ sg ++ r ++ q) ++ k ++ Q) with ((P ++ p) ++ core ++ (q ++ k ++ Q)) by (unfold core; rewrite !app_assoc_s; reflexivity).
    unfold strip. rewrite lstrip_pad by (rewrite all_chars_app, (spaces_is _ HP), (blanks_space _ Bp); reflexivity).
    destruct core as [|c0 core'] eqn:Ec; [contradiction|]. cbn [append]. rewrite lstrip_none by (cbn [all_chars] in CS; apply andb_prop in CS; destruct CS as [X _]; apply negb_true_iff, X).
    change (String c0 (core' ++ q ++ k ++ Q)) with (String c0 core' ++ q ++ k ++ Q). rewrite <- Ec in *. clear Ec c0 core'.
    replace (core ++ q ++ k ++ Q) with ((core ++ q ++ k) ++ Q) by (rewrite !app_assoc_s; reflexivity). rewrite rstrip_pad by apply spaces_is, HQ.
    destruct k as [|c k'].
    + rewrite app_nil_r_s, rstrip_pad by apply blanks_space, Bq. rewrite (rstrip_all _ _ CS). unfold rstrip_percent. rewrite (rstrip_all _ _ CP). specialize (IT "" eq_refl). rewrite app_nil_r_s in IT. exact IT.
    + set (k := String c k') in *. assert (Kn : k <> "") by discriminate. apply percents_is in K. clearbody k. rewrite <- app_assoc_s.
      rewrite rstrip_keep; [|exact Kn|].
      * unfold rstrip_percent. rewrite rstrip_pad by exact K. rewrite rstrip_all by (rewrite all_chars_app, CP; exact BP). apply IT, Bq.
      * apply rstrip_all. revert K. apply all_chars_impl. intros d D. apply Ascii.eqb_eq in D. subst d. reflexivity.
Qed.
Lemma fdiv_ok z x : int_fdiv z 100 = Ok x <-> hundredth z x.
Proof.
  unfold int_fdiv, float_of_int, hundredth. pose proof (b64_rounded (inject_Z z)) as R. destruct (b64 (inject_Z z)) as [y|neg|] eqn:E; cbn [bindr].
  - split.
    + intros H. injection H as <-. exists y. split; [exact R|]. apply b64_rounded.
    + intros (y' & R' & X). pose proof (rounded_unique _ _ _ R R') as U. injection U as <-. f_equal. exact (rounded_unique _ _ _ (b64_rounded _) X).
  - split; [discriminate|]. intros (y' & R' & _). discriminate (rounded_unique _ _ _ R R').
  - contradiction.
Qed.
Lemma fdiv_err z e : int_fdiv z 100 = Err e <-> (e = OverflowError /\ too_large z).
Proof.
  unfold int_fdiv, float_of_int, too_large. pose proof (b64_rounded (inject_Z z)) as R. destruct (b64 (inject_Z z)) as [y|neg|] eqn:E; cbn [bindr].
  - split; [discriminate|]. intros (_ & neg & R'). discriminate (rounded_unique _ _ _ R R').
  - split; [intros H; injection H as <-; eauto|intros [-> _]; reflexivity].
  - contradiction.
Qed.
Lemma percent10_ok t v : percent10 t = Ok v <-> exists z x, percent_arg t z /\ hundredth z x /\ v = PF x.
Proof.
  unfold percent10. destruct (py_int _) as [z|e] eqn:E; cbn [bindr].
  - pose proof (proj1 (percent_ok _ _) E) as P. destruct (int_fdiv z 100) as [x|e] eqn:F; cbn [bindr].
    + apply fdiv_ok in F. split; [intros H; injection H as <-; eauto|]. intros (z' & x' & P' & H' & ->). apply percent_ok in P'. rewrite E in P'. injection P' as <-.
      apply fdiv_ok in F, H'. congruence.
    + split; [discriminate|]. intros (z' & x' & P' & H' & ->). apply percent_ok in P'. rewrite E in P'. injection P' as <-. apply fdiv_ok in H'. congruence.
  - split; [discriminate|]. intros (z' & x' & P' & _). apply percent_ok in P'. congruence.
Qed.
Lemma percent10_over t e : percent10 t = Err e -> e = ValueError \/ (e = OverflowError /\ exists z, percent_arg t z /\ too_large z).
Proof.
  unfold percent10. destruct (py_int _) as [z|e'] eqn:E; cbn [bindr].
  - destruct (int_fdiv z 100) as [x|e'] eqn:F; cbn [bindr]; [discriminate|]. intros H. injection H as <-. apply fdiv_err in F. destruct F as [-> F]. right. split; [reflexivity|]. exists z. split; [apply percent_ok, E|exact F].
  - intros H. injection H as <-. left. exact (py_int_base_err _ _ _ E).
Qed.
Lemma percent10_large t z : percent_arg t z -> too_large z -> percent10 t = Err OverflowError.
Proof. intros P L. unfold percent10. apply percent_ok in P. rewrite P. cbn [bindr]. rewrite (proj2 (fdiv_err z OverflowError) (conj eq_refl L)). reflexivity. Qed.
Lemma int10_ok t v : int10 t = Ok v <-> exists z, int_text t z /\ v = PI z.
Proof.
  unfold int10. destruct (py_int t) as [z|e] eqn:E; cbn [bindr].
  - split; [intros H; injection H as <-; exists z; split; [apply C147_int, E|reflexivity]|]. intros (z' & I & ->). apply C147_int in I. congruence.
  - split; [discriminate|]. intros (z' & I & _). apply C147_int in I. congruence.
Qed.
Lemma float10_ok t v : float10 t = Ok v <-> exists x, float_text t x /\ v = PF x.
Proof.
  unfold float10. destruct (py_float t) as [z|e] eqn:E; cbn [bindr].
  - split; [intros H; injection H as <-; exists z; split; [apply C147_float, E|reflexivity]|]. intros (z' & I & ->). apply C147_float in I. congruence.
  - split; [discriminate|]. intros (z' & I & _). apply C147_float in I. congruence.
Qed.

(** *** The arguments *)
Definition args_of (name : string) (ts : list string) : res color_t :=
  if String.eqb name "rgb" then rgb_args ts else if String.eqb name "rgba" then rgba_args ts
  else if String.eqb name "hsl" then hsl_args ts else hsla_args ts.
Lemma applied_color n name x ts y : opened name x -> commas_ok ts -> ts <> [] ->
  color n (VStr (applied name x ts y)) = match args_of name ts with Ok c => Ok (VColor (OId n) c, S n) | Err e => if is_value_error e then Err ValueError else Err e end.
Proof.
  intros O C N. unfold applied. change (String.concat "," ts) with (join "," ts).
  assert (E : x <> "a"%char -> Ascii.eqb x "a" = false) by (intros X; destruct (Ascii.eqb_spec x "a"); [contradiction|reflexivity]).
  destruct O as [[<- | [<- |[]]]|[[<- | [<- |[]]] X]].
  - rewrite color_rgba_call, (split_on_join _ N C). reflexivity.
  - rewrite color_hsla_call, (split_on_join _ N C). reflexivity.
  - rewrite (color_rgb_call _ _ _ _ (E X)), (split_on_join _ N C). reflexivity.
  - rewrite (color_hsl_call _ _ _ _ (E X)), (split_on_join _ N C). reflexivity.
Qed.
Ltac arg_ok H := match type of H with
  | context [bindr (int10 ?t) _] => let E := fresh "E" in destruct (int10 t) as [?v|?e] eqn:E; cbn [bindr] in H; [apply int10_ok in E; destruct E as (? & ? & ->)|try discriminate H]
  | context [bindr (float10 ?t) _] => let E := fresh "E" in destruct (float10 t) as [?v|?e] eqn:E; cbn [bindr] in H; [apply float10_ok in E; destruct E as (? & ? & ->)|try discriminate H]
  | context [bindr (percent10 ?t) _] => let E := fresh "E" in destruct (percent10 t) as [?v|?e] eqn:E; cbn [bindr] in H; [apply percent10_ok in E; destruct E as (? & ? & ? & ? & ->)|try discriminate H]
  end.
Lemma args_ok name ts c : In name ["rgb"; "rgba"; "hsl"; "hsla"] -> (args_of name ts = Ok c <-> denotes name ts c).
Proof.
  intros I. split.
  - destruct I as [<- |[<- |[<- |[<- |[]]]]]; cbn [args_of String.eqb Ascii.eqb Bool.eqb]; unfold args_of; cbn [String.eqb Ascii.eqb Bool.eqb].
    + unfold rgb_args. destruct ts as [|a [|b [|d [|e ts]]]]; try discriminate. intros H. repeat arg_ok H; try discriminate; injection H as <-. constructor; assumption.
    + unfold rgba_args. destruct ts as [|a [|b [|d [|e [|f ts]]]]]; try discriminate. intros H. repeat arg_ok H; try discriminate; injection H as <-. constructor; assumption.
    + unfold hsl_args. destruct ts as [|a [|b [|d [|e ts]]]]; try discriminate. intros H. repeat arg_ok H; try discriminate; injection H as <-. econstructor; eassumption.
    + unfold hsla_args. destruct ts as [|a [|b [|d [|e [|f ts]]]]]; try discriminate. intros H. repeat arg_ok H; try discriminate; injection H as <-. econstructor; eassumption.
  - intros D. destruct D as [tr tg tb r g b A B C|tr tg tb ta r g b a A B C D|th ts tl h s l x y A B C X Y|th ts tl ta h s l x y a A B C X Y D]; unfold args_of; cbn [String.eqb Ascii.eqb Bool.eqb];
      unfold rgb_args, rgba_args, hsl_args, hsla_args.
    + rewrite (proj2 (int10_ok tr _) (ex_intro _ _ (conj A eq_refl))), (proj2 (int10_ok tg _) (ex_intro _ _ (conj B eq_refl))), (proj2 (int10_ok tb _) (ex_intro _ _ (conj C eq_refl))). reflexivity.
    + rewrite (proj2 (int10_ok tr _) (ex_intro _ _ (conj A eq_refl))), (proj2 (int10_ok tg _) (ex_intro _ _ (conj B eq_refl))), (proj2 (int10_ok tb _) (ex_intro _ _ (conj C eq_refl))), (proj2 (float10_ok ta _) (ex_intro _ _ (conj D eq_refl))). reflexivity.
    + rewrite (proj2 (int10_ok th _) (ex_intro _ _ (conj A eq_refl))). cbn [bindr]. rewrite (proj2 (percent10_ok ts (PF x))) by eauto 6. cbn [bindr]. rewrite (proj2 (percent10_ok tl (PF y))) by eauto 6. reflexivity.
    + rewrite (proj2 (int10_ok th _) (ex_intro _ _ (conj A eq_refl))). cbn [bindr]. rewrite (proj2 (percent10_ok ts (PF x))) by eauto 6. cbn [bindr]. rewrite (proj2 (percent10_ok tl (PF y))) by eauto 6. cbn [bindr].
      rewrite (proj2 (float10_ok ta _) (ex_intro _ _ (conj D eq_refl))). reflexivity.
Qed.
Lemma args_over name ts : overflows name ts -> args_of name ts = Err OverflowError.
Proof.
  intros [name' th t tl rest h s F H P L|name' th t tl rest h s x l F H P X P' L].
  - assert (G : forall k, (h0 <-r int10 th;; s0 <-r percent10 t;; k h0 s0) = @Err color_t OverflowError).
    { intros k. rewrite (proj2 (int10_ok th _) (ex_intro _ _ (conj H eq_refl))). cbn [bindr]. rewrite (percent10_large _ _ P L). reflexivity. }
    destruct F as [[-> ->]|[-> F]]; [apply G|]. destruct rest as [|a [|]]; try discriminate. apply G.
  - assert (G : forall k, (h0 <-r int10 th;; s0 <-r percent10 t;; l0 <-r percent10 tl;; k h0 s0 l0) = @Err color_t OverflowError).
    { intros k. rewrite (proj2 (int10_ok th _) (ex_intro _ _ (conj H eq_refl))). cbn [bindr]. rewrite (proj2 (percent10_ok t (PF x))) by eauto 6. cbn [bindr]. rewrite (percent10_large _ _ P' L). reflexivity. }
    destruct F as [[-> ->]|[-> F]]; [apply G|]. destruct rest as [|a [|]]; try discriminate. apply G.
Qed.
Lemma args_err name ts e : In name ["rgb"; "rgba"; "hsl"; "hsla"] -> args_of name ts = Err e -> e = ValueError \/ (e = OverflowError /\ overflows name ts).
Proof.
  intros I. destruct I as [<- |[<- |[<- |[<- |[]]]]]; unfold args_of; cbn [String.eqb Ascii.eqb Bool.eqb].
  - unfold rgb_args. destruct ts as [|a [|b [|d [|f ts]]]]; try (intros H; injection H as <-; left; reflexivity). intros H.
    repeat arg_ok H; try discriminate; injection H as <-; left; eapply int10_err; eassumption.
  - unfold rgba_args. destruct ts as [|a [|b [|d [|f [|g ts]]]]]; try (intros H; injection H as <-; left; reflexivity). intros H.
    repeat arg_ok H; try discriminate; injection H as <-; left; (eapply int10_err; eassumption) || (eapply float10_err; eassumption).
  - unfold hsl_args. destruct ts as [|a [|b [|d [|f ts]]]]; try (intros H; injection H as <-; left; reflexivity). intros H.
    repeat arg_ok H; try discriminate; injection H as <-; try (left; eapply int10_err; eassumption).
    + match goal with E : percent10 d = _ |- _ => apply percent10_over in E; destruct E as [E|(E & z & P & L)] end; [left; exact E|right]. split; [exact E|]. eapply overflows_l; [left; split; reflexivity|eassumption..].
    + match goal with E : percent10 b = _ |- _ => apply percent10_over in E; destruct E as [E|(E & z & P & L)] end; [left; exact E|right]. split; [exact E|]. eapply overflows_s; [left; split; reflexivity|eassumption..].
  - unfold hsla_args. destruct ts as [|a [|b [|d [|f [|g ts]]]]]; try (intros H; injection H as <-; left; reflexivity). intros H.
    repeat arg_ok H; try discriminate; injection H as <-; try (left; first [eapply int10_err; eassumption|eapply float10_err; eassumption]);
    match goal with
    | E : percent10 d = Err ?e |- ?e = _ \/ _ => apply percent10_over in E; destruct E as [E|(E & z & P & L)]; [left; exact E|right; split; [exact E|eapply overflows_l; [right; split; reflexivity|eassumption..]]]
    | E : percent10 b = Err ?e |- ?e = _ \/ _ => apply percent10_over in E; destruct E as [E|(E & z & P & L)]; [left; exact E|right; split; [exact E|eapply overflows_s; [right; split; reflexivity|eassumption..]]]
    end.
Qed.
Lemma opened_name name x : opened name x -> In name ["rgb"; "rgba"; "hsl"; "hsla"].
Proof. intros [[<- |[<- |[]]]|[[<- |[<- |[]]] _]]; cbn; auto. Qed.
(** C160. *)
Theorem C160_accepted : forall n name x ts y, opened name x -> commas_ok ts -> ts <> [] ->
  (forall c, color n (VStr (applied name x ts y)) = Ok (VColor (OId n) c, S n) <-> denotes name ts c)
  /\ (forall r, color n (VStr (applied name x ts y)) = Ok r -> exists c, r = (VColor (OId n) c, S n)).
Proof.
  intros n name x ts y O C N. rewrite (applied_color n _ _ _ y O C N). pose proof (opened_name _ _ O) as I. split.
  - intros c. rewrite <- (args_ok name ts c I). destruct (args_of name ts) as [c'|e]; [split; intros H; [injection H as <-; reflexivity|injection H as <-; reflexivity]|]. destruct (is_value_error e); split; discriminate.
  - intros r. destruct (args_of name ts) as [c'|e]; [intros H; injection H as <-; eauto|]. destruct (is_value_error e); discriminate.
Qed.
Theorem C160_rejected : forall n name x ts y, opened name x -> commas_ok ts -> ts <> [] ->
  (color n (VStr (applied name x ts y)) = Err OverflowError <-> overflows name ts)
  /\ (color n (VStr (applied name x ts y)) = Err ValueError <-> ~ (exists c, denotes name ts c) /\ ~ overflows name ts).
Proof.
  intros n name x ts y O C N. rewrite (applied_color n _ _ _ y O C N). pose proof (opened_name _ _ O) as I.
  destruct (args_of name ts) as [c|e] eqn:E.
  - apply (args_ok _ _ _ I) in E as E'. split; split; try discriminate; [intros V; rewrite (args_over _ _ V) in E; discriminate|]. intros [V _]. contradiction V. eauto.
  - assert (ND : ~ exists c, denotes name ts c) by (intros (c & D); apply (args_ok _ _ _ I) in D; congruence).
    destruct (args_err _ _ _ I E) as [-> | [-> V]]; cbn [is_value_error].
    + split; split; try discriminate; [intros V; rewrite (args_over _ _ V) in E; discriminate| |reflexivity]. intros _. split; [exact ND|]. intros V. rewrite (args_over _ _ V) in E. discriminate.
    + split; split; try discriminate; [intros _; exact V|reflexivity|]. intros [_ X]. contradiction.
Qed.
(** Texts too short to have both delimiters. *)
Theorem C160_short : forall n name t, In name ["rgb"; "rgba"; "hsl"; "hsla"] -> (String.length t <= 1)%nat -> color n (VStr (name ++ t)) = Err ValueError.
Proof.
  intros n name t I L. destruct t as [|c [|]]; [| |cbn in L; lia]; destruct I as [<- |[<- |[<- |[<- |[]]]]]; try (vm_compute; reflexivity);
  clear L; destruct c as [[] [] [] [] [] [] [] []]; vm_compute; reflexivity.
Qed.
Print Assumptions C160_accepted.
Print Assumptions C160_rejected.
Print Assumptions C160_short.

(** ** Examples *)
(** Blanks, signs, underscores, no or several percent signs, any number as
    alpha, any delimiters. *)
Example C160_rgba_example : opened "rgba" "[" /\ commas_ok [" -1"; "+2_5"; "300 "; "1e1"]
  /\ denotes "rgba" [" -1"; "+2_5"; "300 "; "1e1"] (Rgb (PI (-1)) (PI 25) (PI 300) (PF (Fin (Z2Qc 10))))
  /\ applied "rgba" "[" [" -1"; "+2_5"; "300 "; "1e1"] "]" = "rgba[ -1,+2_5,300 ,1e1]".
Proof.
  split; [left; left; reflexivity|]. split; [repeat constructor|]. split; [|reflexivity]. apply denotes_rgba; try (apply C147_int; vm_compute; reflexivity).
  apply C147_float. vm_compute. do 2 f_equal. apply Qc_is_canon. reflexivity.
Qed.
Example C160_hsl_example : opened "hsl" "(" /\ commas_ok ["120"; " 50 %% "; "25"]
  /\ percent_arg " 50 %% " 50 /\ hundredth 50 (Fin (qfrac 1 2))
  /\ denotes "hsl" ["120"; " 50 %% "; "25"] (Hsl (PI 120) (PF (Fin (qfrac 1 2))) (PF (Fin (qfrac 1 4))) full_alpha).
Proof.
  assert (P1 : percent_arg " 50 %% " 50) by (apply percent_ok; vm_compute; reflexivity).
  assert (P2 : percent_arg "25" 25) by (apply percent_ok; vm_compute; reflexivity).
  assert (H1 : hundredth 50 (Fin (qfrac 1 2))) by (apply fdiv_ok; vm_compute; do 2 f_equal; apply Qc_is_canon; reflexivity).
  assert (H2 : hundredth 25 (Fin (qfrac 1 4))) by (apply fdiv_ok; vm_compute; do 2 f_equal; apply Qc_is_canon; reflexivity).
  split; [right; split; [right; left; reflexivity|discriminate]|]. split; [repeat constructor|]. split; [exact P1|]. split; [exact H1|].
  eapply denotes_hsl; [apply C147_int; vm_compute; reflexivity|eassumption..].
Qed.
(** A percentage of 309 nines. *)
Definition nines (k : nat) : string := string_of_list_ascii (repeat "9"%char k).
Example C160_overflow_example : overflows "hsl" ["0"; nines 309; "x"] /\ color 0 (VStr (call "hsl" ["0"; nines 309; "x"])) = Err OverflowError
  /\ color 0 (VStr (call "hsl" ["x"; nines 309; "0"])) = Err ValueError.
Proof.
  split; [|split; vm_compute; reflexivity]. eapply overflows_s; [left; split; reflexivity|apply C147_int; vm_compute; reflexivity|apply percent_ok; vm_compute; reflexivity|].
  eapply (proj1 (fdiv_err _ OverflowError)). vm_compute. reflexivity.
Qed.
