(** * C173: colour conversion with Python's arithmetic *)
From Coq Require Import ZArith QArith Qcanon Qabs Qround Bool String Ascii List Lqa Lia.
From Verif Require Import PyNum NumFacts Float64 TextFacts FloatFacts ReadProps Units UnitsFacts FloatUnits FloatUnitsFacts ClassProps AngleProps Colors ColorSpec ColorFacts ColorProps PyStr StrFacts Values Parser ParserSpec ReadSpec FuncSpec FuncProps HslFloat HslFloatSpec.
Import ListNotations.
Open Scope string_scope.
Open Scope Z_scope.

(** *** Absolute errors *)
Definition ulp : Q := 1 # 9007199254740992.
Lemma ulp_pos : (0 < ulp)%Q. Proof. reflexivity. Qed.
Lemma ulp_small : (ulp <= 1 # 9007199254740992)%Q. Proof. apply Qle_refl. Qed.
Definition within (e a b : Q) : Prop := (- e <= a - b /\ a - b <= e)%Q.
Lemma within_abs e a b : (Qabs (a - b) <= e)%Q <-> within e a b.
Proof. apply Qabs_Qle_condition. Qed.
Lemma b64_abs M q : (1 <= M)%Q -> (M <= qpow2 1000)%Q -> (- M <= q /\ q <= M)%Q -> exists r, b64 q = Fin r /\ within (M * ulp) (this r) q.
Proof.
  intros M1 M2 B. assert (A : (Qabs q <= M)%Q) by (apply Qabs_Qle_condition; exact B).
  assert (P : (qpow2 1000 < qpow2 1022)%Q) by (vm_compute; reflexivity).
  destruct (Qlt_le_dec (Qabs q) (qpow2 (-1022))) as [S|S].
  - pose proof (b64_rounded q) as R. pose proof (b64_not_nan q) as NN. destruct (b64 q) as [r|s|] eqn:E; [|exfalso|congruence].
    + exists r. split; [reflexivity|]. apply within_abs. apply (Qle_trans _ (Qabs (0 - q))).
      * apply (b64_nearest_fin q r E). exists 0, 0. repeat split; lia.
      * assert (X : (Qabs (0 - q) == Qabs q)%Q) by (rewrite <- Qabs_opp; apply Qabs_wd; ring). rewrite X. apply (Qle_trans _ (qpow2 (-1022))); [apply Qlt_le_weak, S|].
        apply (Qle_trans _ ulp); [vm_compute; discriminate|]. pose proof ulp_pos. clear -M1 H. generalize dependent ulp. intros u U. nra.
    + cbn in R. destruct R as [R _]. apply (Qlt_not_le _ _ S). apply (Qle_trans _ (2 ^ 1024 - 2 ^ 970)%Q); [vm_compute; discriminate|]. revert R. clear. intros R. exact R.
  - destruct (b64_error q S) as (r & E & D). { apply (Qle_lt_trans _ _ _ A). apply (Qle_lt_trans _ _ _ M2 P). }
    exists r. split; [exact E|]. apply within_abs. apply (Qle_trans _ _ _ D). change (qpow2 (-53)) with ulp. rewrite (Qmult_comm M). apply Qmult_le_l; [reflexivity|exact A].
Qed.
Lemma within_eq e a b c : (b == c)%Q -> within e a b -> within e a c.
Proof. intros E [A B]. rewrite E in A, B. split; assumption. Qed.
Definition bounded (M a : Q) : Prop := (- M <= a /\ a <= M)%Q.
Lemma add_abs M a b x y : (1 <= M)%Q -> (M <= qpow2 1000)%Q -> to_float a = Ok (Fin x) -> b = PF (Fin y) -> bounded M (this x + this y) ->
  exists r, fadd a b = Ok (PF (Fin r)) /\ within (M * ulp) (this r) (this x + this y).
Proof.
  intros M1 M2 A -> B. unfold fadd. destruct (b64_abs M (this (x + y)%Qc) M1 M2) as (r & R & W); [rewrite this_add; exact B|]. exists r.
  split; [|apply (within_eq _ _ _ _ (this_add x y) W)]. destruct a; rewrite A; cbn [to_float bindr xadd rnd]; rewrite R; reflexivity.
Qed.
Lemma sub_abs M a b x y : (1 <= M)%Q -> (M <= qpow2 1000)%Q -> to_float a = Ok (Fin x) -> b = PF (Fin y) -> bounded M (this x - this y) ->
  exists r, fsub a b = Ok (PF (Fin r)) /\ within (M * ulp) (this r) (this x - this y).
Proof.
  intros M1 M2 A -> B. unfold fsub. assert (E : (this (x + - y)%Qc == this x - this y)%Q) by (rewrite this_add, this_opp; reflexivity).
  destruct (b64_abs M (this (x + - y)%Qc) M1 M2) as (r & R & W); [rewrite E; exact B|]. exists r.
  split; [|apply (within_eq _ _ _ _ E W)]. destruct a; rewrite A; cbn [to_float bindr xadd FloatUnits.xneg rnd]; rewrite R; reflexivity.
Qed.
Lemma mul_abs M a b x y : (1 <= M)%Q -> (M <= qpow2 1000)%Q -> to_float a = Ok (Fin x) -> to_float b = Ok (Fin y) -> (exists z, a = PF z) \/ (exists z, b = PF z) -> bounded M (this x * this y) ->
  exists r, fmul a b = Ok (PF (Fin r)) /\ within (M * ulp) (this r) (this x * this y).
Proof.
  intros M1 M2 A B F BD. unfold fmul. destruct (b64_abs M (this (x * y)%Qc) M1 M2) as (r & R & W); [rewrite this_mul; exact BD|]. exists r.
  split; [|apply (within_eq _ _ _ _ (this_mul x y) W)]. destruct a, b; try (destruct F as [[? F]|[? F]]; discriminate); rewrite A, ?B; cbn [to_float bindr] in *; try (injection A as ->); try (injection B as ->); rewrite ?B; cbn [bindr xmul rnd]; rewrite R; reflexivity.
Qed.
Lemma abs_this q : (this (qabs q) == Qabs (this q))%Q.
Proof.
  unfold qabs. destruct (qc_ltb_spec q 0) as [H|H]; [rewrite this_opp, Qabs_neg; [reflexivity|]|rewrite Qabs_pos; [reflexivity|]]; unfold Qclt, Qcle in *; change (this 0%Qc) with 0%Q in *; lra.
Qed.
Lemma prod_within A B a b x y e f : (0 <= A)%Q -> bounded A b -> bounded B x -> within e a x -> within f b y -> within (A * e + B * f) (a * b) (x * y).
Proof.
  intros A0 Hb Hx Ha Hy. apply within_abs in Ha, Hy. apply Qabs_Qle_condition in Hb, Hx. apply within_abs.
  assert (E : (a * b - x * y == (a - x) * b + x * (b - y))%Q) by ring. rewrite E. apply (Qle_trans _ _ _ (Qabs_triangle _ _)). rewrite !Qabs_Qmult.
  assert (Qabs (a - x) * Qabs b <= A * e)%Q.
  { rewrite Qmult_comm. apply (Qle_trans _ (A * Qabs (a - x))); [apply Qmult_le_compat_r; [exact Hb|apply Qabs_nonneg]|]. rewrite !(Qmult_comm A). apply Qmult_le_compat_r; assumption. }
  assert (Qabs x * Qabs (b - y) <= B * f)%Q.
  { apply (Qle_trans _ (B * Qabs (b - y))); [apply Qmult_le_compat_r; [exact Hx|apply Qabs_nonneg]|]. rewrite !(Qmult_comm B). apply Qmult_le_compat_r; [exact Hy|]. apply (Qle_trans _ _ _ (Qabs_nonneg x) Hx). }
  lra.
Qed.
Lemma abs_within e a b : within e a b -> within e (Qabs a) (Qabs b).
Proof. intros [A B]. apply (Qabs_case a); intros; apply (Qabs_case b); intros; split; lra. Qed.

(** *** The chroma, the second component and the offset *)
Definition chroma (s l : Q) : Q := (1 - Qabs (2 * l - 1)) * s.
Lemma chroma_range s l : (0 <= s /\ s <= 1)%Q -> (0 <= l /\ l <= 1)%Q -> (0 <= chroma s l /\ chroma s l <= 1 /\ chroma s l <= 2 * l /\ chroma s l <= 2 - 2 * l)%Q.
Proof.
  intros [S0 S1] [L0 L1]. unfold chroma. assert (K : (0 <= 1 - Qabs (2 * l - 1) /\ 1 - Qabs (2 * l - 1) <= 2 * l /\ 1 - Qabs (2 * l - 1) <= 2 - 2 * l)%Q) by (apply (Qabs_case (2 * l - 1)); intros; lra).
  set (k := (1 - Qabs (2 * l - 1))%Q) in *. clearbody k. destruct K as (K0 & K1 & K2). assert (k * s <= k)%Q by nra. assert (0 <= k * s)%Q by nra. lra.
Qed.
Lemma parts_chroma s l fs fl xs xl : (0 <= s /\ s <= 1)%Q -> (0 <= l /\ l <= 1)%Q ->
  to_float fs = Ok (Fin xs) -> to_float fl = Ok (Fin xl) -> within ulp (this xs) s -> within ulp (this xl) l ->
  exists l2 l21 k c, fmul (lit (Z2Qc 2)) fl = Ok l2 /\ fsub l2 (lit 1) = Ok l21 /\ fsub (lit 1) (py_abs l21) = Ok k /\ fmul k fs = Ok (PF (Fin c))
    /\ within (16 * ulp) (this c) (chroma s l).
Proof.
  intros S L Fs Fl Ws Wl. pose proof ulp_pos as U0. pose proof ulp_small as U1.
  destruct (mul_abs 3 (lit (Z2Qc 2)) fl (Z2Qc 2) xl) as (l2 & E1 & W1); [lra|vm_compute; discriminate|reflexivity|exact Fl|left; eexists; reflexivity| |].
  { unfold bounded, within in *. rewrite this_Z2Qc. change (inject_Z 2) with 2%Q. lra. }
  unfold within in W1. rewrite this_Z2Qc in W1. change (inject_Z 2) with 2%Q in W1.
  destruct (sub_abs 2 (PF (Fin l2)) (lit 1) l2 1) as (l21 & E2 & W2); [lra|vm_compute; discriminate|reflexivity|reflexivity| |].
  { change (this 1%Qc) with 1%Q. unfold bounded, within in *. lra. }
  change (this 1%Qc) with 1%Q in W2.
  assert (W3 : within (7 * ulp) (this l21) (2 * l - 1)) by (unfold within in *; lra). apply abs_within in W3.
  assert (AB : (0 <= Qabs (2 * l - 1) /\ Qabs (2 * l - 1) <= 1)%Q) by (apply (Qabs_case (2 * l - 1)); intros; lra).
  pose proof (abs_this l21) as AT.
  destruct (sub_abs 2 (lit 1) (PF (Fin (qabs l21))) 1 (qabs l21)) as (k & E3 & W4); [lra|vm_compute; discriminate|reflexivity|reflexivity| |].
  { change (this 1%Qc) with 1%Q. unfold bounded, within in *. lra. }
  change (this 1%Qc) with 1%Q in W4. assert (W5 : within (9 * ulp) (this k) (1 - Qabs (2 * l - 1))) by (unfold within in *; lra).
  assert (W6 : within (13 * ulp) (this k * this xs) (chroma s l)).
  { pose proof (prod_within (1 + ulp) 1 (this k) (this xs) (1 - Qabs (2 * l - 1)) s (9 * ulp) ulp) as P. unfold chroma.
    assert (Q : within ((1 + ulp) * (9 * ulp) + 1 * ulp) (this k * this xs) ((1 - Qabs (2 * l - 1)) * s)) by (apply P; unfold bounded, within in *; lra).
    assert (ulp * ulp <= (1 # 10) * ulp)%Q by (apply Qmult_le_compat_r; lra). unfold within in *. lra. }
  pose proof (chroma_range s l S L) as C.
  destruct (mul_abs 2 (PF (Fin k)) fs k xs) as (c & E4 & W7); [lra|vm_compute; discriminate|reflexivity|exact Fs|left; eexists; reflexivity| |].
  { unfold bounded, within in *. lra. }
  exists (PF (Fin l2)), (PF (Fin l21)), (PF (Fin k)), c. split; [exact E1|]. split; [exact E2|]. split; [exact E3|]. split; [exact E4|]. unfold within in *. lra.
Qed.

(** *** The distance to the nearest even number *)
Definition tri (q : Qc) : Q := 1 - Qabs (this (qmod2 q) - 1).
Lemma qmod2_spec q : exists f : Z, (this (qmod2 q) == this q - 2 * inject_Z f)%Q /\ (0 <= this (qmod2 q))%Q /\ (this (qmod2 q) < 2)%Q.
Proof.
  destruct (qmod2_range q) as [A B]. exists (Qfloor (this (q / Z2Qc 2)%Qc)). split.
  - unfold qmod2. rewrite this_sub, this_mul, !this_Z2Qc. reflexivity.
  - unfold Qcle, Qclt in A, B. rewrite this_Z2Qc in B. change (this 0%Qc) with 0%Q in A. change (inject_Z 2) with 2%Q in B. auto.
Qed.
Lemma qmod2_unique q f : (0 <= this q - 2 * inject_Z f)%Q -> (this q - 2 * inject_Z f < 2)%Q -> (this (qmod2 q) == this q - 2 * inject_Z f)%Q.
Proof.
  intros A B. unfold qmod2. rewrite this_sub, this_mul, !this_Z2Qc. assert (Qfloor (this (q / Z2Qc 2)%Qc) = f) as ->; [|reflexivity].
  apply Qfloor_unique. rewrite this_div, this_Z2Qc. unfold Qdiv. change (/ inject_Z 2)%Q with (1 # 2)%Q. lra.
Qed.
Lemma tri_range q : (0 <= tri q /\ tri q <= 1)%Q.
Proof. destruct (qmod2_spec q) as (f & _ & A & B). unfold tri. apply (Qabs_case (this (qmod2 q) - 1)); intros; lra. Qed.
Lemma tri_le q k : (tri q <= Qabs (this q - 2 * inject_Z k))%Q.
Proof.
  destruct (qmod2_spec q) as (f & E & A & B). unfold tri. set (m := this (qmod2 q)) in *. clearbody m.
  assert (T : (1 - Qabs (m - 1) <= m /\ 1 - Qabs (m - 1) <= 2 - m)%Q) by (apply (Qabs_case (m - 1)); intros; lra).
  destruct (Z_le_gt_dec k f) as [H|H].
  - assert (inject_Z k <= inject_Z f)%Q by (rewrite <- Zle_Qle; exact H). apply (Qabs_case (this q - 2 * inject_Z k)); intros; lra.
  - assert (inject_Z (f + 1) <= inject_Z k)%Q by (rewrite <- Zle_Qle; lia). rewrite inject_Z_plus in H0. change (inject_Z 1) with 1%Q in H0. apply (Qabs_case (this q - 2 * inject_Z k)); intros; lra.
Qed.
Lemma tri_eq q : exists k, (tri q == Qabs (this q - 2 * inject_Z k))%Q.
Proof.
  destruct (qmod2_spec q) as (f & E & A & B). unfold tri. set (m := this (qmod2 q)) in *. clearbody m.
  destruct (Qlt_le_dec m 1) as [H|H].
  - exists f. rewrite (Qabs_neg (m - 1)), Qabs_pos by lra. lra.
  - exists (f + 1). rewrite (Qabs_pos (m - 1)) by lra. rewrite inject_Z_plus. change (inject_Z 1) with 1%Q. rewrite Qabs_neg by lra. lra.
Qed.
Lemma tri_lipschitz a b e : within e (this a) (this b) -> within e (tri a) (tri b).
Proof.
  intros W. destruct (tri_eq a) as [i I], (tri_eq b) as [j J]. pose proof (tri_le a j) as A. pose proof (tri_le b i) as B. unfold within in *. split.
  - assert (Qabs (this b - 2 * inject_Z i) <= Qabs (this a - 2 * inject_Z i) + e)%Q; [|lra].
    clear -W. apply (Qabs_case (this b - 2 * inject_Z i)); intros; apply (Qabs_case (this a - 2 * inject_Z i)); intros; lra.
  - assert (Qabs (this a - 2 * inject_Z j) <= Qabs (this b - 2 * inject_Z j) + e)%Q; [|lra].
    clear -W. apply (Qabs_case (this b - 2 * inject_Z j)); intros; apply (Qabs_case (this a - 2 * inject_Z j)); intros; lra.
Qed.
Lemma trunc_floor p : (0 <= p)%Q -> trunc_q p = Qfloor p.
Proof. destruct p as [n d]. unfold Qle, trunc_q, Qfloor. cbn. intros H. apply Z.quot_div_nonneg; lia. Qed.
Lemma mod2_near q : exists r, x_mod2 (Fin q) = Fin r /\ within (2 * ulp) (this r) (this (qmod2 q)) .
Proof.
  unfold x_mod2. set (r := (q - Z2Qc 2 * Z2Qc (trunc_q (this (q / Z2Qc 2)%Qc)))%Qc). pose proof ulp_pos as U.
  assert (D : (this (q / Z2Qc 2)%Qc == this q * (1 # 2))%Q) by (rewrite this_div, this_Z2Qc; reflexivity).
  assert (R : (this r == this q - 2 * inject_Z (trunc_q (this (q / Z2Qc 2)%Qc)))%Q) by (unfold r; rewrite this_sub, this_mul, !this_Z2Qc; reflexivity).
  clearbody r. rewrite (trunc_eq _ _ D) in R. destruct (Qlt_le_dec (this q) 0) as [N|N].
  - assert (T : trunc_q (this q * (1 # 2)) = - Qfloor (- (this q * (1 # 2)))).
    { rewrite <- (trunc_floor (- (this q * (1 # 2)))) by lra. rewrite trunc_opp. lia. }
    rewrite T, inject_Z_opp in R. pose proof (Qfloor_bounds (- (this q * (1 # 2)))) as B. set (f := Qfloor _) in *. clearbody f.
    destruct (qc_ltb_spec r 0) as [L|L].
    + unfold Qclt in L. change (this 0%Qc) with 0%Q in L. assert (E : (this (qmod2 q) == this q - 2 * inject_Z (- f - 1))%Q).
      { apply qmod2_unique; unfold Z.sub; rewrite inject_Z_plus, !inject_Z_opp; change (inject_Z 1) with 1%Q; lra. }
      unfold Z.sub in E. rewrite inject_Z_plus, !inject_Z_opp in E. change (inject_Z 1) with 1%Q in E. cbn [xadd rnd].
      assert (S : (this (r + Z2Qc 2)%Qc == this (qmod2 q))%Q) by (rewrite this_add, this_Z2Qc; change (inject_Z 2) with 2%Q; lra).
      destruct (b64_abs 2 (this (r + Z2Qc 2)%Qc)) as (x & X & W); [lra|vm_compute; discriminate|rewrite S; destruct (qmod2_spec q) as (_ & _ & ?); lra|].
      exists x. split; [exact X|]. apply (within_eq _ _ _ _ S W).
    + apply Qcnot_lt_le in L. unfold Qcle in L. change (this 0%Qc) with 0%Q in L. exists r. split; [reflexivity|]. assert (E : (this (qmod2 q) == this q - 2 * inject_Z (- f))%Q) by (apply qmod2_unique; rewrite inject_Z_opp; lra).
      rewrite inject_Z_opp in E. unfold within. lra.
  - rewrite (trunc_floor (this q * (1 # 2))) in R by lra. pose proof (Qfloor_bounds (this q * (1 # 2))) as B. set (f := Qfloor _) in *. clearbody f.
    assert (E : (this (qmod2 q) == this q - 2 * inject_Z f)%Q) by (apply qmod2_unique; lra).
    destruct (qc_ltb_spec r 0) as [L|L]; [|apply Qcnot_lt_le in L]; unfold Qclt, Qcle in L; change (this 0%Qc) with 0%Q in L; [exfalso; lra|]. exists r. split; [reflexivity|]. unfold within. lra.
Qed.
Lemma parts_tri q : exists h1 t, fsub (py_mod2 (PF (Fin q))) (lit 1) = Ok h1 /\ fsub (lit 1) (py_abs h1) = Ok (PF (Fin t)) /\ within (8 * ulp) (this t) (tri q).
Proof.
  pose proof ulp_pos as U0. pose proof ulp_small as U1. destruct (mod2_near q) as (r & R & W). destruct (qmod2_spec q) as (_ & _ & A & B). unfold py_mod2. cbn [pval]. rewrite R.
  destruct (sub_abs 2 (PF (Fin r)) (lit 1) r 1) as (h1 & E1 & W1); [lra|vm_compute; discriminate|reflexivity|reflexivity|change (this 1%Qc) with 1%Q; unfold bounded, within in *; lra|].
  change (this 1%Qc) with 1%Q in W1. assert (W2 : within (4 * ulp) (this h1) (this (qmod2 q) - 1)) by (unfold within in *; lra). apply abs_within in W2. pose proof (tri_range q) as T. unfold tri in *. pose proof (abs_this h1) as AT.
  destruct (sub_abs 2 (lit 1) (PF (Fin (qabs h1))) 1 (qabs h1)) as (t & E2 & W3); [lra|vm_compute; discriminate|reflexivity|reflexivity|change (this 1%Qc) with 1%Q; unfold bounded, within in *; lra|].
  change (this 1%Qc) with 1%Q in W3. exists (PF (Fin h1)), t. split; [exact E1|]. split; [exact E2|]. unfold within in *. lra.
Qed.

(** *** All parts *)
Lemma hsl_parts_near s l t tau fh fs fl xs xl q : (0 <= s /\ s <= 1)%Q -> (0 <= l /\ l <= 1)%Q ->
  to_float fs = Ok (Fin xs) -> to_float fl = Ok (Fin xl) -> within ulp (this xs) s -> within ulp (this xl) l ->
  fdiv_float fh 60 = Ok (PF (Fin q)) -> (0 <= t /\ t <= 1)%Q -> within tau (tri q) t -> (0 <= tau /\ tau <= 1 # 100)%Q ->
  exists c x m, hsl_parts fh fs fl = Ok (PF (Fin c), PF (Fin q), PF (Fin x), PF (Fin m))
    /\ within (16 * ulp) (this c) (chroma s l) /\ within (42 * ulp + tau) (this x) (chroma s l * t) /\ within (12 * ulp) (this m) (l - (1 # 2) * chroma s l).
Proof.
  intros S L Fs Fl Ws Wl D T WT B. pose proof ulp_pos as U0. pose proof ulp_small as U1. pose proof (chroma_range s l S L) as C.
  destruct (parts_chroma s l fs fl xs xl S L Fs Fl Ws Wl) as (l2 & l21 & k & c & E1 & E2 & E3 & E4 & WC).
  destruct (parts_tri q) as (h1 & tf & E5 & E6 & WF). pose proof (tri_range q) as TR.
  assert (WP : within (40 * ulp + tau) (this c * this tf) (chroma s l * t)).
  { assert (X : within (2 * (16 * ulp) + 1 * (8 * ulp + tau)) (this c * this tf) (chroma s l * t)) by (apply prod_within; unfold bounded, within in *; lra). unfold within in *. lra. }
  assert (CT : (0 <= chroma s l * t /\ chroma s l * t <= 1)%Q) by (set (w := chroma s l) in *; clearbody w; clear -C T; nra).
  destruct (mul_abs 2 (PF (Fin c)) (PF (Fin tf)) c tf) as (x & E7 & WX); [lra|vm_compute; discriminate|reflexivity|reflexivity|left; eexists; reflexivity|unfold bounded, within in *; lra|].
  assert (HF : (this (qfrac 1 2) == 1 # 2)%Q) by (apply this_qfrac).
  destruct (mul_abs 1 (lit (qfrac 1 2)) (PF (Fin c)) (qfrac 1 2) c) as (hf & E8 & WH); [lra|vm_compute; discriminate|reflexivity|reflexivity|left; eexists; reflexivity|unfold bounded, within in *; rewrite HF; lra|].
  unfold within in WH. rewrite HF in WH.
  destruct (sub_abs 2 fl (PF (Fin hf)) xl hf) as (m & E9 & WM); [lra|vm_compute; discriminate|exact Fl|reflexivity|unfold bounded, within in *; lra|].
  exists c, x, m. split.
  - unfold hsl_parts. rewrite E1. cbn [bindr]. rewrite E2. cbn [bindr]. rewrite E3. cbn [bindr]. rewrite E4. cbn [bindr]. rewrite D. cbn [bindr]. rewrite E5. cbn [bindr]. rewrite E6. cbn [bindr].
    rewrite E7. cbn [bindr]. rewrite E8. cbn [bindr]. rewrite E9. reflexivity.
  - unfold within in *. split; [lra|]. split; lra.
Qed.
Lemma byte_near e r x : within e (this r) x -> (0 <= x /\ x <= 1)%Q -> (0 <= e /\ e <= 1 # 1000)%Q ->
  exists n, to_byte_f (PF (Fin r)) = Ok n /\ 0 <= n <= 255 /\ within ((1 # 2) + 255 * e + 256 * ulp) (inject_Z n) (255 * x).
Proof.
  intros W X E. pose proof ulp_pos as U0. pose proof ulp_small as U1. unfold to_byte_f.
  assert (Z5 : (this (Z2Qc 255) == 255)%Q) by (rewrite this_Z2Qc; reflexivity).
  destruct (mul_abs 256 (PF (Fin r)) (PI 255) r (Z2Qc 255)) as (v & V & WV); [lra|vm_compute; discriminate|reflexivity|cbn [to_float]; unfold float_of_int; rewrite (b64_exact 255); [reflexivity|apply double_small; lia]|left; eexists; reflexivity|unfold bounded, within in *; rewrite Z5; lra|].
  unfold within in WV. rewrite Z5 in WV. rewrite V. cbn [bindr fround xround]. pose proof (rhe_near (this v)) as N. set (n := round_half_even (this v)) in *. clearbody n. exists n. split; [reflexivity|].
  assert (W2 : within ((1 # 2) + 255 * e + 256 * ulp) (inject_Z n) (255 * x)) by (unfold within in *; lra). split; [|exact W2]. unfold within in W2.
  assert (A : (inject_Z (-1) < inject_Z n)%Q) by (change (inject_Z (-1)) with (-1)%Q; lra). assert (B : (inject_Z n < inject_Z 256)%Q) by (change (inject_Z 256) with 256%Q; lra).
  rewrite <- Zlt_Qlt in A, B. lia.
Qed.
(** The fractions as the code chooses them. *)
Definition chosen (h : Qc) (c x m : Q) : Q * Q * Q :=
  if qc_ltb h 1 then (c + m, x + m, m)%Q
  else if qc_ltb h (Z2Qc 2) then (x + m, c + m, m)%Q
  else if qc_ltb h (Z2Qc 3) then (m, c + m, x + m)%Q
  else if qc_ltb h (Z2Qc 4) then (m, x + m, c + m)%Q
  else if qc_ltb h (Z2Qc 5) then (m, x + m, c + m)%Q
  else (c + m, m, x + m)%Q.
Lemma rgb_near s l t tau fh fs fl a xs xl q : (0 <= s /\ s <= 1)%Q -> (0 <= l /\ l <= 1)%Q ->
  to_float fs = Ok (Fin xs) -> to_float fl = Ok (Fin xl) -> within ulp (this xs) s -> within ulp (this xl) l ->
  fdiv_float fh 60 = Ok (PF (Fin q)) -> (0 <= t /\ t <= 1)%Q -> within tau (tri q) t -> (0 <= tau /\ tau <= 1 # 100000)%Q ->
  exists r g b, color_rgb_f (Hsl fh fs fl a) = Ok (Rgb (PI r) (PI g) (PI b) a) /\ (0 <= r <= 255 /\ 0 <= g <= 255 /\ 0 <= b <= 255) /\
    let '(fr, fg, fb) := chosen q (chroma s l) (chroma s l * t) (l - (1 # 2) * chroma s l) in
    let e := ((1 # 2) + 15000 * ulp + 255 * tau)%Q in
    within e (inject_Z r) (255 * fr) /\ within e (inject_Z g) (255 * fg) /\ within e (inject_Z b) (255 * fb).
Proof.
  intros S L Fs Fl Ws Wl D T WT B. pose proof ulp_pos as U0. pose proof ulp_small as U1. pose proof (chroma_range s l S L) as C.
  destruct (hsl_parts_near s l t tau fh fs fl xs xl q S L Fs Fl Ws Wl D T WT) as (c & x & m & P & WC & WX & WM); [lra|].
  assert (CT : (0 <= chroma s l * t /\ chroma s l * t <= chroma s l)%Q) by (set (w := chroma s l) in *; clearbody w; clear -C T; nra).
  unfold color_rgb_f. rewrite P. cbn [bindr]. unfold hsl_choice.
  set (xt := (chroma s l * t)%Q) in *. set (ch := chroma s l) in *. clearbody xt ch. set (mm := (l - (1 # 2) * ch)%Q) in *.
  assert (M0 : (0 <= mm /\ mm <= 1 /\ 0 <= ch + mm /\ ch + mm <= 1 /\ 0 <= xt + mm /\ xt + mm <= 1)%Q) by (unfold mm; lra). clearbody mm. clear C.
  destruct (add_abs 2 (PF (Fin c)) (PF (Fin m)) c m) as (cm & E1 & W1); [lra|vm_compute; discriminate|reflexivity|reflexivity|unfold bounded, within in *; lra|].
  destruct (add_abs 2 (PF (Fin x)) (PF (Fin m)) x m) as (xm & E2 & W2); [lra|vm_compute; discriminate|reflexivity|reflexivity|unfold bounded, within in *; lra|].
  rewrite E1. cbn [bindr]. rewrite E2. cbn [bindr]. unfold py_below. cbn [pval xltb].
  destruct (byte_near (30 * ulp) cm (ch + mm)) as (nc & B1 & R1 & V1); [unfold within in *; lra|lra|lra|].
  destruct (byte_near (56 * ulp + tau) xm (xt + mm)) as (nx & B2 & R2 & V2); [unfold within in *; lra|lra|lra|].
  destruct (byte_near (12 * ulp) m mm) as (nm & B3 & R3 & V3); [unfold within in *; lra|lra|lra|].
  assert (V1' : within ((1 # 2) + 15000 * ulp + 255 * tau) (inject_Z nc) (255 * (ch + mm))) by (unfold within in *; lra).
  assert (V2' : within ((1 # 2) + 15000 * ulp + 255 * tau) (inject_Z nx) (255 * (xt + mm))) by (unfold within in *; lra).
  assert (V3' : within ((1 # 2) + 15000 * ulp + 255 * tau) (inject_Z nm) (255 * mm)) by (unfold within in *; lra).
  clear V1 V2 V3 W1 W2 WC WX WM. unfold chosen.
  destruct (qc_ltb q 1); [|destruct (qc_ltb q (Z2Qc 2)); [|destruct (qc_ltb q (Z2Qc 3)); [|destruct (qc_ltb q (Z2Qc 4)); [|destruct (qc_ltb q (Z2Qc 5))]]]];
    rewrite ?B1, ?B2, ?B3; cbn [bindr]; rewrite ?B1, ?B2, ?B3; cbn [bindr]; rewrite ?B1, ?B2, ?B3; cbn [bindr]; do 3 eexists; (split; [reflexivity|]); (split; [repeat split; tauto|]); cbv zeta beta iota; auto.
Qed.

(** *** The CSS fractions *)
Lemma fractions_css hue s l : (0 <= hue)%Qc -> (hue <= Z2Qc 360)%Qc -> unit_interval s -> unit_interval l -> hsl_fractions hue s l = css_fractions hue s l.
Proof.
  intros H0 H1 S L. unfold css_fractions. destruct (sixty hue) as (H & E60 & E360 & E). rewrite (fractions_sector hue s l H) by (try exact E60; rewrite E in *; qcl).
  rewrite (css_as_sector hue s l H S L E360).
  assert (qc_ltb (Z2Qc 240) hue = qc_ltb (Z2Qc 4) H) as -> by (destruct (qc_ltb_spec (Z2Qc 4) H) as [X|X%not_lt]; [apply qc_ltb_true|apply qc_ltb_false]; rewrite E in *; qcl).
  assert (qc_ltb hue (Z2Qc 300) = qc_ltb H (Z2Qc 5)) as -> by (destruct (qc_ltb_spec H (Z2Qc 5)) as [X|X%not_lt]; [apply qc_ltb_true|apply qc_ltb_false]; rewrite E in *; qcl).
  destruct (sector _ _ _) as [[r g] b]. reflexivity.
Qed.
Lemma fractions_chosen hue s l : let '(r, g, b) := hsl_fractions hue s l in
  let '(fr, fg, fb) := chosen (hue / Z2Qc 60) (chroma (this s) (this l)) (chroma (this s) (this l) * tri (hue / Z2Qc 60)) (this l - (1 # 2) * chroma (this s) (this l)) in
  (this r == fr /\ this g == fg /\ this b == fb)%Q.
Proof.
  unfold hsl_fractions, chosen. set (H := (hue / Z2Qc 60)%Qc).
  set (c := ((1 - qabs (Z2Qc 2 * l - 1)) * s)%Qc). assert (C : (this c == chroma (this s) (this l))%Q).
  { unfold c, chroma. rewrite this_mul, this_sub, abs_this, this_sub, this_mul, this_Z2Qc. reflexivity. }
  set (x := (c * (1 - qabs (qmod2 H - 1)))%Qc). assert (X : (this x == chroma (this s) (this l) * tri H)%Q).
  { unfold x, tri. rewrite this_mul, C, this_sub, abs_this, this_sub. reflexivity. }
  set (m := (l - qfrac 1 2 * c)%Qc). assert (M : (this m == this l - (1 # 2) * chroma (this s) (this l))%Q).
  { unfold m. rewrite this_sub, this_mul, C, this_qfrac. reflexivity. }
  assert (CM : (this (c + m)%Qc == chroma (this s) (this l) + (this l - (1 # 2) * chroma (this s) (this l)))%Q) by (rewrite this_add, C, M; reflexivity).
  assert (XM : (this (x + m)%Qc == chroma (this s) (this l) * tri H + (this l - (1 # 2) * chroma (this s) (this l)))%Q) by (rewrite this_add, X, M; reflexivity).
  clearbody x m c. destruct (qc_ltb H 1); [auto|]. destruct (qc_ltb H (Z2Qc 2)); [auto|]. destruct (qc_ltb H (Z2Qc 3)); [auto|]. destruct (qc_ltb H (Z2Qc 4)); [auto|]. destruct (qc_ltb H (Z2Qc 5)); auto.
Qed.

(** *** Division by 60 does not change the sector of a double *)
Lemma double_gap q N t : double q -> (q < inject_Z N)%Q -> 2 ^ t + 1 <= N -> 0 <= t -> t <= 53 -> (q <= inject_Z N - qpow2 (t - 53))%Q.
Proof.
  intros [(m & e & M & E & R) _] L T T0 T1. rewrite <- qpow2_power in R. destruct (Qlt_le_dec q (inject_Z (2 ^ t))) as [H|H].
  - assert (inject_Z (2 ^ t) + inject_Z 1 <= inject_Z N)%Q by (rewrite <- inject_Z_plus, <- Zle_Qle; exact T). change (inject_Z 1) with 1%Q in H0.
    assert (qpow2 (t - 53) <= qpow2 0)%Q by (apply qpow2_le; lia). change (qpow2 0) with 1%Q in H1. lra.
  - assert (G : t - 53 <= e).
    { destruct (Z_lt_le_dec e (t - 53)) as [X|X]; [exfalso|lia]. assert (P : (inject_Z m <= inject_Z (2 ^ 53))%Q) by (rewrite <- Zle_Qle; lia).
      assert (Q1 : (q <= qpow2 53 * qpow2 e)%Q) by (rewrite R; apply Qmult_le_compat_r; [exact P|apply Qlt_le_weak, qpow2_gt0]).
      rewrite <- qpow2_add in Q1. pose proof (qpow2_le (53 + e) (t - 1) ltac:(lia)) as Y. pose proof (qpow2_gt0 (t - 1)) as Y0. pose proof (qpow2_add (t - 1) 1) as Y1.
      replace (t - 1 + 1) with t in Y1 by lia. change (qpow2 1) with 2%Q in Y1. assert (Q3 : (qpow2 t == inject_Z (2 ^ t))%Q) by (unfold qpow2; rewrite (proj2 (Z.leb_le 0 t)) by lia; reflexivity).
      lra. }
    set (k := 53 - t). assert (I : (q * qpow2 k == inject_Z (m * 2 ^ (e + k)))%Q).
    { rewrite R, <- Qmult_assoc, <- qpow2_add, inject_Z_mult. unfold qpow2. rewrite (proj2 (Z.leb_le 0 (e + k))) by (unfold k; lia). reflexivity. }
    assert (K : (qpow2 k == inject_Z (2 ^ k))%Q) by (unfold qpow2; rewrite (proj2 (Z.leb_le 0 k)) by (unfold k; lia); reflexivity).
    pose proof (qpow2_gt0 k) as KP. assert (J : (inject_Z (m * 2 ^ (e + k)) < inject_Z (N * 2 ^ k))%Q) by (rewrite <- I, (inject_Z_mult N), <- K; apply Qmult_lt_compat_r; assumption).
    rewrite <- Zlt_Qlt in J. assert (J2 : (inject_Z (m * 2 ^ (e + k)) <= inject_Z (N * 2 ^ k - 1))%Q) by (rewrite <- Zle_Qle; lia).
    unfold Z.sub in J2. rewrite inject_Z_plus, (inject_Z_mult N), <- K, <- I in J2. change (inject_Z (- (1))) with (-1)%Q in J2.
    apply (Qmult_le_r _ _ (qpow2 k) KP). assert (X : (qpow2 (t - 53) * qpow2 k == 1)%Q) by (rewrite <- qpow2_add; unfold k; replace (t - 53 + (53 - t)) with 0 by lia; reflexivity).
    assert (Y : ((inject_Z N - qpow2 (t - 53)) * qpow2 k == inject_Z N * qpow2 k - qpow2 (t - 53) * qpow2 k)%Q) by ring. rewrite Y, X. lra.
Qed.
Lemma sector_below q k t : double q -> In (k, t) [(1, 5); (2, 6); (3, 7); (4, 7); (5, 8)] -> (q < inject_Z (60 * k))%Q -> forall r, b64 (q * (1 # 60)) = Fin r -> (this r < inject_Z k)%Q.
Proof.
  intros D I L r R. assert (G : (q <= inject_Z (60 * k) - qpow2 (t - 53))%Q).
  { apply double_gap; [exact D|exact L|..]; repeat (destruct I as [I|I]; [injection I as <- <-; lia|]); destruct I. }
  assert (B : (q * (1 # 60) <= (inject_Z (60 * k) - qpow2 (t - 53)) * (1 # 60))%Q) by (clear -G; lra).
  apply b64_mono in B. rewrite R in B. repeat (destruct I as [I|I]; [injection I as <- <-|]); [..|destruct I]; clear -B.
  all: match goal with H : xle _ (b64 ?e) |- (_ < ?k)%Q => assert (V : exists y, b64 e = Fin y /\ (this y < k)%Q) by (eexists; split; [vm_compute; reflexivity|vm_compute; reflexivity]) end.
  all: destruct V as (y & V & Y); rewrite V in B; cbn [xle] in B; apply (Qle_lt_trans _ _ _ B Y).
Qed.

(** *** The operands *)
Lemma number_exact p q : is_number p q -> (- (1000) <= this q /\ this q <= 1000)%Q -> to_float p = Ok (Fin q) /\ double (this q).
Proof.
  intros [z|x D] B; [|split; [reflexivity|exact D]]. rewrite this_Z2Qc in B. assert (Z.abs z <= 1000).
  { destruct B as [B1 B2]. change (- (1000))%Q with (inject_Z (-1000)) in B1. change 1000%Q with (inject_Z 1000) in B2. rewrite <- Zle_Qle in B1, B2. lia. }
  split; [cbn [to_float]; unfold float_of_int; rewrite b64_exact by (apply double_small; lia); reflexivity|]. split.
  - exists z, 0. split; [lia|]. split; [lia|]. rewrite this_Z2Qc. change (2 ^ 0)%Q with 1%Q. ring.
  - apply (Qle_lt_trans _ 1000); [|vm_compute; reflexivity]. apply Qabs_Qle_condition. rewrite this_Z2Qc. exact B.
Qed.
Lemma number_float p q : is_number p q -> float_sized q -> exists x, to_float p = Ok (Fin x) /\ (Qabs (this x) < 2 ^ 1024)%Q.
Proof.
  intros [z|x [_ D]] S; [|exists x; split; [reflexivity|exact D]]. unfold float_sized in S. rewrite this_Z2Qc in S. cbn [to_float]. unfold float_of_int. pose proof (b64_rounded (inject_Z z)) as R.
  pose proof (b64_not_nan (inject_Z z)) as NN. destruct (b64 (inject_Z z)) as [x|s|]; [|exfalso|congruence]; cbn [rounded] in R.
  - exists x. split; [reflexivity|]. apply R.
  - destruct R as [R _]. apply (Qlt_not_le _ _ S R).
Qed.
Lemma quotient p x : to_float p = Ok (Fin x) -> (Qabs (this x) < 2 ^ 1024)%Q -> exists q, fdiv_float p 60 = Ok (PF (Fin q)) /\ b64 (this x * (1 # 60)) = Fin q.
Proof.
  intros F B. unfold fdiv_float. rewrite F. cbn [bindr xdiv rnd]. assert (E : (this (x / Z2Qc 60)%Qc == this x * (1 # 60))%Q) by (rewrite this_div, this_Z2Qc; reflexivity).
  rewrite (b64_comp _ _ E). pose proof (b64_rounded (this x * (1 # 60))) as R. pose proof (b64_not_nan (this x * (1 # 60))) as NN. destruct (b64 (this x * (1 # 60))) as [q|s|]; [|exfalso|congruence].
  - exists q. split; reflexivity.
  - cbn [rounded] in R. destruct R as [R _]. rewrite Qabs_Qmult in R. change (Qabs (1 # 60)) with (1 # 60)%Q in R. assert (X : (2 ^ 1024 * (1 # 60) < 2 ^ 1024 - 2 ^ 970)%Q) by (vm_compute; reflexivity). 
    set (Y := (2 ^ 1024 - 2 ^ 970)%Q) in *. set (W := (2 ^ 1024)%Q) in *. clearbody Y W. lra.
Qed.
Lemma chosen_same a b c x m : (forall k, In k [1%Qc; Z2Qc 2; Z2Qc 3; Z2Qc 4; Z2Qc 5] -> qc_ltb a k = qc_ltb b k) -> chosen a c x m = chosen b c x m.
Proof. intros H. unfold chosen. rewrite !H by (cbn; tauto). reflexivity. Qed.
Lemma same_sector hue q : double (this hue) -> b64 (this hue * (1 # 60)) = Fin q ->
  forall k, In k [1%Qc; Z2Qc 2; Z2Qc 3; Z2Qc 4; Z2Qc 5] -> qc_ltb q k = qc_ltb (hue / Z2Qc 60) k.
Proof.
  intros D B k I. assert (K : exists z t, In (z, t) [(1, 5); (2, 6); (3, 7); (4, 7); (5, 8)] /\ k = Z2Qc z).
  { destruct I as [<- |[<- |[<- |[<- |[<- |[]]]]]]; [exists 1, 5|exists 2, 6|exists 3, 7|exists 4, 7|exists 5, 8]; (split; [cbn; tauto|reflexivity]). }
  destruct K as (z & t & J & ->). assert (E : (this (hue / Z2Qc 60)%Qc == this hue * (1 # 60))%Q) by (rewrite this_div, this_Z2Qc; reflexivity).
  assert (Z6 : (inject_Z (60 * z) == 60 * inject_Z z)%Q) by (rewrite inject_Z_mult; reflexivity).
  destruct (qc_ltb_spec (hue / Z2Qc 60)%Qc (Z2Qc z)) as [L|L].
  - apply qc_ltb_true. unfold Qclt in *. rewrite this_Z2Qc in *. apply (sector_below (this hue) z t D J); [rewrite Z6; lra|exact B].
  - apply qc_ltb_false. apply Qcnot_lt_le in L. unfold Qcle in *. rewrite this_Z2Qc in *. assert (M : (inject_Z z <= this hue * (1 # 60))%Q) by lra. apply b64_mono in M. rewrite B in M.
    rewrite b64_exact in M by (apply double_small; repeat (destruct J as [J|J]; [injection J as <- <-; lia|]); destruct J). cbn [xle] in M. rewrite this_Z2Qc in M. exact M.
Qed.
Lemma unit_this s : unit_interval s -> (0 <= this s /\ this s <= 1)%Q.
Proof. intros [A B]. exact (conj A B). Qed.
Lemma rgb_css h hue fs fl xs xl s l a : is_number h hue -> (0 <= hue)%Qc -> (hue <= Z2Qc 360)%Qc -> unit_interval s -> unit_interval l ->
  to_float fs = Ok (Fin xs) -> to_float fl = Ok (Fin xl) -> within ulp (this xs) (this s) -> within ulp (this xl) (this l) ->
  exists r g b, color_rgb_f (Hsl h fs fl a) = Ok (Rgb (PI r) (PI g) (PI b) a) /\ (byte r /\ byte g /\ byte b)
    /\ let '(fr, fg, fb) := css_fractions hue s l in
       byte_of (1 # 2 ^ 38) fr r /\ byte_of (1 # 2 ^ 38) fg g /\ byte_of (1 # 2 ^ 38) fb b.
Proof.
  intros H H0 H1 S L Fs Fl Ws Wl. pose proof ulp_pos as U0. pose proof ulp_small as U1.
  assert (HR : (0 <= this hue /\ this hue <= 360)%Q) by (unfold Qcle in H0, H1; rewrite this_Z2Qc in H1; exact (conj H0 H1)).
  destruct (number_exact h hue H) as [Fh Dh]; [lra|]. destruct (quotient h hue Fh) as (q & D & B); [apply Dh|].
  assert (WQ : within (6 * ulp) (this q) (this (hue / Z2Qc 60)%Qc)).
  { destruct (b64_abs 6 (this hue * (1 # 60))) as (q' & B' & W); [lra|vm_compute; discriminate|lra|]. rewrite B in B'. injection B' as <-. apply (within_eq _ _ (this hue * (1 # 60))); [|exact W]. rewrite this_div, this_Z2Qc. reflexivity. }
  destruct (rgb_near (this s) (this l) (tri (hue / Z2Qc 60)) (6 * ulp) h fs fl a xs xl q) as (r & g & b & E & R & N); try assumption; try (apply unit_this; assumption); [apply tri_range|apply tri_lipschitz; exact WQ|lra|].
  exists r, g, b. split; [exact E|]. split; [exact R|].
  rewrite (chosen_same q (hue / Z2Qc 60) _ _ _ (same_sector hue q Dh B)) in N. pose proof (fractions_chosen hue s l) as F. rewrite (fractions_css hue s l H0 H1 S L) in F.
  destruct (css_fractions hue s l) as [[fr fg] fb]. destruct (chosen _ _ _ _) as [[er eg] eb]. destruct F as (F1 & F2 & F3). cbv zeta in N. destruct N as (N1 & N2 & N3).
  assert (T : (15000 * ulp + 255 * (6 * ulp) <= 1 # 2 ^ 38)%Q) by (vm_compute; discriminate).
  unfold byte_of. repeat split; apply Qabs_Qle_condition; unfold within in *; [rewrite F1|rewrite F2|rewrite F3]; set (w := (1 # 2 ^ 38)%Q) in *; clearbody w; lra.
Qed.
(** ** C173 *)
(** The conversion agrees with CSS up to rounding: each component is a nearest
    integer of 255 times the CSS fraction, within 2^-38. *)
Theorem C173_css : forall h ps pl a hue s l, is_number h hue -> is_number ps s -> is_number pl l -> (0 <= hue)%Qc -> (hue <= Z2Qc 360)%Qc -> unit_interval s -> unit_interval l ->
  exists r g b, color_rgb_f (Hsl h ps pl a) = Ok (Rgb (PI r) (PI g) (PI b) a) /\ (byte r /\ byte g /\ byte b)
    /\ let '(fr, fg, fb) := css_fractions hue s l in byte_of (1 # 2 ^ 38) fr r /\ byte_of (1 # 2 ^ 38) fg g /\ byte_of (1 # 2 ^ 38) fb b.
Proof.
  intros h ps pl a hue s l H P Q H0 H1 S L. pose proof (unit_this _ S). pose proof (unit_this _ L). pose proof ulp_pos.
  destruct (number_exact ps s P) as [Fs _]; [lra|]. destruct (number_exact pl l Q) as [Fl _]; [lra|].
  apply (rgb_css h hue ps pl s l s l a); try assumption; unfold within; lra.
Qed.
Print Assumptions C173_css.
(** Any hue a float can be made of: the components are bytes. *)
Theorem C173_range : forall h ps pl a hue s l, is_number h hue -> float_sized hue -> is_number ps s -> is_number pl l -> unit_interval s -> unit_interval l ->
  exists r g b, color_rgb_f (Hsl h ps pl a) = Ok (Rgb (PI r) (PI g) (PI b) a) /\ byte r /\ byte g /\ byte b.
Proof.
  intros h ps pl a hue s l H Z P Q S L. pose proof (unit_this _ S) as S'. pose proof (unit_this _ L) as L'. pose proof ulp_pos as U.
  destruct (number_exact ps s P) as [Fs _]; [lra|]. destruct (number_exact pl l Q) as [Fl _]; [lra|].
  destruct (number_float h hue H Z) as (x & Fh & B). destruct (quotient h x Fh B) as (q & D & _).
  destruct (rgb_near (this s) (this l) (tri q) 0 h ps pl a s l q) as (r & g & b & E & R & _); try assumption; try (unfold within; lra); [apply tri_range|].
  exists r, g, b. split; [exact E|]. exact R.
Qed.
Print Assumptions C173_range.

(** *** Whole degrees and percentages *)
Definition part (x : Q) : Prop := exists i, (x == inject_Z i * (1 # 300000))%Q.
Lemma part_add x y : part x -> part y -> part (x + y).
Proof. intros [i I] [j J]. exists (i + j). rewrite I, J, inject_Z_plus. ring. Qed.
Lemma abs_Z z : (Qabs (inject_Z z) == inject_Z (Z.abs z))%Q. Proof. reflexivity. Qed.
Lemma whole_parts h p q : let c := chroma (inject_Z p * (1 # 100)) (inject_Z q * (1 # 100)) in
  part c /\ part (c * tri (Z2Qc h / Z2Qc 60)) /\ part (inject_Z q * (1 # 100) - (1 # 2) * c).
Proof.
  assert (C : (chroma (inject_Z p * (1 # 100)) (inject_Z q * (1 # 100)) == inject_Z ((50 - Z.abs (q - 50)) * p) * (1 # 5000))%Q).
  { unfold chroma. assert (X : (2 * (inject_Z q * (1 # 100)) - 1 == inject_Z (q - 50) * (1 # 50))%Q) by (unfold Z.sub; rewrite inject_Z_plus; change (inject_Z (- (50))) with (-50)%Q; ring).
    rewrite X, Qabs_Qmult, abs_Z. change (Qabs (1 # 50)) with (1 # 50)%Q. rewrite inject_Z_mult. unfold Z.sub at 2. rewrite inject_Z_plus, inject_Z_opp. change (inject_Z 50) with 50%Q. ring. }
  set (k := (50 - Z.abs (q - 50)) * p) in *. cbv zeta. destruct (tri_eq (Z2Qc h / Z2Qc 60)) as [j J].
  assert (T : (tri (Z2Qc h / Z2Qc 60) == inject_Z (Z.abs (h - 120 * j)) * (1 # 60))%Q).
  { rewrite J. assert (X : (this (Z2Qc h / Z2Qc 60)%Qc - 2 * inject_Z j == inject_Z (h - 120 * j) * (1 # 60))%Q).
    { rewrite this_div, !this_Z2Qc. unfold Qdiv. change (/ inject_Z 60)%Q with (1 # 60)%Q. unfold Z.sub. rewrite inject_Z_plus, inject_Z_opp, inject_Z_mult. change (inject_Z 120) with 120%Q. ring. }
    rewrite X, Qabs_Qmult, abs_Z. reflexivity. }
  split; [|split].
  - exists (60 * k). rewrite C, inject_Z_mult. change (inject_Z 60) with 60%Q. ring.
  - exists (k * Z.abs (h - 120 * j)). rewrite C, T, inject_Z_mult. ring.
  - exists (3000 * q - 30 * k). rewrite C. unfold Z.sub. rewrite inject_Z_plus, inject_Z_opp, !inject_Z_mult. change (inject_Z 3000) with 3000%Q. change (inject_Z 30) with 30%Q. ring.
Qed.
Lemma part_byte f n : part (this f) -> byte_of (1 # 2 ^ 38) f n -> byte_of 0 f n.
Proof.
  intros [i I] B. unfold byte_of in *. assert (X : (inject_Z n - 255 * this f == inject_Z (300000 * n - 255 * i) * (1 # 300000))%Q).
  { rewrite I. unfold Z.sub. rewrite inject_Z_plus, inject_Z_opp, !inject_Z_mult. change (inject_Z 300000) with 300000%Q. change (inject_Z 255) with 255%Q. ring. }
  rewrite X, Qabs_Qmult, abs_Z in *. change (Qabs (1 # 300000)) with (1 # 300000)%Q in *. set (z := Z.abs (300000 * n - 255 * i)) in *. clearbody z.
  assert (Z0 : (inject_Z z < inject_Z 150001)%Q). { change (inject_Z 150001) with 150001%Q. assert (((1 # 2) + (1 # 2 ^ 38)) * 300000 < 150001)%Q by (vm_compute; reflexivity). set (w := (1 # 2 ^ 38)%Q) in *. clearbody w. lra. }
  rewrite <- Zlt_Qlt in Z0. assert (Z1 : (inject_Z z <= inject_Z 150000)%Q) by (rewrite <- Zle_Qle; lia). change (inject_Z 150000) with 150000%Q in Z1. lra.
Qed.
Lemma hundredth_near p x : 0 <= p <= 100 -> hundredth p x -> exists y, x = Fin y /\ within ulp (this y) (inject_Z p * (1 # 100)).
Proof.
  intros P (y & R1 & R2). apply (rounded_b64 (inject_Z p) (inject_Z p)) in R1; [|reflexivity]. rewrite b64_exact in R1 by (apply double_small; lia). injection R1 as ->.
  apply (rounded_b64 (inject_Z p * (1 # 100))) in R2; [|rewrite this_Z2Qc; reflexivity].
  assert (0 <= inject_Z p /\ inject_Z p <= 100)%Q by (change 0%Q with (inject_Z 0); change 100%Q with (inject_Z 100); rewrite <- !Zle_Qle; lia).
  destruct (b64_abs 1 (inject_Z p * (1 # 100))) as (r & R & W); [lra|vm_compute; discriminate|lra|]. exists r. split; [congruence|]. unfold within in *. lra.
Qed.
Lemma percent_unit p : 0 <= p <= 100 -> unit_interval (qfrac p 100).
Proof.
  intros P. assert (0 <= inject_Z p /\ inject_Z p <= 100)%Q by (change 0%Q with (inject_Z 0); change 100%Q with (inject_Z 100); rewrite <- !Zle_Qle; lia).
  split; unfold Qcle; rewrite this_qfrac; assert (X : (p # 100 == inject_Z p * (1 # 100))%Q) by (unfold Qeq; cbn; lia); rewrite X; change (this 0%Qc) with 0%Q; change (this 1%Qc) with 1%Q; lra.
Qed.
(** Whole degrees and whole percentages, as CSS texts have them: each component is
    a nearest integer of 255 times the CSS fraction. *)
Theorem C173_whole : forall h p q x y a, 0 <= h <= 360 -> 0 <= p <= 100 -> 0 <= q <= 100 -> hundredth p x -> hundredth q y ->
  exists r g b, color_rgb_f (Hsl (PI h) (PF x) (PF y) a) = Ok (Rgb (PI r) (PI g) (PI b) a)
    /\ let '(fr, fg, fb) := css_fractions (Z2Qc h) (qfrac p 100) (qfrac q 100) in byte_of 0 fr r /\ byte_of 0 fg g /\ byte_of 0 fb b.
Proof.
  intros h p q x y a H P Q X Y. destruct (hundredth_near p x P X) as (xs & -> & Ws). destruct (hundredth_near q y Q Y) as (xl & -> & Wl).
  assert (E : forall z, (this (qfrac z 100) == inject_Z z * (1 # 100))%Q) by (intros z; rewrite this_qfrac; unfold Qeq; cbn; lia).
  assert (H0 : (0 <= Z2Qc h)%Qc) by (unfold Qcle; rewrite this_Z2Qc; change (this 0%Qc) with (inject_Z 0); rewrite <- Zle_Qle; lia).
  assert (H1 : (Z2Qc h <= Z2Qc 360)%Qc) by (unfold Qcle; rewrite !this_Z2Qc, <- Zle_Qle; lia).
  pose proof (percent_unit p P) as S. pose proof (percent_unit q Q) as L.
  destruct (rgb_css (PI h) (Z2Qc h) (PF (Fin xs)) (PF (Fin xl)) xs xl (qfrac p 100) (qfrac q 100) a (int_number h) H0 H1 S L eq_refl eq_refl) as (r & g & b & R & _ & B); [unfold within in *; rewrite E; exact Ws|unfold within in *; rewrite E; exact Wl|].
  exists r, g, b. split; [exact R|]. pose proof (fractions_chosen (Z2Qc h) (qfrac p 100) (qfrac q 100)) as F. rewrite (fractions_css _ _ _ H0 H1 S L) in F.
  assert (PT : let '(fr, fg, fb) := css_fractions (Z2Qc h) (qfrac p 100) (qfrac q 100) in part (this fr) /\ part (this fg) /\ part (this fb)).
  { destruct (css_fractions _ _ _) as [[fr fg] fb]. destruct (whole_parts h p q) as (A & C & D).
    assert (EC : (chroma (this (qfrac p 100)) (this (qfrac q 100)) == chroma (inject_Z p * (1 # 100)) (inject_Z q * (1 # 100)))%Q) by (unfold chroma; rewrite !E; reflexivity).
    set (c := chroma (inject_Z p * (1 # 100)) (inject_Z q * (1 # 100))) in *. set (c' := chroma (this (qfrac p 100)) (this (qfrac q 100))) in *. clearbody c c'.
    assert (PE : forall u v, (u == v)%Q -> part u -> part v) by (intros u v W [i I]; exists i; rewrite <- W; exact I).
    apply (PE _ c') in A; [|symmetry; exact EC]. apply (PE _ (c' * tri (Z2Qc h / Z2Qc 60))%Q) in C; [|rewrite EC; reflexivity]. apply (PE _ (this (qfrac q 100) - (1 # 2) * c')%Q) in D; [|rewrite EC, E; reflexivity].
    unfold chosen in F. pose proof (part_add _ _ A D) as AD. pose proof (part_add _ _ C D) as CD.
    destruct (qc_ltb _ _) in F; [|destruct (qc_ltb _ (Z2Qc 2)) in F; [|destruct (qc_ltb _ (Z2Qc 3)) in F; [|destruct (qc_ltb _ (Z2Qc 4)) in F; [|destruct (qc_ltb _ (Z2Qc 5)) in F]]]];
      destruct F as (F1 & F2 & F3); (split; [|split]); (eapply PE; [symmetry; eassumption|assumption]). }
  destruct (css_fractions _ _ _) as [[fr fg] fb]. destruct PT as (P1 & P2 & P3), B as (B1 & B2 & B3). auto using part_byte.
Qed.
Print Assumptions C173_whole.

(** The other hues: infinities and NaN raise ValueError, ints beyond the floats OverflowError. *)
Theorem C173_errors : forall h ps pl a s l, is_number ps s -> is_number pl l -> unit_interval s -> unit_interval l ->
  (forall x, h = PF x -> (forall q, x <> Fin q) -> color_rgb_f (Hsl h ps pl a) = Err ValueError)
  /\ (forall z, h = PI z -> ~ float_sized (Z2Qc z) -> color_rgb_f (Hsl h ps pl a) = Err OverflowError).
Proof.
  intros h ps pl a s l P Q S L. pose proof (unit_this _ S) as S'. pose proof (unit_this _ L) as L'. pose proof ulp_pos as U0. pose proof ulp_small as U1.
  destruct (number_exact ps s P) as [Fs _]; [lra|]. destruct (number_exact pl l Q) as [Fl _]; [lra|].
  destruct (parts_chroma (this s) (this l) ps pl s l S' L' Fs Fl) as (l2 & l21 & k & c & E1 & E2 & E3 & E4 & WC); [unfold within; lra..|].
  pose proof (chroma_range _ _ S' L') as C. set (ch := chroma (this s) (this l)) in *. clearbody ch. unfold color_rgb_f, hsl_parts. rewrite E1. cbn [bindr]. rewrite E2. cbn [bindr]. rewrite E3. cbn [bindr]. rewrite E4. cbn [bindr]. split.
  - intros x -> NF. assert (HF : (this (qfrac 1 2) == 1 # 2)%Q) by (apply this_qfrac).
    destruct (mul_abs 1 (lit (qfrac 1 2)) (PF (Fin c)) (qfrac 1 2) c) as (hf & E8 & WH); [lra|vm_compute; discriminate|reflexivity|reflexivity|left; eexists; reflexivity|unfold bounded, within in *; rewrite HF; lra|].
    unfold within in WH. rewrite HF in WH.
    destruct (sub_abs 2 pl (PF (Fin hf)) l hf) as (m & E9 & WM); [lra|vm_compute; discriminate|exact Fl|reflexivity|unfold bounded, within in *; lra|].
    destruct (add_abs 2 (PF (Fin c)) (PF (Fin m)) c m) as (cm & EA & WA); [lra|vm_compute; discriminate|reflexivity|reflexivity|unfold bounded, within in *; lra|].
    destruct (byte_near (32 * ulp) cm (ch + (this l - (1 # 2) * ch))) as (nc & B1 & _); [unfold within in *; lra|lra|lra|].
    destruct (byte_near (32 * ulp) m (this l - (1 # 2) * ch)) as (nm & B2 & _); [unfold within in *; lra|lra|lra|].
    destruct x as [z|g|]; [destruct (NF z eq_refl)| |].
    + change (fdiv_float (PF (Inf g)) 60) with (Ok (PF (Inf g))). cbn [bindr]. change (fsub (py_mod2 (PF (Inf g))) (lit 1)) with (Ok (PF Nan)). cbn [bindr]. change (fsub (lit 1) (py_abs (PF Nan))) with (Ok (PF Nan)). cbn [bindr].
      change (fmul (PF (Fin c)) (PF Nan)) with (Ok (PF Nan)). cbn [bindr]. rewrite E8. cbn [bindr]. rewrite E9. cbn [bindr]. unfold hsl_choice. rewrite EA. cbn [bindr]. change (fadd (PF Nan) (PF (Fin m))) with (Ok (PF Nan)). cbn [bindr].
      destruct g; unfold py_below; cbn [pval xltb]; rewrite B1; cbn [bindr]; rewrite ?B2; reflexivity.
    + change (fdiv_float (PF Nan) 60) with (Ok (PF Nan)). cbn [bindr]. change (fsub (py_mod2 (PF Nan)) (lit 1)) with (Ok (PF Nan)). cbn [bindr]. change (fsub (lit 1) (py_abs (PF Nan))) with (Ok (PF Nan)). cbn [bindr].
      change (fmul (PF (Fin c)) (PF Nan)) with (Ok (PF Nan)). cbn [bindr]. rewrite E8. cbn [bindr]. rewrite E9. cbn [bindr]. unfold hsl_choice. rewrite EA. cbn [bindr]. change (fadd (PF Nan) (PF (Fin m))) with (Ok (PF Nan)). cbn [bindr].
      unfold py_below; cbn [pval xltb]; rewrite B1; cbn [bindr]; rewrite B2; reflexivity.
  - intros z -> NS. unfold fdiv_float. cbn [to_float]. unfold float_of_int. pose proof (b64_rounded (inject_Z z)) as R. destruct (b64 (inject_Z z)); cbn [rounded] in R; [|reflexivity|contradiction].
    destruct NS. unfold float_sized. rewrite this_Z2Qc. apply R.
Qed.
Print Assumptions C173_errors.
(** The whole way from the text. *)
Theorem C173_text : forall n x y th ts tl h p q, x <> "a"%char -> commas_ok [th; ts; tl] -> int_text th h -> percent_arg ts p -> percent_arg tl q ->
  0 <= h <= 360 -> 0 <= p <= 100 -> 0 <= q <= 100 ->
  exists c r g b, color n (VStr (FuncSpec.applied "hsl" x [th; ts; tl] y)) = Ok (VColor (OId n) c, S n) /\ color_rgb_f c = Ok (Rgb (PI r) (PI g) (PI b) full_alpha)
    /\ let '(fr, fg, fb) := css_fractions (Z2Qc h) (qfrac p 100) (qfrac q 100) in byte_of 0 fr r /\ byte_of 0 fg g /\ byte_of 0 fb b.
Proof.
  intros n x y th ts tl h p q NA CO TH TS TL H P Q.
  assert (HD : forall z, 0 <= z <= 100 -> exists v, hundredth z v).
  { intros z Z. destruct (int_fdiv z 100) as [v|e] eqn:E; [exists v; apply fdiv_ok, E|]. unfold int_fdiv, float_of_int in E. rewrite b64_exact in E by (apply double_small; lia). discriminate. }
  destruct (HD p P) as [v V], (HD q Q) as [w W]. destruct (C173_whole h p q v w full_alpha H P Q V W) as (r & g & b & E & B).
  exists (Hsl (PI h) (PF v) (PF w) full_alpha), r, g, b. split; [|split; [exact E|exact B]].
  apply (C160_accepted n "hsl" x [th; ts; tl] y); [right; split; [cbn; tauto|exact NA]|exact CO|discriminate|]. econstructor; eassumption.
Qed.
Print Assumptions C173_text.
(** Examples: a hue of 210.5 degrees; whole numbers; a text. *)
(** Converting keeps alpha, and what is converted stays as it is. *)
Theorem C173_stable : forall c c', color_rgb_f c = Ok c' -> color_rgb_f c' = Ok c'
  /\ (exists r g b a, c' = Rgb r g b a /\ ((c = Rgb r g b a) \/ exists h s l, c = Hsl h s l a)).
Proof.
  intros [r g b a|h s l a] c' E; [injection E as <-; split; [reflexivity|]; exists r, g, b, a; auto|].
  assert (X : exists r g b, c' = Rgb r g b a).
  { revert E. unfold color_rgb_f. repeat (match goal with |- bindr ?m _ = _ -> _ => destruct m; cbn [bindr]; [|discriminate] | |- (let '(_, _) := ?m in _) = _ -> _ => destruct m end). intros E. injection E as <-. eauto. }
  destruct X as (r & g & b & ->). split; [reflexivity|]. exists r, g, b, a. split; [reflexivity|]. right. eauto.
Qed.
Print Assumptions C173_stable.
Example C173_stable_example : exists c', color_rgb_f (Hsl (PI 210) (PI 1) (PI 0) (PI 1)) = Ok c'.
Proof. destruct (color_rgb_f (Hsl (PI 210) (PI 1) (PI 0) (PI 1))) eqn:E; [eauto|revert E; vm_compute; discriminate]. Qed.
Example C173_example : is_number (PF (Fin (qfrac 421 2))) (qfrac 421 2) /\ float_sized (qfrac 421 2) /\ is_number (PI 1) (Z2Qc 1) /\ is_number (PF (Fin (qfrac 1 4))) (qfrac 1 4)
  /\ color_rgb_f (Hsl (PF (Fin (qfrac 421 2))) (PI 1) (PF (Fin (qfrac 1 4))) opaque) = Ok (Rgb (PI 0) (PI 63) (PI 128) opaque)
  /\ color_rgb_f (Hsl (PF Nan) (PI 1) (PF (Fin (qfrac 1 4))) opaque) = Err ValueError.
Proof.
  assert (D : forall z d k, d = Z.to_pos (2 ^ k) -> 0 <= k <= 10 -> Z.abs z <= 10000 -> double (this (qfrac z d))).
  { intros z d k -> K Z. split.
    - exists z, (- k). split; [lia|]. split; [lia|]. rewrite this_qfrac, <- qpow2_power. unfold qpow2. destruct (Z.leb_spec 0 (- k)); [assert (k = 0) as -> by lia; unfold Qeq; cbn; lia|]. rewrite Z.opp_involutive. unfold Qeq. cbn. lia.
    - rewrite this_qfrac. apply (Qle_lt_trans _ (inject_Z (Z.abs z))); [unfold Qle, Qabs; cbn; nia|]. apply (Qle_lt_trans _ (inject_Z 10000)); [rewrite <- Zle_Qle; exact Z|vm_compute; reflexivity]. }
  split; [constructor; apply (D _ _ 1); [reflexivity|lia|lia]|]. split; [vm_compute; reflexivity|]. split; [constructor|]. split; [constructor; apply (D _ _ 2); [reflexivity|lia|lia]|]. split; vm_compute; reflexivity.
Qed.
Example C173_text_example : commas_ok ["210"; " 50%"; " 33%"] /\ int_text "210" 210 /\ percent_arg " 50%" 50 /\ percent_arg " 33%" 33
  /\ match color 0 (VStr "hsl(210, 50%, 33%)") with Ok (VColor _ c, _) => color_rgb_f c | _ => Err ValueError end = Ok (Rgb (PI 42) (PI 84) (PI 126) full_alpha).
Proof.
  split; [repeat constructor|]. split; [apply C147_int; vm_compute; reflexivity|]. split; [apply percent_ok; vm_compute; reflexivity|]. split; [apply percent_ok; vm_compute; reflexivity|].
  vm_compute. reflexivity.
Qed.
