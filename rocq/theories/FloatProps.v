(** * Properties C108, C109: binary64 arithmetic in lengths and layout *)
From Coq Require Import ZArith QArith Qcanon Qabs Qround Lqa Lia Bool List String.
From Verif Require Import PyNum NumFacts Float64 TextFacts FloatFacts Units UnitsSpec UnitsFacts FloatUnits FloatUnitsFacts FloatSpec EngineGrid.
Open Scope Z_scope.

Lemma ord100 q : ordinary q -> ord 100 (this q).
Proof. intros [->|H]; [left; reflexivity|right; exact H]. Qed.
Lemma lu_f_near c u q : exact_px c u q -> ordinary_inputs c u -> exists p n, lu_f c u = fround p /\ near 14 n p (64 * this q)%Q.
Proof.
  intros X [Ov Os Od Ow Oh Of Oz]. assert (Dn := near_num 100 _ (ord100 _ Od)). assert (Fn := near_num 100 _ (ord100 _ Of)).
  assert (A : forall p v, magnitude p v -> ordinary v -> exists a, fmul (PI LU_PER_PIXEL) p = Ok a /\ near 3 107 a (64 * this v)%Q).
  { intros p v M O. apply (fmul_near 0 0 7 100); try lia; [apply near_64|apply near_mag; [exact M|apply ord100, O]]. }
  assert (P3 : forall a v f k m x, near 3 107 a (64 * this v)%Q -> near k m f x -> (k <= 5)%nat -> 0 <= m <= 200 ->
     exists r n, (b <-r fmul a f ;; r <-r fmul b (py_of_num (dpi (c_disp c))) ;; fround r) = fround r
       /\ near 14 n r (64 * this v * x * this (nval (dpi (c_disp c))))%Q).
  { intros a v f k m x Na Nf K Hm. destruct (fmul_near 3 k 107 m a f _ _ ltac:(lia) ltac:(lia) ltac:(lia) ltac:(lia) Na Nf) as (b & Eb & Nb).
    destruct (fmul_near (3 + k + 3) 0 (107 + m) 100 b _ _ _ ltac:(lia) ltac:(lia) ltac:(lia) ltac:(lia) Nb Dn) as (r & Er & Nr).
    exists r, (107 + m + 100). rewrite Eb. cbn [bindr]. rewrite Er. cbn [bindr]. split; [reflexivity|]. eapply near_mono; [| |exact Nr]; lia. }
  destruct X as [p v M|p v M|p v M|p v M|s k p v M|s sc p v e M Hext|p v n M Hs]; cbn [u_val u_kind] in *;
    destruct (A p v M (Ov v M)) as (a & Ea & Na); unfold lu_f; cbn [u_kind u_val]; rewrite Ea; cbn [bindr].
  - exists a, 107. split; [reflexivity|]. eapply near_mono; [| |exact Na]; lia.
  - destruct (fdiv_int_near 0 100 _ _ 72 ltac:(auto) ltac:(lia) ltac:(lia) Fn) as (g & Eg & Ng).
    change (font_attr_f (c_font c) "em") with (Ok (py_of_num (f_size (c_font c)))). cbn [bindr]. rewrite Eg. cbn [bindr].
    destruct (P3 a v g _ _ _ Na Ng ltac:(lia) ltac:(lia)) as (r & n & Er & Nr). exists r, n. split; [exact Er|]. eapply near_comp; [|exact Nr].
    rewrite this_div, !this_mul, !this_Z2Qc. unfold Qdiv. ring.
  - destruct (fmul_near 1 0 3 100 (PF (b64 (65 # 100))) _ (65 # 100)%Q _ ltac:(lia) ltac:(lia) ltac:(lia) ltac:(lia)
      (near_const 65 100 ltac:(right; split; vm_compute; discriminate)) Fn) as (f & Ef & Nf).
    change (font_attr_f (c_font c) "ex") with (fmul (PF (b64 (65 # 100))) (py_of_num (f_size (c_font c)))). rewrite Ef. cbn [bindr].
    destruct (fdiv_int_near (1 + 0 + 3) (3 + 100) _ _ 72 ltac:(auto) ltac:(lia) ltac:(lia) Nf) as (g & Eg & Ng). rewrite Eg. cbn [bindr].
    destruct (P3 a v g _ _ _ Na Ng ltac:(lia) ltac:(lia)) as (r & n & Er & Nr). exists r, n. split; [exact Er|]. eapply near_comp; [|exact Nr].
    rewrite this_div, !this_mul, !this_Z2Qc, this_qfrac. unfold Qdiv. ring.
  - destruct (fmul_near 1 0 3 100 (PF (b64 (71 # 100))) _ (71 # 100)%Q _ ltac:(lia) ltac:(lia) ltac:(lia) ltac:(lia)
      (near_const 71 100 ltac:(right; split; vm_compute; discriminate)) Fn) as (f & Ef & Nf).
    change (font_attr_f (c_font c) "ch") with (fmul (PF (b64 (71 # 100))) (py_of_num (f_size (c_font c)))). rewrite Ef. cbn [bindr].
    destruct (fdiv_int_near (1 + 0 + 3) (3 + 100) _ _ 72 ltac:(auto) ltac:(lia) ltac:(lia) Nf) as (g & Eg & Ng). rewrite Eg. cbn [bindr].
    destruct (P3 a v g _ _ _ Na Ng ltac:(lia) ltac:(lia)) as (r & n & Er & Nr). exists r, n. split; [exact Er|]. eapply near_comp; [|exact Nr].
    rewrite this_div, !this_mul, !this_Z2Qc, this_qfrac. unfold Qdiv. ring.
  - destruct (fdiv_int_near 1 100 _ _ 72 ltac:(auto) ltac:(lia) ltac:(lia) (near_scale 100 k ltac:(lia) (ord100 _ (Os s k eq_refl)))) as (g & Eg & Ng).
    rewrite Eg. cbn [bindr].
    destruct (P3 a v g _ _ _ Na Ng ltac:(lia) ltac:(lia)) as (r & n & Er & Nr). exists r, n. split; [exact Er|]. eapply near_comp; [|exact Nr].
    rewrite this_div, !this_mul, !this_Z2Qc. unfold Qdiv. ring.
  - assert (Ne : near 0 100 (py_of_num (vp_extent sc (c_disp c))) (this e)).
    { apply extent_vp in Hext. subst e. apply near_num, ord100. destruct sc; cbn [vp_extent]; [exact Oh| | |exact Ow]; unfold nmax, nmin; destruct nltb; assumption. }
    destruct (fmul_near 3 0 107 100 a _ _ _ ltac:(lia) ltac:(lia) ltac:(lia) ltac:(lia) Na Ne) as (b & Eb & Nb). rewrite Eb. cbn [bindr].
    destruct (fdiv_int_near (3 + 0 + 3) (107 + 100) _ _ 100 ltac:(auto) ltac:(lia) ltac:(lia) Nb) as (r & Er & Nr). rewrite Er. cbn [bindr].
    exists r, (107 + 100 + 7). split; [reflexivity|]. eapply near_comp; [|eapply near_mono; [| |exact Nr]; lia].
    rewrite this_div, !this_mul, !this_Z2Qc. unfold Qdiv. ring.
  - destruct (fdiv_float_near 3 107 _ _ 100 ltac:(auto) ltac:(lia) ltac:(lia) Na) as (b & Eb & Nb). rewrite Eb. cbn [bindr]. rewrite Hs. cbn [as_num bindr].
    destruct (fmul_near 5 0 114 100 b _ _ _ ltac:(lia) ltac:(lia) ltac:(lia) ltac:(lia) Nb (near_num 100 n (ord100 _ (Oz n Hs)))) as (r & Er & Nr).
    rewrite Er. cbn [bindr]. exists r, (114 + 100). split; [reflexivity|]. eapply near_comp; [|eapply near_mono; [| |exact Nr]; lia].
    rewrite this_div, !this_mul, !this_Z2Qc. unfold Qdiv. ring.
Qed.

(** C109.  With binary64 arithmetic a length of less than 2^42 px is still
    computed to within a layout unit: the result is a multiple of 1/64 px, at
    most 1/128 px plus 2^-49 of the value away from the exact value, at most
    1/64 px away from the result of exact arithmetic, and exact whenever the
    exact value is a multiple of 1/64 px. *)
Theorem C109_float_conversion : forall c u q, exact_px c u q -> ordinary_inputs c u -> (Qabs (this q) <= qpow2 42)%Q ->
  exists p, px_f c u = Ok p /\ on_grid (nval p)
    /\ (Qabs (this (nval p) - this q) <= (1 # 128) + qpow2 (-49) * Qabs (this q))%Q
    /\ (on_grid q -> nval p = q)
    /\ (forall p', px c u = Ok p' -> nval p' - qfrac 1 64 <= nval p /\ nval p <= nval p' + qfrac 1 64)%Qc.
Proof.
  intros c u q X O B. destruct (lu_f_near c u q X O) as (p & n & E & N).
  assert (Q64 : (Qabs (64 * this q) == 64 * Qabs (this q))%Q) by (rewrite Qabs_Qmult; reflexivity).
  assert (P : (64 * qpow2 42 == qpow2 48)%Q) by (rewrite !qpow2_pos by lia; reflexivity).
  assert (B48 : (Qabs (64 * this q) <= qpow2 48)%Q) by (rewrite Q64, <- P; apply Qmult_le_l; [reflexivity|exact B]).
  destruct (fround_near n p _ N B48) as (k & Ek & Err & Near & Ex). rewrite Ek in E.
  assert (K53 : Z.abs k <= 2 ^ 53).
  { assert (A : (15 * qpow2 (-53) * Qabs (64 * this q) <= 15 * qpow2 (-53) * qpow2 48)%Q) by (apply Qmult_le_l; [reflexivity|exact B48]).
    assert (A2 : (15 * qpow2 (-53) * qpow2 48 <= 1 # 2)%Q) by (vm_compute; discriminate).
    apply Qabs_Qle_condition in B48. apply Qabs_Qle_condition in Err. rewrite (qpow2_pos 48) in B48 by lia.
    set (e := (15 * qpow2 (-53) * Qabs (64 * this q))%Q) in *. set (f := (15 * qpow2 (-53) * qpow2 48)%Q) in *. clearbody e f.
    assert (U : (inject_Z k <= inject_Z (2 ^ 48 + 1))%Q) by (rewrite inject_Z_plus; change (inject_Z 1) with 1%Q; lra).
    assert (V : (inject_Z (- (2 ^ 48 + 1)) <= inject_Z k)%Q) by (rewrite inject_Z_opp, inject_Z_plus; change (inject_Z 1) with 1%Q; lra).
    rewrite <- Zle_Qle in U, V. lia. }
  exists (lu_to_px k). split; [apply px_f_lu; assumption|]. rewrite lu_to_px_val.
  split; [exists k; reflexivity|]. split; [|split].
  - rewrite this_qfrac. assert (K : (k # 64 == inject_Z k * (1 # 64))%Q) by (unfold Qeq, Qmult, inject_Z; cbn; lia). rewrite K.
    assert (F : (15 * qpow2 (-53) * Qabs (64 * this q) <= 64 * (qpow2 (-49) * Qabs (this q)))%Q).
    { rewrite Q64. assert (15 * qpow2 (-53) <= qpow2 (-49))%Q by (vm_compute; discriminate). pose proof (Qabs_nonneg (this q)).
      set (a := (15 * qpow2 (-53))%Q) in *. set (b := qpow2 (-49)) in *. set (z := Qabs (this q)) in *. clearbody a b z. nra. }
    apply Qabs_Qle_condition in Err. apply Qabs_Qle_condition.
    set (e := (15 * qpow2 (-53) * Qabs (64 * this q))%Q) in *. set (f := (qpow2 (-49) * Qabs (this q))%Q) in *. clearbody e f. split; lra.
  - intros [j ->]. assert (k = j) as ->; [|reflexivity]. apply Ex. rewrite this_qfrac. unfold Qeq, Qmult, inject_Z. cbn [Qnum Qden]. lia.
  - intros p' Hp. rewrite (px_exact c u q X) in Hp. apply Ok_inj in Hp. subst p'. rewrite lu_to_px_val.
    assert (R : round_half_even (this (Z2Qc 64 * q)%Qc) = round_half_even (64 * this q)) by (apply rhe_comp; rewrite this_mul, this_Z2Qc; reflexivity).
    rewrite R. set (j := round_half_even (64 * this q)) in *. clearbody j. clear -Near.
    unfold Qcle. rewrite this_sub, this_add, !this_qfrac. unfold Qle, Qminus, Qplus, Qopp. cbn [Qnum Qden]. lia.
Qed.

(** C109, second part.  Pixel lengths are converted exactly. *)
Theorem C109_pixels_exact : forall c p v, magnitude p v -> binary64 v -> (Qabs (this v) <= qpow2 47)%Q ->
  px_f c (mkU KPx p) = px c (mkU KPx p).
Proof.
  intros c p v M [(m & e & Hm & He & Ev) _] B. unfold px_f, px, lu_f, lu. cbn [u_kind u_val].
  assert (E64 : this (Z2Qc 64) = 64%Q) by reflexivity.
  assert (Bz : forall z, (Qabs (inject_Z z) <= qpow2 47)%Q -> Z.abs z <= 2 ^ 47).
  { intros z H. rewrite qpow2_pos in H by lia. change (Qabs (inject_Z z)) with (inject_Z (Z.abs z)) in H. rewrite <- Zle_Qle in H. exact H. }
  destruct M as [z|q]; cbn [pval].
  - cbn [fmul bindr fround]. unfold lu64. cbn [xmul xround]. assert (R : round_half_even (this (Z2Qc LU_PER_PIXEL * Z2Qc z)%Qc) = LU_PER_PIXEL * z).
    { rewrite <- (rhe_Z (LU_PER_PIXEL * z)). apply rhe_comp. rewrite this_mul, !this_Z2Qc, inject_Z_mult. reflexivity. }
    rewrite R. cbn [bindr]. rewrite px_quotient; [reflexivity|]. unfold LU_PER_PIXEL. rewrite (this_Z2Qc z) in B. specialize (Bz z B). lia.
  - assert (F : fmul (PI LU_PER_PIXEL) (PF (Fin q)) = Ok (PF (Fin (Z2Qc 64 * q)%Qc))).
    { cbn [fmul to_float]. assert (F64 : float_of_int LU_PER_PIXEL = Ok (Fin (Z2Qc 64))) by (unfold float_of_int, LU_PER_PIXEL; rewrite b64_exact; [reflexivity|apply double_small; lia]).
      rewrite F64. cbn [bindr xmul rnd].
      rewrite b64_repr; [do 3 f_equal; apply Qc_is_canon; cbn [this Q2Qc]; apply Qred_correct| |].
      - exists m, (e + 6). split; [exact Hm|]. split; [lia|]. rewrite this_mul, Ev, qpow2_add, E64. change (qpow2 6) with 64%Q. ring.
      - rewrite this_mul, E64, Qabs_Qmult. change (Qabs 64) with 64%Q. eapply Qle_lt_trans; [apply Qmult_le_l; [reflexivity|exact B]|reflexivity]. }
    rewrite F. cbn [bindr fround]. unfold lu64, LU_PER_PIXEL. cbn [xmul xround bindr]. rewrite px_quotient; [reflexivity|].
    assert (S : (Qabs (this (Z2Qc 64 * q)%Qc) <= inject_Z (2 ^ 53))%Q).
    { rewrite this_mul, E64, Qabs_Qmult. change (Qabs 64) with 64%Q. eapply Qle_trans; [apply Qmult_le_l; [reflexivity|exact B]|]. vm_compute. discriminate. }
    apply Qabs_Qle_condition in S. destruct S as [S1 S2]. rewrite <- inject_Z_opp in S1. apply rhe_mono in S1, S2. rewrite rhe_Z in S1, S2. lia.
Qed.

(** C108.  Sums, differences and halves of multiples of 1/64 px that stay below
    2^46 px are exact in binary64: rounding never shows. *)
Lemma grid_b64 q : on_grid q -> (Qabs (this q) <= qpow2 47)%Q -> b64 (this q) = Fin q.
Proof.
  intros [k ->] B. rewrite b64_repr.
  - f_equal. apply Qc_is_canon. cbn [this Q2Qc]. apply Qred_correct.
  - rewrite this_qfrac in B. rewrite qpow2_pos in B by lia. exists k, (-6). split; [|split; [lia|]].
    + unfold Qabs, Qle, inject_Z in B. cbn [Qnum Qden] in B. lia.
    + rewrite this_qfrac. unfold Qeq, Qmult, inject_Z, qpow2. cbn. lia.
  - eapply Qle_lt_trans; [exact B|reflexivity].
Qed.
Lemma grid_float x : on_grid (nval x) -> (Qabs (this (nval x)) <= qpow2 47)%Q -> to_float (py_of_num x) = Ok (Fin (nval x)).
Proof.
  intros G B. destruct x as [z|q]; [|reflexivity]. cbn [py_of_num to_float nval] in *. unfold float_of_int.
  assert (E : b64 (inject_Z z) = Fin (Z2Qc z)). 
  { rewrite b64_repr; [reflexivity| |].
    - exists z, 0. rewrite (this_Z2Qc z) in B. rewrite qpow2_pos in B by lia. change (Qabs (inject_Z z)) with (inject_Z (Z.abs z)) in B. rewrite <- Zle_Qle in B.
      split; [lia|]. split; [lia|]. rewrite qpow2_pos by lia. cbn. ring.
    - rewrite (this_Z2Qc z) in B. eapply Qle_lt_trans; [exact B|reflexivity]. }
  rewrite E. reflexivity.
Qed.
Theorem C108_layout_arithmetic_exact : forall x y, on_grid (nval x) -> on_grid (nval y) ->
  (Qabs (this (nval x)) <= qpow2 46)%Q -> (Qabs (this (nval y)) <= qpow2 46)%Q ->
  fadd (py_of_num x) (py_of_num y) = Ok (py_of_num (nadd x y))
  /\ fsub (py_of_num x) (py_of_num y) = Ok (py_of_num (nsub x y))
  /\ fhalf (py_of_num x) = py_of_num (nhalf x).
Proof.
  intros x y Gx Gy Bx By. assert (P : (qpow2 46 + qpow2 46 == qpow2 47)%Q) by (rewrite !qpow2_pos by lia; reflexivity).
  assert (L : (qpow2 46 <= qpow2 47)%Q) by (apply qpow2_le; lia).
  assert (Fx := grid_float x Gx (Qle_trans _ _ _ Bx L)). assert (Fy := grid_float y Gy (Qle_trans _ _ _ By L)).
  assert (A : b64 (this (nval x + nval y)%Qc) = Fin (nval x + nval y)%Qc).
  { apply grid_b64; [apply grid_plus; assumption|]. rewrite this_add. eapply Qle_trans; [apply Qabs_triangle|]. rewrite <- P. apply Qplus_le_compat; assumption. }
  assert (M : b64 (this (nval x + - nval y)%Qc) = Fin (nval x + - nval y)%Qc).
  { apply grid_b64; [apply grid_plus; [|apply grid_opp]; assumption|]. rewrite this_add, this_opp. eapply Qle_trans; [apply Qabs_triangle|]. rewrite Qabs_opp, <- P. apply Qplus_le_compat; assumption. }
  split; [|split].
  - destruct x as [a|p], y as [b|q]; cbn [py_of_num fadd nadd nval] in *; try reflexivity; rewrite ?Fx, ?Fy; cbn [to_float] in *; rewrite ?Fx, ?Fy; cbn [bindr xadd rnd]; rewrite A; reflexivity.
  - unfold Qcminus in *. destruct x as [a|p], y as [b|q]; cbn [py_of_num fsub nsub nval] in *; try reflexivity; cbn [to_float] in *; rewrite ?Fx, ?Fy; cbn [bindr xadd xneg rnd]; rewrite M; reflexivity.
  - destruct x as [a|q]; [reflexivity|]. cbn [py_of_num fhalf nhalf nval] in *. cbn [rnd]. rewrite grid_b64; [reflexivity|apply grid_Z|].
    set (f := Qfloor (this (q / Z2Qc 2)%Qc)). assert (H := Qfloor_bounds (this (q / Z2Qc 2)%Qc)). fold f in H. rewrite this_div, this_Z2Qc in H.
    change (this q / inject_Z 2)%Q with (this q * (1 # 2))%Q in H. rewrite this_Z2Qc. apply Qabs_Qle_condition in Bx. apply Qabs_Qle_condition.
    assert (1 <= qpow2 46)%Q by (vm_compute; discriminate). set (u := qpow2 46) in *. set (v := qpow2 47) in *. clearbody u v. split; lra.
Qed.

(** ** Examples *)
Definition disp96 : display_t := mkDisp (NI 96) (NI 1024) (NI 768) (fun k => match k with Thin => NI 1 | Medium => NI 3 | Thick => NI 5 end).
Definition ctx96 : ctx := mkCtx disp96 (mkFont (NI 12)) (LNum (NF (qfrac 12345 64))).
Lemma ordinary_int z : 0 < Z.abs z < 2 ^ 100 -> ordinary (Z2Qc z).
Proof.
  intros H. right. rewrite (this_Z2Qc z). change (Qabs (inject_Z z)) with (inject_Z (Z.abs z)). split.
  - apply Qle_trans with (inject_Z 1); [vm_compute; discriminate|]. rewrite <- Zle_Qle. lia.
  - rewrite qpow2_pos by lia. rewrite <- Zle_Qle. lia.
Qed.
Ltac ordq := right; vm_compute; split; discriminate.
(** 0.1cm, 33.3% and 7ex meet the hypotheses of C109; 2.54cm at 96 dpi is not
    96 px, because the library's centimetre has 28.3465 points. *)
Example C109_example :
  ordinary_inputs ctx96 (mkU (KAbs "cm" (qfrac 283465 10000)) (PF (Fin (qfrac 1 10))))
  /\ ordinary_inputs ctx96 (mkU KPct (PF (Fin (qfrac 333 10))))
  /\ ordinary_inputs ctx96 (mkU (KFont "ex") (PI 7))
  /\ match px_f ctx96 (mkU (KAbs "cm" (qfrac 283465 10000)) (PF (Fin (qfrac 1 10)))) with Ok p => neqb p (NF (qfrac 242 64)) | _ => false end = true
  /\ match px_f ctx96 (mkU KPct (PF (Fin (qfrac 333 10)))) with Ok p => neqb p (NF (qfrac 4111 64)) | _ => false end = true.
Proof.
  assert (D1 : ordinary (nval (dpi disp96))) by ordq. assert (D2 : ordinary (nval (disp_width disp96))) by ordq.
  assert (D3 : ordinary (nval (disp_height disp96))) by ordq. assert (D4 : ordinary (nval (f_size (mkFont (NI 12))))) by ordq.
  assert (Z : forall n, c_size ctx96 = LNum n -> ordinary (nval n)) by (intros n E; injection E as <-; ordq).
  split; [|split; [|split; [|split; vm_compute; reflexivity]]].
  - constructor; [| |exact D1|exact D2|exact D3|exact D4|exact Z].
    + intros v V. inversion V; subst. ordq.
    + intros s k E. injection E as _ <-. ordq.
  - constructor; [|discriminate|exact D1|exact D2|exact D3|exact D4|exact Z]. intros v V. inversion V; subst. ordq.
  - constructor; [|discriminate|exact D1|exact D2|exact D3|exact D4|exact Z]. intros v V. inversion V; subst. ordq.
Qed.
Example C109_pixels_example : binary64 (qfrac 99 8) /\ (Qabs (this (qfrac 99 8)) <= qpow2 47)%Q
  /\ match px_f ctx96 (mkU KPx (PF (Fin (qfrac 99 8)))) with Ok p => neqb p (NF (qfrac 99 8)) | _ => false end = true.
Proof.
  split; [|split; [vm_compute; discriminate|vm_compute; reflexivity]]. split; [|vm_compute; reflexivity].
  exists 99, (-3). split; [vm_compute; discriminate|]. split; [lia|]. vm_compute. reflexivity.
Qed.
Example C108_example : on_grid (nval (NF (qfrac 12345 64))) /\ on_grid (nval (NI (-7)))
  /\ fadd (PF (Fin (qfrac 12345 64))) (PI (-7)) = Ok (PF (Fin (qfrac 12345 64 + Z2Qc (-7))%Qc)).
Proof.
  split; [exists 12345; reflexivity|]. split; [apply grid_Z|].
  apply (C108_layout_arithmetic_exact (NF (qfrac 12345 64)) (NI (-7))); [exists 12345; reflexivity|apply grid_Z|vm_compute; discriminate|vm_compute; discriminate].
Qed.

Print Assumptions C108_layout_arithmetic_exact.
Print Assumptions C109_float_conversion.
Print Assumptions C109_pixels_exact.
