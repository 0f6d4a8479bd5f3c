(** * C197: percentages of percentages *)
From Coq Require Import String ZArith QArith Qcanon Qround Lia Lqa Bool List.
From Verif Require Import PyNum NumFacts Units UnitsSpec UnitsProps BoxModel BoxSpec BoxFacts Engine EngineSpec EngineExamples EngineWProps EngineIProps RefLayout RefFacts RefProps HistSpec HistProps
  OkProps MoveSpec MoveProps EdgeSpec EdgeProps LocalSpec LocalProps DisplaySpec DisplayProps NestSpec.
Import ListNotations.
Open Scope Qc_scope.

Section Nest.
Context {S : Type} (sty : S -> style).
Notation node := (node S).
Lemma qfrac_S m : qfrac (Z.of_nat (Datatypes.S m)) 128 = qfrac (Z.of_nat m) 128 + qfrac 1 128.
Proof.
  apply Qc_is_canon. unfold qfrac. rewrite Nat2Z.inj_succ. unfold Z.succ. unfold Qcplus, Q2Qc, this.
  rewrite !Qred_correct. unfold Qeq, Qplus. cbn [Qnum Qden]. lia.
Qed.
Lemma share_error v W T e x : 0 <= v -> v <= Z2Qc 100 -> W - e <= T -> T <= W + e -> x - qfrac 1 128 <= v * W / Z2Qc 100 -> v * W / Z2Qc 100 <= x + qfrac 1 128 ->
  x - (e + qfrac 1 128) <= v * T / Z2Qc 100 /\ v * T / Z2Qc 100 <= x + (e + qfrac 1 128).
Proof.
  intros V0 V1 A B C D.
  assert (E : forall y, v * y / Z2Qc 100 = (v / Z2Qc 100) * y) by (intros y; unfold Qcdiv; ring).
  rewrite !E in *. set (t := v / Z2Qc 100) in *.
  assert (T0 : 0 <= t). { unfold t. unfold Qcdiv. replace 0 with (0 * / Z2Qc 100) by ring. apply Qcmult_le_compat_r; [exact V0|]. vm_compute. discriminate. }
  assert (T1 : t <= 1). { unfold t, Qcdiv. replace 1 with (Z2Qc 100 * / Z2Qc 100) by (vm_compute; apply Qc_is_canon; reflexivity). apply Qcmult_le_compat_r; [exact V1|]. vm_compute. discriminate. }
  assert (E0 : 0 <= e) by qclra.
  assert (P1 : (W - e) * t <= T * t) by (apply Qcmult_le_compat_r; assumption).
  assert (P2 : T * t <= (W + e) * t) by (apply Qcmult_le_compat_r; assumption).
  assert (P3 : t * e <= 1 * e) by (apply Qcmult_le_compat_r; assumption).
  replace ((W - e) * t) with (t * W - t * e) in P1 by ring. replace ((W + e) * t) with (t * W + t * e) in P2 by ring.
  replace (T * t) with (t * T) in * by ring. replace (1 * e) with e in P3 by ring.
  generalize dependent (t * W). generalize dependent (t * T). generalize dependent (t * e). intros. split; qclra.
Qed.
Lemma nested_laid root D op k w m : nested sty root D op k w m -> laid sty root op k.
Proof. intros H. inversion H; assumption. Qed.
(** A percentage width against its containing block. *)
Lemma percent_step d h5 (n n' : node) op k v : layout sty d h5 n = (n', Ok tt) -> laid sty n' op k -> percent_block sty k v ->
  exists b w W, n_box k = Some b /\ content_width b = LNum w /\ containing_width d op = LNum W
    /\ nval w - qfrac 1 128 <= v * nval W / Z2Qc 100 /\ v * nval W / Z2Qc 100 <= nval w + qfrac 1 128.
Proof.
  intros H L (B & (p & Ew & M) & V0 & V1 & Mi & Ma).
  destruct (C73_explicit_width_clamped sty d h5 n n' op k _ H L B Ew) as (b & w & x & mn & mx & Eb & Cw & (px_ & P1 & P2) & M1 & M2 & Nw & _ & _).
  rewrite Mi in M1. rewrite Ma in M2. destruct mn; [contradiction|]. destruct mx; [contradiction|]. cbn [at_least at_most] in Nw.
  destruct (C01_px_rounds_to_nearest _ _ _ P1) as (q & Eq & _ & [Q1 Q2] & _). inversion Eq; subst; try discriminate.
  match goal with A : magnitude p _ , A' : magnitude p _ |- _ => assert (X : v0 = v) by (inversion A; inversion A'; congruence) end. subst v0.
  match goal with A : c_size _ = LNum _ |- _ => cbn [width_ctx c_size] in A; rename A into Cs end.
  exists b, w, n0. rewrite Nw. auto.
Qed.

(** C197.  Through blocks whose widths are percentages or auto, the used width
    is within 1/128 px per percentage of the product without rounding. *)
Theorem C197_nested_percentages : forall d h5 (n n' : node) op k w m, history sty n -> layout sty d h5 n = (n', Ok tt) ->
  nested sty n' (nval (disp_width d)) op k w m ->
  exists b x, n_box k = Some b /\ content_width b = LNum x /\ nval x - qfrac (Z.of_nat m) 128 <= w /\ w <= nval x + qfrac (Z.of_nat m) 128.
Proof.
  intros d h5 n n' op k w m Hi H P.
  induction P as [v L A|b l r L A Eb El Er|op p k w m v P IH L I A|op p k b w m l r P IH L I A Eb El Er].
  - destruct (percent_step d h5 n n' None n' v H L A) as (b & x & W & Eb & Ex & EW & X). cbn [containing_width] in EW. injection EW as <-. exists b, x. repeat split; try assumption; apply X.
  - destruct (auto_step sty d h5 n n' None n' b l r Hi H L A Eb El Er) as [_ (x & X1 & X2)]. exists b, x. cbn [width_around] in X2.
    rewrite X2. replace (qfrac (Z.of_nat 0) 128) with 0 by (apply Qc_is_canon; reflexivity). repeat split; try assumption; qclra.
  - destruct IH as (b0 & x0 & Eb0 & Ex0 & I1 & I2).
    destruct (percent_step d h5 n n' (Some p) k v H L A) as (b & x & W & Eb & Ex & EW & X1 & X2). cbn [containing_width] in EW. rewrite Eb0, Ex0 in EW. injection EW as <-.
    exists b, x. rewrite qfrac_S. split; [assumption|]. split; [assumption|]. destruct A as (_ & _ & V0 & V1 & _). eapply share_error; eassumption.
  - destruct IH as (b0 & x0 & Eb0 & Ex0 & I1 & I2).
    destruct (auto_step sty d h5 n n' (Some p) k b l r Hi H L A Eb El Er) as [_ (x & X1 & X2)]. exists b, x. cbn [width_around] in X2. rewrite Eb0, Ex0 in X2.
    rewrite X2. repeat split; try assumption; qclra.
Qed.
End Nest.
Print Assumptions C197_nested_percentages.

(** 33% in an auto block with padding in 33% in 33% of 1000 px. *)
Definition thirds : doc :=
  el (s_size (Len (pctu 33)) Auto block_style)
    [el (s_size (Len (pctu 33)) Auto block_style)
      [el (s_padding (pxu 0) (pxu 3) (pxu 0) (pxu 2) block_style) [el (s_size (Len (pctu 33)) (Len (pxu 20)) block_style) []]]].
Ltac pct_tac := split; [vm_compute; reflexivity|split; [eexists; split; [vm_compute; reflexivity|apply (mag_int 33)]|split; [vm_compute; discriminate|split; [vm_compute; discriminate|split; vm_compute; reflexivity]]]].
Example C197_example : exists p k w, history idsty thirds /\ layout idsty screen false thirds = (out false thirds, Ok tt)
  /\ nested idsty (out false thirds) (nval (disp_width screen)) (Some p) k w 3 /\ this w = (34287 # 1000)%Q
  /\ lq (content_width (bx k)) = Some (1097 # 32)%Q.
Proof.
  exists (kid 0 (kid 0 (out false thirds))), (kid 0 (kid 0 (kid 0 (out false thirds)))). eexists.
  split; [apply history_new; solve_new|]. split; [apply ok_layout; vm_compute; reflexivity|]. split.
  { eapply (nested_percent idsty _ _ (Some (kid 0 (out false thirds)))); [|laid_tac|vm_compute; auto|pct_tac].
    eapply (nested_auto idsty _ _ (Some (out false thirds))); [|laid_tac|vm_compute; auto|split; [vm_compute; reflexivity|split; [vm_compute; reflexivity|vm_compute; discriminate]]
      |vm_compute; reflexivity|eexists; split; [reflexivity|reflexivity]|eexists; split; [reflexivity|reflexivity]].
    eapply (nested_percent idsty _ _ None (out false thirds)); [|laid_tac|vm_compute; auto|pct_tac]. eapply nested_percent_root; [laid_tac|pct_tac]. }
  split; vm_compute; reflexivity.
Qed.
