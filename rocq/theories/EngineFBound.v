(** * Documents of plain lengths: the checked arithmetic never stops *)
From Coq Require Import ZArith QArith Qcanon Qabs Qround Lqa Lia Bool List.
From Verif Require Import PyNum NumFacts Float64 FloatFacts Units UnitsSpec UnitsFacts FloatUnits
  BoxModel BoxSpec BoxFacts Engine EngineArith EngineArithFacts EngineFSpec.
Import ListNotations.
Open Scope Z_scope.
Notation nb := at_most.
Definition lb (B : Q) (v : lval) : Prop := match v with LNum x => nb B x | _ => True end.
Definition G : Q := qpow2 46.

(** ** Results that are not the stop of the checked arithmetic *)
Definition okr {X} (P : X -> Prop) (r : res X) : Prop := match r with Ok a => P a | Err e => e <> Unmodelled end.
Lemma okr_bind {X Y} (P : X -> Prop) (Q : Y -> Prop) r f : okr P r -> (forall a, P a -> okr Q (f a)) -> okr Q (bindr r f).
Proof. destruct r; cbn; auto. Qed.
Lemma okr_w {X} (P Q : X -> Prop) r : (forall a, P a -> Q a) -> okr P r -> okr Q r.
Proof. destruct r; cbn; auto. Qed.
Lemma nb_w A B x : (A <= B)%Q -> nb A x -> nb B x.
Proof. unfold at_most. intros. eapply Qle_trans; eassumption. Qed.
Lemma nb_pos A x : nb A x -> (0 <= A)%Q.
Proof. unfold at_most. intros H. eapply Qle_trans; [apply Qabs_nonneg|exact H]. Qed.
Lemma nb_small A x : nb A x -> (A <= G)%Q -> small x = true.
Proof. unfold small, at_most, G. intros H L. apply Qle_bool_iff. eapply Qle_trans; eassumption. Qed.
Lemma nb_add A B x y : nb A x -> nb B y -> nb (A + B) (nadd x y).
Proof. unfold at_most. intros X Y. rewrite nval_add, this_add. eapply Qle_trans; [apply Qabs_triangle|]. apply Qplus_le_compat; assumption. Qed.
Lemma nb_sub A B x y : nb A x -> nb B y -> nb (A + B) (nsub x y).
Proof. unfold at_most. intros X Y. rewrite nval_sub, this_sub. unfold Qminus. eapply Qle_trans; [apply Qabs_triangle|]. rewrite Qabs_opp. apply Qplus_le_compat; assumption. Qed.
Lemma nb_neg A x : nb A x -> nb A (nneg x).
Proof.
  unfold at_most. intros X. replace (nval (nneg x)) with (- nval x)%Qc; [rewrite this_opp, Qabs_opp; exact X|].
  destruct x; cbn [nneg nval]; [symmetry; apply Z2Qc_opp|reflexivity].
Qed.
Lemma floor_half q A : (Qabs q <= A)%Q -> (Qabs (inject_Z (Qfloor (q * (1 # 2)))) <= A + 1)%Q.
Proof.
  intros H. apply Qabs_Qle_condition in H. apply Qabs_Qle_condition. assert (U := Qfloor_le (q * (1 # 2))). assert (L := Qlt_floor (q * (1 # 2))).
  rewrite inject_Z_plus in L. change (inject_Z 1) with 1%Q in L. split; lra.
Qed.
Lemma nb_half A x : nb A x -> nb (A + 1) (nhalf x).
Proof.
  unfold at_most. destruct x as [z|q]; cbn [nhalf nval].
  - rewrite !this_Z2Qc. intros H. assert (E : z / 2 = Qfloor (inject_Z z * (1 # 2))).
    { unfold Qfloor, inject_Z, Qmult. cbn [Qnum Qden]. rewrite Z.mul_1_r. reflexivity. }
    rewrite E. apply floor_half, H.
  - intros H. rewrite this_Z2Qc. assert (E : Qfloor (this (q / Z2Qc 2)%Qc) = Qfloor (this q * (1 # 2))) by (apply Qfloor_comp; rewrite this_div, this_Z2Qc; reflexivity).
    rewrite E. apply floor_half, H.
Qed.
Lemma nb_max A x y : nb A x -> nb A y -> nb A (nmax x y).
Proof. unfold nmax. destruct nltb; auto. Qed.
Lemma nb_min A x y : nb A x -> nb A y -> nb A (nmin x y).
Proof. unfold nmin. destruct nltb; auto. Qed.
Lemma nb_if A (c : bool) x y : nb A x -> nb A y -> nb A (if c then x else y).
Proof. destruct c; auto. Qed.
Lemma okr_num A v : lb A v -> okr (nb A) (as_num v).
Proof. destruct v; cbn; auto; discriminate. Qed.
Lemma guarded_okr (P : num -> Prop) r xs : forallb small (r :: xs) = true -> P r -> okr P (guarded r xs).
Proof. intros H Pr. unfold guarded. rewrite H. exact Pr. Qed.
(** ** The exact operations with any conversion of lengths, stopping at large numbers *)
Definition guarded_arith (PX : ctx -> unit_ -> res num) : arith :=
  mkArith (fun x y => guarded (nadd x y) [x; y]) (fun x y => guarded (nsub x y) [x; y])
          (fun x y => guarded (nmul x y) [x; y]) (fun x => guarded (nhalf x) [x]) PX.
Section Gen.
(** [plen d B u]: the length [u] converts to at most [B] px on the display [d], whatever the containing block. *)
Context (PX : ctx -> unit_ -> res num) (plen : display_t -> Q -> unit_ -> Prop).
Context (c_px : forall d B sz u, plen d B u -> okr (nb B) (PX (mkCtx d dummy_font sz) u)).
Notation K := (guarded_arith PX).
Definition pstyle (d : display_t) (B : Q) (s : style) : Prop :=
  (forall u, In u (lengths_of s) -> plen d B u)
  /\ st_top s <> OInherit /\ st_right s <> OInherit /\ st_bottom s <> OInherit /\ st_left s <> OInherit.
Definition pdoc {S} (sty : S -> style) (d : display_t) (B : Q) (n : node S) : Prop :=
  forall p m, get_path p n = Some m -> pstyle d B (sty (n_style m)) /\ plain_size B (n_intr m).
Lemma c_add A B x y : nb A x -> nb B y -> (A + B <= G)%Q -> okr (nb (A + B)) (a_add K x y).
Proof.
  intros X Y L. assert (Px := nb_pos _ _ X). assert (Py := nb_pos _ _ Y). assert (R := nb_add A B x y X Y). apply guarded_okr; [|exact R].
  cbn [forallb]. rewrite (nb_small _ _ R L), (nb_small _ _ X), (nb_small _ _ Y); [reflexivity|lra|lra].
Qed.
Lemma c_sub A B x y : nb A x -> nb B y -> (A + B <= G)%Q -> okr (nb (A + B)) (a_sub K x y).
Proof.
  intros X Y L. assert (Px := nb_pos _ _ X). assert (Py := nb_pos _ _ Y). assert (R := nb_sub A B x y X Y). apply guarded_okr; [|exact R].
  cbn [forallb]. rewrite (nb_small _ _ R L), (nb_small _ _ X), (nb_small _ _ Y); [reflexivity|lra|lra].
Qed.
Lemma c_half A x : nb A x -> (A + 1 <= G)%Q -> okr (nb (A + 1)) (a_half K x).
Proof.
  intros X L. assert (R := nb_half A x X). apply guarded_okr; [|exact R].
  cbn [forallb]. rewrite (nb_small _ _ R L), (nb_small _ _ X); [reflexivity|lra].
Qed.
Fixpoint qsum (l : list Q) : Q := match l with [] => 0 | x :: l' => x + qsum l' end.
Lemma qsum_pos bs ys : Forall2 nb bs ys -> (0 <= qsum bs)%Q.
Proof. induction 1 as [|b y bs ys H T IH]; cbn; [lra|]. assert (P := nb_pos _ _ H). lra. Qed.
Lemma c_sum bs ys : Forall2 nb bs ys -> forall A x, nb A x -> (A + qsum bs <= G)%Q -> okr (nb (A + qsum bs)) (a_sum K x ys).
Proof.
  induction 1 as [|b y bs ys H T IH]; intros A x X L; cbn [a_sum qsum] in *.
  - eapply nb_w; [|exact X]. lra.
  - assert (P := qsum_pos _ _ T). eapply okr_bind; [apply (c_add A b); [exact X|exact H|lra]|]. intros z Z.
    eapply okr_w; [|apply (IH (A + b)%Q z Z); lra]. intros a. apply nb_w. lra.
Qed.
Lemma c_diff bs ys : Forall2 nb bs ys -> forall A x, nb A x -> (A + qsum bs <= G)%Q -> okr (nb (A + qsum bs)) (a_diff K x ys).
Proof.
  induction 1 as [|b y bs ys H T IH]; intros A x X L; cbn [a_diff qsum] in *.
  - eapply nb_w; [|exact X]. lra.
  - assert (P := qsum_pos _ _ T). eapply okr_bind; [apply (c_sub A b); [exact X|exact H|lra]|]. intros z Z.
    eapply okr_w; [|apply (IH (A + b)%Q z Z); lra]. intros a. apply nb_w. lra.
Qed.
(** The bound [B] of a sum whose terms have the bounds [bs]. *)
Lemma d_sum B A bs x ys : nb A x -> Forall2 nb bs ys -> (A + qsum bs <= B)%Q -> (B <= G)%Q -> okr (nb B) (a_sum K x ys).
Proof. intros X F L H. eapply okr_w; [|apply (c_sum bs ys F A x X); lra]. intros a. apply nb_w. exact L. Qed.
Lemma d_diff B A bs x ys : nb A x -> Forall2 nb bs ys -> (A + qsum bs <= B)%Q -> (B <= G)%Q -> okr (nb B) (a_diff K x ys).
Proof. intros X F L H. eapply okr_w; [|apply (c_diff bs ys F A x X); lra]. intros a. apply nb_w. exact L. Qed.
Lemma d_add B A A' x y : nb A x -> nb A' y -> (A + A' <= B)%Q -> (B <= G)%Q -> okr (nb B) (a_add K x y).
Proof. intros X Y L H. eapply okr_w; [|apply (c_add A A' x y X Y); lra]. intros a. apply nb_w. exact L. Qed.
Section Bounds.
(** [L] bounds the lengths, [W] the widths and the terms of heights, [X] the positions. *)
Variables (d : display_t) (L W X : Q).
Hypothesis HL : (300 <= L)%Q.
Hypothesis HW : (7 * L <= W)%Q.
Hypothesis HX : (20 * W <= X)%Q.
Hypothesis HG : (X <= G)%Q.
Hypothesis HD : plain_display L d.
Notation cx sz := (mkCtx d dummy_font sz).

(** ** One box *)
(** Margins left and right at most [m], content width [w], height [h], top [t], left [l], origin [o]. *)
Definition bk (m w h t l o : Q) (b : box) : Prop :=
  (lb w (content_width b) /\ lb h (content_height b) /\ nb t (content_top b) /\ nb l (content_left b))
  /\ (nb o (origin_top b) /\ nb o (origin_left b))
  /\ (lb L (margin_top b) /\ lb m (margin_right b) /\ lb L (margin_bottom b) /\ lb m (margin_left b))
  /\ (nb L (border_top_width b) /\ nb L (border_right_width b) /\ nb L (border_bottom_width b) /\ nb L (border_left_width b))
  /\ (nb L (padding_top b) /\ nb L (padding_right b) /\ nb L (padding_bottom b) /\ nb L (padding_left b))
  /\ (nb L (NI (collapse_top b)) /\ nb L (NI (collapse_bottom b))).
Ltac bkd H := destruct H as ((Hcw & Hch & Hct & Hcl) & (Hot & Hol) & (Hmt & Hmr & Hmb & Hml) & (Hbt & Hbr & Hbb & Hbl) & (Hpt & Hpr & Hpb & Hpl) & (Hkt & Hkb)).
Lemma lb_w A B v : (A <= B)%Q -> lb A v -> lb B v.
Proof. destruct v; cbn; auto. apply nb_w. Qed.
Lemma bk_w m w h t l o m' w' h' t' l' o' b : (m <= m')%Q -> (w <= w')%Q -> (h <= h')%Q -> (t <= t')%Q -> (l <= l')%Q -> (o <= o')%Q ->
  bk m w h t l o b -> bk m' w' h' t' l' o' b.
Proof.
  intros Em Ew Eh Et El Eo H. bkd H. unfold bk. repeat split; try assumption;
    first [eapply lb_w; [|eassumption]; assumption | eapply nb_w; [|eassumption]; assumption].
Qed.
Lemma nb_zero B : (0 <= B)%Q -> nb B n0.
Proof. intros H. unfold at_most. exact H. Qed.
Lemma nb_int B z : (inject_Z (Z.abs z) <= B)%Q -> nb B (NI z).
Proof. unfold at_most. cbn [nval]. rewrite this_Z2Qc. auto. Qed.
Lemma L0 : (0 <= L)%Q. Proof. lra. Qed.
Lemma bk0 o : (0 <= o)%Q -> bk 0 0 0 0 0 o box0.
Proof.
  intros O. assert (P := L0). unfold bk. cbn. repeat split; try (apply nb_zero; assumption); try (apply nb_zero; apply Qle_refl); apply nb_int; assumption.
Qed.
Ltac upd := intros; match goal with H : bk _ _ _ _ _ _ ?b |- _ => destruct b; bkd H end; cbn in *; unfold bk; cbn; repeat split; assumption.
Lemma k_cw v m w w' h t l o b : lb w' v -> bk m w h t l o b -> bk m w' h t l o (upd_content_width v b). Proof. upd. Qed.
Lemma k_ch v m w h h' t l o b : lb h' v -> bk m w h t l o b -> bk m w h' t l o (upd_content_height v b). Proof. upd. Qed.
Lemma k_ct v m w h t t' l o b : nb t' v -> bk m w h t l o b -> bk m w h t' l o (upd_content_top v b). Proof. upd. Qed.
Lemma k_cl v m w h t l l' o b : nb l' v -> bk m w h t l o b -> bk m w h t l' o (upd_content_left v b). Proof. upd. Qed.
Lemma k_ot v m w h t l o b : nb o v -> bk m w h t l o b -> bk m w h t l o (upd_origin_top v b). Proof. upd. Qed.
Lemma k_ol v m w h t l o b : nb o v -> bk m w h t l o b -> bk m w h t l o (upd_origin_left v b). Proof. upd. Qed.
Lemma k_bt v m w h t l o b : nb L v -> bk m w h t l o b -> bk m w h t l o (upd_border_top_width v b). Proof. upd. Qed.
Lemma k_br v m w h t l o b : nb L v -> bk m w h t l o b -> bk m w h t l o (upd_border_right_width v b). Proof. upd. Qed.
Lemma k_bb v m w h t l o b : nb L v -> bk m w h t l o b -> bk m w h t l o (upd_border_bottom_width v b). Proof. upd. Qed.
Lemma k_bl v m w h t l o b : nb L v -> bk m w h t l o b -> bk m w h t l o (upd_border_left_width v b). Proof. upd. Qed.
Lemma k_pt v m w h t l o b : nb L v -> bk m w h t l o b -> bk m w h t l o (upd_padding_top v b). Proof. upd. Qed.
Lemma k_pr v m w h t l o b : nb L v -> bk m w h t l o b -> bk m w h t l o (upd_padding_right v b). Proof. upd. Qed.
Lemma k_pb v m w h t l o b : nb L v -> bk m w h t l o b -> bk m w h t l o (upd_padding_bottom v b). Proof. upd. Qed.
Lemma k_pl v m w h t l o b : nb L v -> bk m w h t l o b -> bk m w h t l o (upd_padding_left v b). Proof. upd. Qed.
Lemma nb_grow v z : lb L v -> nb L (NI z) -> nb L (NI (grow v z)).
Proof. intros V Z. destruct v as [[x|x]| |]; cbn; try exact Z. destruct (z <? x); [exact V|exact Z]. Qed.
Lemma k_kt v m w h t l o b : lb L v -> bk m w h t l o b -> bk m w h t l o (set_collapse_top v b).
Proof. intros V H. assert (N : nb L (NI (grow v (collapse_top b)))) by (apply nb_grow; [exact V|bkd H; assumption]). unfold set_collapse_top. revert H N. generalize (grow v (collapse_top b)). upd. Qed.
Lemma k_kb v m w h t l o b : lb L v -> bk m w h t l o b -> bk m w h t l o (set_collapse_bottom v b).
Proof. intros V H. assert (N : nb L (NI (grow v (collapse_bottom b)))) by (apply nb_grow; [exact V|bkd H; assumption]). unfold set_collapse_bottom. revert H N. generalize (grow v (collapse_bottom b)). upd. Qed.
Lemma k_mt0 v m w h t l o b : lb L v -> bk m w h t l o b -> bk m w h t l o (upd_margin_top v b). Proof. upd. Qed.
Lemma k_mb0 v m w h t l o b : lb L v -> bk m w h t l o b -> bk m w h t l o (upd_margin_bottom v b). Proof. upd. Qed.
Lemma k_mt v m w h t l o b : lb L v -> bk m w h t l o b -> bk m w h t l o (set_margin_top v b).
Proof. intros V H. unfold set_margin_top. destruct leqb; [exact H|]. apply k_kt; [exact V|]. apply k_mt0; assumption. Qed.
Lemma k_mb v m w h t l o b : lb L v -> bk m w h t l o b -> bk m w h t l o (set_margin_bottom v b).
Proof. intros V H. unfold set_margin_bottom. destruct leqb; [exact H|]. apply k_kb; [exact V|]. apply k_mb0; assumption. Qed.
Lemma k_mr v m w h t l o b : lb m v -> bk m w h t l o b -> bk m w h t l o (set_margin_right v b).
Proof. intros V H. unfold set_margin_right. destruct leqb; [exact H|]. unfold set_collapse_right. revert V H. generalize (grow v (collapse_right (upd_margin_right v b))). upd. Qed.
Lemma k_ml v m w h t l o b : lb m v -> bk m w h t l o b -> bk m w h t l o (set_margin_left v b).
Proof. intros V H. unfold set_margin_left. destruct leqb; [exact H|]. unfold set_collapse_left. revert V H. generalize (grow v (collapse_left (upd_margin_left v b))). upd. Qed.

(** ** Computations on one box *)
Definition hb {A} (P : box -> Prop) (c : BM A) (Q : A -> box -> Prop) : Prop :=
  forall b, P b -> match c b with (b', Ok a) => Q a b' | (_, Err e) => e <> Unmodelled end.
Lemma hb_ret {A} (P : box -> Prop) (a : A) (Q : A -> box -> Prop) : (forall b, P b -> Q a b) -> hb P (bret a) Q.
Proof. intros H b Hb. exact (H b Hb). Qed.
Lemma hb_fail {A} (P : box -> Prop) e (Q : A -> box -> Prop) : e <> Unmodelled -> hb P (bfail e) Q.
Proof. intros H b Hb. exact H. Qed.
Lemma hb_bind {A B} (P : box -> Prop) (c : BM A) Q (f : A -> BM B) R : hb P c Q -> (forall a, hb (Q a) (f a) R) -> hb P (bbind c f) R.
Proof. intros H F b Hb. specialize (H b Hb). unfold bbind. destruct (c b) as [b' [a|e]]; [exact (F a b' H)|exact H]. Qed.
Lemma hb_pure {A} (F : Prop) (P : box -> Prop) (c : BM A) Q : (F -> hb P c Q) -> hb (fun b => F /\ P b) c Q.
Proof. intros H b [Hf Hb]. exact (H Hf b Hb). Qed.
Lemma hb_num {A} B (P : box -> Prop) f (k : num -> BM A) Q : (forall b, P b -> lb B (f b)) -> (forall a, nb B a -> hb P (k a) Q) -> hb P (bbind (bnum f) k) Q.
Proof. intros F H b Hb. unfold bbind, bnum. specialize (F b Hb). destruct (f b); cbn; [exact (H n F b Hb)|discriminate|discriminate]. Qed.
Lemma hb_get {A} B (P : box -> Prop) f (k : num -> BM A) Q : (forall b, P b -> nb B (f b)) -> (forall a, nb B a -> hb P (k a) Q) -> hb P (bbind (bget f) k) Q.
Proof. intros F H b Hb. exact (H (f b) (F b Hb) b Hb). Qed.
Lemma hb_getb {A Y} (P : box -> Prop) (f : box -> Y) (k : Y -> BM A) Q : (forall a, hb P (k a) Q) -> hb P (bbind (bget f) k) Q.
Proof. intros H b Hb. exact (H (f b) b Hb). Qed.
Lemma hb_lift {A Y} (R : Y -> Prop) (P : box -> Prop) r (k : Y -> BM A) Q : okr R r -> (forall a, R a -> hb P (k a) Q) -> hb P (bbind (blift r) k) Q.
Proof. intros F H b Hb. unfold bbind, blift. destruct r as [a|e]; cbn in *; [exact (H a F b Hb)|exact F]. Qed.
Lemma hb_last {Y} (R : Y -> Prop) (P : box -> Prop) (r : res Y) : okr R r -> hb P (blift r) (fun a b => R a /\ P b).
Proof. intros F b Hb. unfold blift. destruct r; cbn in *; auto. Qed.
Lemma hb_mod {A} (P P' : box -> Prop) f (k : BM A) Q : (forall b, P b -> P' (f b)) -> hb P' k Q -> hb P (bbind (bmod f) (fun _ => k)) Q.
Proof. intros F H b Hb. exact (H (f b) (F b Hb)). Qed.
Lemma hb_modl (P : box -> Prop) f (Q : box -> Prop) : (forall b, P b -> Q (f b)) -> hb P (bmod f) (fun _ => Q).
Proof. intros F b Hb. exact (F b Hb). Qed.
Lemma hb_w {A} (P P' : box -> Prop) (c : BM A) (Q Q' : A -> box -> Prop) : (forall b, P' b -> P b) -> (forall a b, Q a b -> Q' a b) -> hb P c Q -> hb P' c Q'.
Proof. intros F H C b Hb. specialize (C b (F b Hb)). destruct (c b) as [b' [a|e]]; auto. Qed.
Lemma hb_if {A} (x : bool) (P : box -> Prop) (c c' : BM A) Q : hb P c Q -> hb P c' Q -> hb P (if x then c else c') Q.
Proof. destruct x; auto. Qed.
Ltac bfld := let b := fresh in let H := fresh in intros b H; bkd H; eassumption.
Ltac rd := lazymatch goal with
  | |- hb _ (bbind (bnum ?f) _) _ => eapply (hb_num _ _ f); [bfld|intros ? ?]
  | |- hb _ (bbind (bget ?f) _) _ => eapply (hb_get _ _ f); [bfld|intros ? ?]
  end.

Lemma lb0 B : (0 <= B)%Q -> lb B l0. Proof. apply nb_zero. Qed.
Lemma h_left0 {A} m w h t l o (k : BM A) Q : (0 <= m)%Q -> hb (bk m w h t l o) k Q -> hb (bk m w h t l o) (bbind auto_left0 (fun _ => k)) Q.
Proof. intros M H. eapply hb_mod; [|exact H]. intros b B. destruct is_auto; [apply k_ml; [apply lb0, M|exact B]|exact B]. Qed.
Lemma h_right0 {A} m w h t l o (k : BM A) Q : (0 <= m)%Q -> hb (bk m w h t l o) k Q -> hb (bk m w h t l o) (bbind auto_right0 (fun _ => k)) Q.
Proof. intros M H. eapply hb_mod; [|exact H]. intros b B. destruct is_auto; [apply k_mr; [apply lb0, M|exact B]|exact B]. Qed.
Lemma h_top0 {A} m w h t l o (k : BM A) Q : hb (bk m w h t l o) k Q -> hb (bk m w h t l o) (bbind auto_top0 (fun _ => k)) Q.
Proof. intros H. eapply hb_mod; [|exact H]. intros b B. destruct is_auto; [apply k_mt; [apply lb0, L0|exact B]|exact B]. Qed.
Lemma h_bottom0 {A} m w h t l o (k : BM A) Q : hb (bk m w h t l o) k Q -> hb (bk m w h t l o) (bbind auto_bottom0 (fun _ => k)) Q.
Proof. intros H. eapply hb_mod; [|exact H]. intros b B. destruct is_auto; [apply k_mb; [apply lb0, L0|exact B]|exact B]. Qed.

(** ** Edges *)
Lemma c_len sz u : plen d L u -> okr (nb L) (calc_lenA K (cx sz) u).
Proof. intros P. unfold calc_lenA. destruct u_eq_int; [apply nb_zero, L0|apply c_px, P]. Qed.
Lemma c_margin sz v : (forall u, In u (of_lenauto v) -> plen d L u) -> okr (lb L) (calc_marginA K (cx sz) v).
Proof. intros P. destruct v; cbn [calc_marginA]; [exact I|]. eapply okr_bind; [apply c_len, P; left; reflexivity|]. intros a H. exact H. Qed.
Lemma c_border sz v : (forall u, In u (of_border v) -> plen d L u) -> okr (nb L) (calc_borderA K (cx sz) v).
Proof. intros P. destruct v; cbn [calc_borderA]; [apply HD|]. apply c_len, P. left. reflexivity. Qed.
Lemma plain_in s u l : (forall u, In u (lengths_of s) -> plen d L u) -> (forall u, In u l -> In u (lengths_of s)) -> In u l -> plen d L u.
Proof. auto. Qed.
Ltac inl := intros ?; unfold lengths_of; rewrite !in_app_iff; cbn [In]; tauto.
Lemma h_edges s sz sz' o : pstyle d L s ->
  hb (bk 0 0 0 0 0 o) (copy_edgesA K s (cx sz) (cx sz')) (fun _ => bk L 0 0 0 0 o).
Proof.
  intros [P _]. assert (Z := L0). unfold copy_edgesA.
  apply hb_w with (P := bk L 0 0 0 0 o) (Q := fun _ => bk L 0 0 0 0 o); [|auto|].
  { intros b. apply bk_w; lra. }
  assert (I : forall l, (forall u, In u l -> In u (lengths_of s)) -> forall u, In u l -> plen d L u) by (intros l H u U; apply P, H, U).
  repeat (eapply hb_bind with (Q := fun _ => bk L 0 0 0 0 o); [|intros _]).
  all: eapply hb_lift; [first [apply c_margin; apply I; inl | apply c_border; apply I; inl | apply c_len, P; unfold lengths_of; rewrite !in_app_iff; cbn [In]; tauto]|].
  all: intros a H; apply hb_modl; intros b B; first [apply k_mt | apply k_mr | apply k_mb | apply k_ml | apply k_bt | apply k_br | apply k_bb | apply k_bl
    | apply k_pt | apply k_pr | apply k_pb | apply k_pl]; assumption.
Qed.

(** ** Widths: [q] bounds the width of the containing block *)
Section Width.
Variables (q o : Q).
Hypothesis Hq : (L <= q)%Q.
Hypothesis HqW : (q + 6 * L <= W)%Q.
Variable sz : lval.
Hypothesis Hsz : lb q sz.
Notation w' := (q + 6 * L)%Q.
Ltac f2 := repeat (first [apply Forall2_nil | apply Forall2_cons; [eassumption|]]).
Ltac rdz := eapply (hb_lift (nb q)); [apply okr_num; exact Hsz|intros ? ?].
Lemma h_left_edge w : hb (bk w' w 0 0 0 o) (left_edgeA K) (fun a b => nb (q + 8 * L) a /\ bk w' w 0 0 0 o b).
Proof. unfold left_edgeA. do 3 rd. apply hb_last. eapply d_sum; [eassumption|f2|cbn [qsum]; lra|lra]. Qed.
Lemma h_avail m : (m <= L)%Q -> hb (bk m 0 0 0 0 o) (avail_widthA K (cx sz)) (fun a b => nb w' a /\ bk m 0 0 0 0 o b).
Proof. intros M. unfold avail_widthA. rdz. do 6 rd. apply hb_last. eapply d_diff; [eassumption|f2|cbn [qsum]; lra|lra]. Qed.
Lemma h_solve_right cw : nb L cw -> hb (bk L 0 0 0 0 o) (solve_rightA K cw (cx sz)) (fun _ => bk w' 0 0 0 0 o).
Proof.
  intros C. unfold solve_rightA. rdz. do 5 rd. eapply (hb_lift (nb w')); [eapply d_diff; [eassumption|f2|cbn [qsum]; lra|lra]|]. intros m H5.
  apply hb_modl. intros b B. apply k_mr; [exact H5|]. revert B. apply bk_w; lra.
Qed.
Lemma h_solve_left cw : nb L cw -> hb (bk L 0 0 0 0 o) (solve_leftA K cw (cx sz)) (fun _ => bk w' 0 0 0 0 o).
Proof.
  intros C. unfold solve_leftA. rdz. do 5 rd. eapply (hb_lift (nb w')); [eapply d_diff; [eassumption|f2|cbn [qsum]; lra|lra]|]. intros m H5.
  apply hb_modl. intros b B. apply k_ml; [exact H5|]. revert B. apply bk_w; lra.
Qed.
Lemma h_split cw : nb L cw -> hb (bk L 0 0 0 0 o) (split_marginsA K cw (cx sz)) (fun _ => bk w' 0 0 0 0 o).
Proof.
  intros C. unfold split_marginsA. rdz. do 4 rd. eapply (hb_lift (nb (q + 5 * L))); [eapply d_diff; [eassumption|f2|cbn [qsum]; lra|lra]|]. intros m H5.
  eapply (hb_lift (nb w')).
  { eapply okr_w; [|apply c_half; [exact H5|lra]]. intros ?. apply nb_w. lra. }
  intros h Hh. eapply hb_mod with (P' := bk w' 0 0 0 0 o).
  { intros b B. apply k_ml; [exact Hh|]. revert B. apply bk_w; lra. }
  eapply (hb_lift (nb w')).
  { eapply okr_w; [|apply c_half; [exact H5|lra]]. intros ?. apply nb_w. lra. }
  intros h' Hh'. apply hb_modl. intros b B. apply k_mr; assumption.
Qed.
Lemma h_unless acc f A (P : box -> Prop) : nb A acc -> (forall b, P b -> lb L (f b)) -> (A + L <= G)%Q -> hb P (add_unless_autoA K acc f) (fun a b => nb (A + L) a /\ P b).
Proof.
  intros N F E b B. unfold add_unless_autoA. destruct is_auto; [split; [eapply nb_w; [|exact N]; lra|exact B]|].
  assert (R : okr (nb (A + L)) (bindr (as_num (f b)) (fun m => a_add K acc m))).
  { eapply okr_bind; [apply okr_num, (F b B)|]. intros m M. apply c_add; assumption. }
  destruct (bindr (as_num (f b)) (fun m => a_add K acc m)); cbn in *; auto.
Qed.
Lemma h_drop cw : nb L cw -> hb (bk L 0 0 0 0 o) (drop_auto_marginsA K cw (cx sz)) (fun _ => bk L 0 0 0 0 o).
Proof.
  intros C. assert (Z := L0). unfold drop_auto_marginsA. do 4 rd. eapply (hb_lift (nb (5 * L))); [eapply d_sum; [eassumption|f2|cbn [qsum]; lra|lra]|]. intros acc Ha.
  eapply hb_bind; [apply (h_unless acc margin_left (5 * L)%Q (bk L 0 0 0 0 o) Ha); [bfld|lra]|]. intros z1. apply hb_pure. intros Z1.
  eapply hb_bind; [apply (h_unless z1 margin_right _ (bk L 0 0 0 0 o) Z1); [bfld|lra]|]. intros z2. apply hb_pure. intros Z2.
  rdz. apply hb_if; [|apply hb_ret; auto]. apply h_left0; [exact Z|]. apply hb_modl. intros b B. destruct is_auto; [apply k_mr; [apply lb0, Z|exact B]|exact B].
Qed.
Lemma c_clamped s u : pstyle d L s -> plen d L u -> okr (nb L) (clamped_widthA K s u (cx sz)).
Proof.
  intros [P _] U. unfold clamped_widthA.
  assert (Pmax : forall m, st_max_width s = Some m -> plen d L m) by (intros m E; apply P; unfold lengths_of; rewrite E, !in_app_iff; cbn; tauto).
  assert (Pmin : forall m, st_min_width s = Len m -> plen d L m) by (intros m E; apply P; unfold lengths_of; rewrite E, !in_app_iff; cbn; tauto).
  eapply okr_bind; [apply c_px, U|]. intros w Hw. eapply okr_bind with (P := nb L).
  - destruct (st_max_width s) as [m|]; [|exact Hw]. eapply okr_bind; [apply c_px, Pmax; reflexivity|]. intros mx Hm. apply nb_if; assumption.
  - intros w1 Hw1. destruct (st_min_width s) as [|m]; [exact Hw1|]. eapply okr_bind; [apply c_px, Pmin; reflexivity|]. intros mn Hm. apply nb_if; assumption.
Qed.
Definition wpost (ol : option num) (b : box) : Prop := (forall x, ol = Some x -> nb (q + 8 * L) x) /\ bk w' w' 0 0 0 o b.
Lemma h_finish cw : nb w' cw -> hb (bk w' 0 0 0 0 o) (bbind (bmod (upd_content_width (LNum cw))) (fun _ => bbind (left_edgeA K) (fun l => bret (Some l)))) wpost.
Proof.
  intros C. eapply hb_mod with (P' := bk w' w' 0 0 0 o); [intros b B; eapply k_cw; [exact C|exact B]|].
  eapply hb_bind; [apply h_left_edge|]. intros l. apply hb_pure. intros Hl. apply hb_ret. intros b B. split; [|exact B]. intros x E. injection E as <-. exact Hl.
Qed.
Lemma h_block_width s : pstyle d L s -> hb (bk L 0 0 0 0 o) (block_non_replaced_widthA K s (cx sz)) wpost.
Proof.
  intros PS. assert (Z := L0). unfold block_non_replaced_widthA. eapply hb_bind with (Q := fun oc b => (forall x, oc = Some x -> nb L x) /\ bk L 0 0 0 0 o b).
  - destruct (st_width s) as [|u] eqn:E; [apply hb_ret; intros b B; split; [discriminate|exact B]|].
    eapply (hb_lift (nb L)).
    { apply c_clamped; [exact PS|]. destruct PS as [P _]. apply P. unfold lengths_of. rewrite E, !in_app_iff. cbn. tauto. }
    intros cw C. eapply hb_bind; [apply h_drop, C|]. intros ?. apply hb_ret. intros b B. split; [|exact B]. intros x X'. injection X' as <-. exact C.
  - intros oc. apply hb_pure. intros O. apply hb_getb. intros la. apply hb_getb. intros ra.
    eapply hb_bind with (Q := fun cw b => nb w' cw /\ bk w' 0 0 0 0 o b); [|intros cw; apply hb_pure; apply h_finish].
    assert (Up : forall cw b, nb L cw -> bk w' 0 0 0 0 o b -> nb w' cw /\ bk w' 0 0 0 0 o b) by (intros cw b H B; split; [eapply nb_w; [|exact H]; lra|exact B]).
    assert (Av : hb (bk L 0 0 0 0 o) (avail_widthA K (cx sz)) (fun cw b => nb w' cw /\ bk w' 0 0 0 0 o b)).
    { eapply hb_w; [| |apply h_avail; apply Qle_refl]; [auto|]. intros a b [H B]. split; [exact H|]. revert B. apply bk_w; lra. }
    destruct oc as [cw|]; [assert (C : nb L cw) by (apply O; reflexivity)|]; destruct la, ra.
    + eapply hb_bind; [apply h_split, C|]. intros ?. apply hb_ret. intros b. apply Up, C.
    + eapply hb_bind; [apply h_solve_left, C|]. intros ?. apply hb_ret. intros b. apply Up, C.
    + eapply hb_bind; [apply h_solve_right, C|]. intros ?. apply hb_ret. intros b. apply Up, C.
    + eapply hb_bind with (Q := fun _ => bk w' 0 0 0 0 o); [destruct (st_direction s); [apply h_solve_right, C|apply h_solve_left, C]|]. intros ?. apply hb_ret. intros b. apply Up, C.
    + apply h_left0; [exact Z|]. apply h_right0; [exact Z|]. exact Av.
    + apply h_left0; [exact Z|]. apply h_right0; [exact Z|]. exact Av.
    + apply h_left0; [exact Z|]. apply h_right0; [exact Z|]. exact Av.
    + exact Av.
Qed.
Lemma h_replaced_width s i : pstyle d L s -> plain_size L i -> hb (bk L 0 0 0 0 o) (inline_replaced_widthA K s i (cx sz)) wpost.
Proof.
  intros [P _] (Iw & Ih & Ir). assert (Z := L0). unfold inline_replaced_widthA. apply h_left0; [exact Z|]. apply h_right0; [exact Z|].
  eapply hb_bind with (Q := fun cw b => nb w' cw /\ bk w' 0 0 0 0 o b); [|intros cw; apply hb_pure; apply h_finish].
  assert (Up : forall cw b, nb L cw -> bk L 0 0 0 0 o b -> nb w' cw /\ bk w' 0 0 0 0 o b).
  { intros cw b H B; split; [eapply nb_w; [|exact H]; lra|]. revert B. apply bk_w; lra. }
  assert (N3 : nb L (NI 300)) by (apply nb_int; exact HL).
  destruct (st_width s) as [|u] eqn:E.
  - rewrite Ir. destruct (st_height s), (BoxModel.s_width i) as [x|], (BoxModel.s_height i); apply hb_ret; intros b; apply Up; first [exact N3 | apply Iw; reflexivity].
  - eapply hb_w with (P := bk L 0 0 0 0 o); [auto| |apply (hb_last (nb L))]; [intros a b [H B]; apply Up; assumption|].
    apply c_px, P. unfold lengths_of. rewrite E, !in_app_iff. cbn. tauto.
Qed.
Lemma h_inline_width i : plain_size L i -> hb (bk L 0 0 0 0 o) (inline_non_replaced_width i) wpost.
Proof.
  intros (Iw & _). assert (Z := L0). unfold inline_non_replaced_width. apply h_left0; [exact Z|]. apply h_right0; [exact Z|].
  eapply hb_mod with (P' := bk L L 0 0 0 o).
  - intros b B. eapply k_cw; [|exact B]. destruct (BoxModel.s_width i) as [x|]; cbn; [apply Iw; reflexivity|exact I].
  - apply hb_ret. intros b B. split; [discriminate|]. revert B. apply bk_w; lra.
Qed.
Lemma h_width s i : pstyle d L s -> plain_size L i -> hb (bk L 0 0 0 0 o) (calculate_widthA K s i (cx sz)) wpost.
Proof.
  intros P I. unfold calculate_widthA.
  repeat (apply hb_if; try (apply hb_fail; discriminate)); [apply h_replaced_width|apply h_inline_width|apply h_block_width]; assumption.
Qed.
End Width.

(** ** Heights: [B] bounds the bottom of the last child *)
Definition bot (B : Q) (b : box) : Prop := okr (nb B) (border_box_bottomA K b) /\ nb L (NI (collapse_bottom b)).
Lemma bot_bk B m w h t l o b : bk m w h t l o b -> (t + h + 2 * L <= B)%Q -> (B <= G)%Q -> bot B b.
Proof.
  intros H E EG. bkd H. split; [|exact Hkb]. unfold border_box_bottomA. eapply okr_bind; [apply okr_num; exact Hch|]. intros a Ha.
  eapply d_sum; [exact Hct|repeat (first [apply Forall2_nil | apply Forall2_cons; [eassumption|]])|cbn [qsum]; lra|exact EG].
Qed.
Section Height.
Variables (w B t l o : Q).
Hypothesis Hw : (w <= W)%Q.
Hypothesis HB : (W + 1 <= B)%Q.
Hypothesis HBG : (B <= G)%Q.
Variable sz : lval.
Ltac f2 := repeat (first [apply Forall2_nil | apply Forall2_cons; [eassumption|]]).
Notation pre h := (bk W w h t l o).
Notation post := (fun a b => nb (3 * L) a /\ bk W w B t l o b).
Lemma h_top_edge : hb (pre B) (top_edgeA K) post.
Proof. unfold top_edgeA. do 3 rd. apply hb_last. eapply d_sum; [eassumption|f2|cbn [qsum]; lra|lra]. Qed.
Lemma h_inline_height h i : plain_size L i -> hb (pre h) (inline_non_replaced_heightA K i) post.
Proof.
  intros (_ & Ih & _). assert (Z := L0). unfold inline_non_replaced_heightA. eapply hb_mod; [|apply h_top_edge]. intros b H. eapply k_ch; [|exact H].
  destruct (BoxModel.s_height i) as [x|]; cbn; [|exact I]. eapply nb_w; [|apply Ih; reflexivity]. lra.
Qed.
Lemma h_half h : hb (pre h) (half_width_heightA K) (fun a b => nb B a /\ pre h b).
Proof.
  assert (Z := L0). unfold half_width_heightA. rd. eapply (hb_lift (nb B)).
  { eapply okr_w; [|apply c_half; [eassumption|lra]]. intros ?. apply nb_w. lra. }
  intros hv Ha. apply hb_ret. intros b Hb. split; [|exact Hb]. apply nb_min; [exact Ha|]. apply nb_int. change (inject_Z (Z.abs 150)) with 150%Q. lra.
Qed.
Lemma h_replaced_height h s i : pstyle d L s -> plain_size L i -> hb (pre h) (inline_replaced_heightA K s i (cx sz)) post.
Proof.
  intros [P _] (_ & Ih & Ir). assert (Z := L0). unfold inline_replaced_heightA. apply h_top0. apply h_bottom0.
  eapply hb_bind with (Q := fun ch b => nb B ch /\ pre h b).
  - assert (R : forall x, BoxModel.s_height i = Some x -> hb (pre h) (bret x) (fun ch b => nb B ch /\ pre h b)).
    { intros x E. apply hb_ret. intros b Hb. split; [|exact Hb]. eapply nb_w; [|apply Ih, E]. lra. }
    destruct (st_height s) as [|u] eqn:E.
    + rewrite Ir. destruct (st_width s), (BoxModel.s_height i) as [x|]; try apply h_half; try (apply R; reflexivity); destruct truthy; try apply h_half; apply R; reflexivity.
    + eapply hb_w with (P := pre h); [auto| |apply (hb_last (nb L))]; [intros a b [H H']; split; [eapply nb_w; [|exact H]; lra|exact H']|].
      apply c_px, P. unfold lengths_of. rewrite E, !in_app_iff. cbn. tauto.
  - intros ch. apply hb_pure. intros C. eapply hb_mod; [|apply h_top_edge]. intros b H. eapply k_ch; [exact C|exact H].
Qed.
Lemma h_block_height h s ph last : pstyle d L s -> (forall u, ph = Some u -> plen d L u) -> (forall b, last = Some (Some b) -> bot B b) ->
  hb (pre h) (block_non_replaced_heightA K s ph last (cx sz)) post.
Proof.
  intros [P _] Ph Hl. assert (Z := L0). unfold block_non_replaced_heightA. apply h_top0. apply h_bottom0.
  assert (Up : forall a b, nb L a /\ pre h b -> nb B a /\ pre h b) by (intros a b [H H']; split; [eapply nb_w; [|exact H]; lra|exact H']).
  eapply hb_bind with (Q := fun ch b => nb B ch /\ pre h b).
  - unfold block_content_heightA. destruct (st_height s) as [|u] eqn:E.
    + destruct last as [[lb0|]|].
      * destruct (Hl lb0 eq_refl) as [H1 H2]. eapply hb_lift; [exact H1|]. intros a Ha. eapply hb_mod; [|apply hb_ret; intros b Hb; split; [exact Ha|exact Hb]].
        intros b Hb. apply k_kb; [exact H2|exact Hb].
      * apply hb_fail. discriminate.
      * destruct (st_min_height s) as [|v] eqn:E'.
        -- apply hb_ret. intros b Hb. apply Up. split; [apply nb_zero, Z|exact Hb].
        -- eapply hb_w with (P := pre h); [auto|apply Up|]. apply hb_last. apply c_px, P. unfold lengths_of. rewrite E', !in_app_iff. cbn. tauto.
    + eapply hb_w with (P := pre h); [auto|apply Up|].
      assert (Pu : plen d L u) by (apply P; unfold lengths_of; rewrite E, !in_app_iff; cbn; tauto).
      eapply hb_bind with (Q := fun a b => nb L a /\ pre h b).
      * destruct ph as [pu|].
        -- eapply hb_lift; [apply c_px, Ph; reflexivity|]. intros p _. apply hb_last. apply (c_px d L (LNum p) u Pu).
        -- apply hb_last, c_px, Pu.
      * intros a. apply hb_pure. intros Ha. destruct (st_max_height s) as [m|] eqn:E'; [|apply hb_ret; auto].
        eapply hb_lift; [apply c_px, P; unfold lengths_of; rewrite E', !in_app_iff; cbn; tauto|]. intros x Hx. apply hb_ret. intros b Hb. split; [apply nb_if; assumption|exact Hb].
  - intros ch. apply hb_pure. intros C. eapply hb_mod with (P' := pre B); [intros b H; eapply k_ch; [exact C|exact H]|].
    do 2 rd. apply hb_last. eapply d_add; [eassumption|eassumption|lra|lra].
Qed.
Lemma h_height h s i ph last : pstyle d L s -> plain_size L i -> (forall u, ph = Some u -> plen d L u) -> (forall b, last = Some (Some b) -> bot B b) ->
  hb (pre h) (calculate_heightA K s i ph last (cx sz)) post.
Proof.
  intros P I Hp Hl. unfold calculate_heightA.
  repeat (apply hb_if; try (apply hb_fail; discriminate)); [apply h_replaced_height|apply h_inline_height|apply h_block_height]; assumption.
Qed.
End Height.

(** ** Trees *)
Context {S : Type} (sty : S -> style).
Notation node := (node S).
(** Boxes after a reset, whatever their origin. *)
Definition fr (b : box) : Prop := exists t l, b = upd_origin_top t (upd_origin_left l box0).
Definition anyb (b : box) : Prop := True.
Definition ins (F : box -> Prop) : Prop := forall v b, F b -> F (upd_origin_top v b) /\ F (upd_origin_left v b).
Lemma ins_fr : ins fr.
Proof. intros v b (t & l & ->). split; [exists v, l|exists t, v]; reflexivity. Qed.
Lemma ins_any : ins anyb. Proof. split; exact I. Qed.
Inductive tr (F : box -> Prop) : Q -> node -> Prop :=
| tr_ o s i bx ks : (o + X <= G)%Q -> pstyle d L (sty s) -> plain_size L i ->
    (forall b, bx = Some b -> F b /\ nb X (content_top b) /\ nb X (content_left b) /\ nb o (origin_top b) /\ nb o (origin_left b)) ->
    (forall k, In k ks -> tr F (o + X) k) -> tr F o (Node s i bx ks).
Lemma tr_any F o n : tr F o n -> tr anyb o n.
Proof.
  intros H. induction H as [o s i bx ks E P I B _ IH]. constructor; auto. intros b Hb. destruct (B b Hb) as (_ & H). split; [exact Logic.I|exact H].
Qed.
Definition kids (F : box -> Prop) (o : Q) (N : nat) (ks : list node) : Prop :=
  (forall k, In k ks -> tr F o k) /\ fold_right Nat.add 0%nat (map count ks) = N.
Lemma rmap_kids F o N (f : node -> res node) ks : (forall k, In k ks -> tr F o k -> okr (fun k' => tr F o k' /\ count k' = count k) (f k)) ->
  kids F o N ks -> okr (kids F o N) (rmap f ks).
Proof.
  intros Hf [T E]. subst N. induction ks as [|k ks IH]; [split; [intros k []|reflexivity]|].
  change (rmap f (k :: ks)) with (bindr (f k) (fun y => bindr (rmap f ks) (fun r => Ok (y :: r)))).
  eapply okr_bind; [apply Hf; [left; reflexivity|apply T; left; reflexivity]|]. intros k' [T' E'].
  eapply okr_bind; [apply IH; [intros x Hx; apply Hf; right; exact Hx|intros x Hx; apply T; right; exact Hx]|]. intros r [Tr Er].
  split; [intros x [<-|Hx]; auto|]. cbn [map fold_right] in *. rewrite E'. f_equal. exact Er.
Qed.
Lemma cl_ot v b : content_left (upd_origin_top v b) = content_left b. Proof. destruct b; reflexivity. Qed.
Lemma nb_eq B x y : neqb x y = true -> nb B x -> nb B y.
Proof. intros E. destruct (neqb_spec x y) as [H|]; [|discriminate]. unfold at_most. rewrite H. auto. Qed.
Lemma so_top F : ins F -> forall n o v, tr F o n -> nb o v -> okr (fun n' => tr F o n' /\ count n' = count n) (set_origin_topA K v n).
Proof.
  intros HF n. induction n as [s i bx ks IH] using node_ind'. intros o v T V. inversion T as [o' s' i' bx' ks' E P I Bx Ks]; subst.
  destruct bx as [b|]; [|split; [exact T|reflexivity]]. destruct (Bx b eq_refl) as (Fb & Ct & Cl & Ot & Ol).
  change (set_origin_topA K v (Node s i (Some b) ks)) with
    (if neqb v (origin_top b) then Ok (Node s i (Some b) ks) else
     bindr (rmap (fun k => match n_box k with None => Ok k | Some _ => bindr (a_add K v (content_top b)) (fun w => set_origin_topA K w k) end) ks)
       (fun ks' => Ok (Node s i (Some (upd_origin_top v b)) ks'))).
  destruct neqb; [split; [exact T|reflexivity]|].
  eapply okr_bind; [apply (rmap_kids F (o + X) (fold_right Nat.add 0%nat (map count ks)))|].
  - intros k Hk Tk. destruct (n_box k); [|split; [exact Tk|reflexivity]].
    eapply okr_bind; [eapply d_add; [exact V|exact Ct|apply Qle_refl|exact E]|]. intros w Hw. apply IH; assumption.
  - split; [exact Ks|reflexivity].
  - intros ks' [T' E']. split; [|cbn [count]; rewrite E'; reflexivity]. constructor; auto. intros b' Hb. injection Hb as <-.
    split; [apply HF, Fb|]. destruct b; cbn in *. auto.
Qed.
Lemma so_left F : ins F -> forall n o v, tr F o n -> nb o v -> okr (fun n' => tr F o n' /\ count n' = count n) (set_origin_leftA K v n).
Proof.
  intros HF n. induction n as [s i bx ks IH] using node_ind'. intros o v T V. inversion T as [o' s' i' bx' ks' E P I Bx Ks]; subst.
  destruct bx as [b|]; [|split; [exact T|reflexivity]]. destruct (Bx b eq_refl) as (Fb & Ct & Cl & Ot & Ol).
  change (set_origin_leftA K v (Node s i (Some b) ks)) with
    (if neqb v (origin_left b) then Ok (Node s i (Some b) ks) else
     bindr (rmap (fun k => match n_box k with None => Ok k | Some _ => bindr (a_add K v (content_left b)) (fun w => set_origin_leftA K w k) end) ks)
       (fun ks' => Ok (Node s i (Some (upd_origin_left v b)) ks'))).
  destruct neqb; [split; [exact T|reflexivity]|].
  eapply okr_bind; [apply (rmap_kids F (o + X) (fold_right Nat.add 0%nat (map count ks)))|].
  - intros k Hk Tk. destruct (n_box k); [|split; [exact Tk|reflexivity]].
    eapply okr_bind; [eapply d_add; [exact V|exact Cl|apply Qle_refl|exact E]|]. intros w Hw. apply IH; assumption.
  - split; [exact Ks|reflexivity].
  - intros ks' [T' E']. split; [|cbn [count]; rewrite E'; reflexivity]. constructor; auto. intros b' Hb. injection Hb as <-.
    split; [apply HF, Fb|]. destruct b; cbn in *. auto.
Qed.

(** ** Computations on a node *)
Definition hm {A} (P : node -> Prop) (c : M (S := S) A) (Q : A -> node -> Prop) : Prop :=
  forall n, P n -> match c n with (n', Ok a) => Q a n' | (_, Err e) => e <> Unmodelled end.
Lemma hm_bind {A B} (P : node -> Prop) (c : M (S := S) A) Q (f : A -> M (S := S) B) R : hm P c Q -> (forall a, hm (Q a) (f a) R) -> hm P (mbind c f) R.
Proof. intros H F n Hn. specialize (H n Hn). unfold mbind. destruct (c n) as [n' [a|e]]; [exact (F a n' H)|exact H]. Qed.
Lemma hm_if {A} (x : bool) (P : node -> Prop) (c c' : M (S := S) A) Q : hm P c Q -> hm P c' Q -> hm P (if x then c else c') Q.
Proof. destruct x; auto. Qed.
Lemma hm_w {A} (P P' : node -> Prop) (c : M (S := S) A) (Q Q' : A -> node -> Prop) : (forall b, P' b -> P b) -> (forall a b, Q a b -> Q' a b) -> hm P c Q -> hm P' c Q'.
Proof. intros F H C b Hb. specialize (C b (F b Hb)). destruct (c b) as [b' [a|e]]; auto. Qed.
Lemma hm_ret {A} (P : node -> Prop) (a : A) (Q : A -> node -> Prop) : (forall n, P n -> Q a n) -> hm P (mret a) Q.
Proof. intros H n Hn. exact (H n Hn). Qed.
Lemma hm_lift {A Y} (R : Y -> Prop) (P : node -> Prop) r (k : Y -> M (S := S) A) Q : okr R r -> (forall a, R a -> hm P (k a) Q) -> hm P (mbind (mlift r) k) Q.
Proof. intros F H b Hb. unfold mbind, mlift. destruct r as [a|e]; cbn in *; [exact (H a F b Hb)|exact F]. Qed.
Lemma hm_pure {A} (F : Prop) (P : node -> Prop) (c : M (S := S) A) Q : (F -> hm P c Q) -> hm (fun b => F /\ P b) c Q.
Proof. intros H b [Hf Hb]. exact (H Hf b Hb). Qed.
(** A node with style [s], size [i], a box in [P] and children in [kp]. *)
Definition nd (s : S) (i : size) (P : box -> Prop) (kp : list node -> Prop) (n : node) : Prop :=
  exists b ks, n = Node s i (Some b) ks /\ P b /\ kp ks.
Lemma hm_on_box {A} s i (P : box -> Prop) kp (c : BM A) Q : hb P c Q -> hm (nd s i P kp) (on_box c) (fun a => nd s i (Q a) kp).
Proof.
  intros H n (b & ks & -> & Pb & Kk). cbn [on_box]. specialize (H b Pb). destruct (c b) as [b' [a|e]]; [|exact H]. exists b', ks. auto.
Qed.
Lemma nd_pure s i (F : Prop) (P : box -> Prop) kp n : nd s i (fun b => F /\ P b) kp n -> F /\ nd s i P kp n.
Proof. intros (b & ks & E & [Hf Pb] & Kk). split; [exact Hf|]. exists b, ks. auto. Qed.
Section Node.
Variables (F : box -> Prop) (o : Q) (N : nat) (s : S) (i : size).
Hypothesis HF : ins F.
Hypothesis Ho : (o + X <= G)%Q.
Notation kp := (kids F (o + X) N).
Lemma hm_top m w h t l t' v : nb t' v -> (t' <= X)%Q -> hm (nd s i (bk m w h t l o) kp) (mset (set_content_topA K v)) (fun _ => nd s i (bk m w h t' l o) kp).
Proof.
  intros V Et n (b & ks & -> & Pb & Kk). unfold mset, set_content_topA. destruct (neqb v (content_top b)) eqn:E.
  - exists b, ks. split; [reflexivity|]. split; [|exact Kk]. apply (nb_eq t') in E; [|exact V]. destruct b; bkd Pb; unfold bk; cbn in *; repeat split; assumption.
  - assert (R : okr kp (rmap (fun k => match n_box k with None => Ok k | Some _ => bindr (a_add K (origin_top b) v) (fun w => set_origin_topA K w k) end) ks)).
    { apply rmap_kids; [|exact Kk]. intros k Hk Tk. destruct (n_box k); [|split; [exact Tk|reflexivity]].
      eapply okr_bind with (P := nb (o + X)); [|intros; apply so_top; assumption]. bkd Pb. eapply d_add; [exact Hot|exact V|lra|exact Ho]. }
    destruct (rmap _ ks) as [ks'|e]; cbn [bindr okr] in *; [|exact R]. exists (upd_content_top v b), ks'. split; [reflexivity|]. split; [|exact R]. eapply k_ct; eassumption.
Qed.
Lemma hm_left m w h t l l' v : nb l' v -> (l' <= X)%Q -> hm (nd s i (bk m w h t l o) kp) (mset (set_content_leftA K v)) (fun _ => nd s i (bk m w h t l' o) kp).
Proof.
  intros V Et n (b & ks & -> & Pb & Kk). unfold mset, set_content_leftA. destruct (neqb v (content_left b)) eqn:E.
  - exists b, ks. split; [reflexivity|]. split; [|exact Kk]. apply (nb_eq l') in E; [|exact V]. destruct b; bkd Pb; unfold bk; cbn in *; repeat split; assumption.
  - assert (R : okr kp (rmap (fun k => match n_box k with None => Ok k | Some _ => bindr (a_add K (origin_left b) v) (fun w => set_origin_leftA K w k) end) ks)).
    { apply rmap_kids; [|exact Kk]. intros k Hk Tk. destruct (n_box k); [|split; [exact Tk|reflexivity]].
      eapply okr_bind with (P := nb (o + X)); [|intros; apply so_left; assumption]. bkd Pb. eapply d_add; [exact Hol|exact V|lra|exact Ho]. }
    destruct (rmap _ ks) as [ks'|e]; cbn [bindr okr] in *; [|exact R]. exists (upd_content_left v b), ks'. split; [reflexivity|]. split; [|exact R]. eapply k_cl; eassumption.
Qed.
Lemma mset_bind (r : res num) (g : num -> node -> res node) n : mset (fun n => bindr r (fun w => g w n)) n = match r with Ok w => mset (g w) n | Err e => (n, Err e) end.
Proof. unfold mset. destruct r; reflexivity. Qed.
Lemma hm_add_top m w h t l e t' v : nb e v -> (t + e <= t')%Q -> (t' <= X)%Q -> hm (nd s i (bk m w h t l o) kp) (add_content_topA K v) (fun _ => nd s i (bk m w h t' l o) kp).
Proof.
  intros V Et Ex n Hn. assert (Hn' := Hn). destruct Hn as (b & ks & -> & Pb & Kk). unfold add_content_topA. cbn [n_box]. rewrite mset_bind.
  assert (R : okr (nb t') (a_add K (content_top b) v)) by (bkd Pb; eapply d_add; [exact Hct|exact V|exact Et|lra]).
  destruct (a_add K (content_top b) v) as [x|e']; [|exact R]. exact (hm_top m w h t l t' x R Ex _ Hn').
Qed.
Lemma hm_add_left m w h t l e l' v : nb e v -> (l + e <= l')%Q -> (l' <= X)%Q -> hm (nd s i (bk m w h t l o) kp) (add_content_leftA K v) (fun _ => nd s i (bk m w h t l' o) kp).
Proof.
  intros V Et Ex n Hn. assert (Hn' := Hn). destruct Hn as (b & ks & -> & Pb & Kk). unfold add_content_leftA. cbn [n_box]. rewrite mset_bind.
  assert (R : okr (nb l') (a_add K (content_left b) v)) by (bkd Pb; eapply d_add; [exact Hcl|exact V|exact Et|lra]).
  destruct (a_add K (content_left b) v) as [x|e']; [|exact R]. exact (hm_left m w h t l l' x R Ex _ Hn').
Qed.
End Node.

(** ** Placing children *)
Definition qn (k : nat) : Q := inject_Z (Z.of_nat k).
Lemma qn_S k : (qn (Datatypes.S k) == qn k + 1)%Q.
Proof. unfold qn. rewrite Nat2Z.inj_succ. unfold Z.succ. rewrite inject_Z_plus. reflexivity. Qed.
Lemma qn_add a b : (qn (a + b) == qn a + qn b)%Q.
Proof. unfold qn. rewrite Nat2Z.inj_add, inject_Z_plus. reflexivity. Qed.
Lemma qn_pos k : (0 <= qn k)%Q.
Proof. unfold qn. change 0%Q with (inject_Z 0). rewrite <- Zle_Qle. lia. Qed.
(** A bound of the height of a document, and of the offsets among children. *)
Definition VN (N : nat) : Q := (15 * qn N * W)%Q.
Definition V (n : node) : Q := (VN (count n) - 5 * W)%Q.
Lemma W0 : (0 <= W)%Q. Proof. lra. Qed.
Lemma VN_pos N : (0 <= VN N)%Q.
Proof. unfold VN. assert (P := qn_pos N). assert (Q := W0). apply Qmult_le_0_compat; [|exact Q]. lra. Qed.
Lemma VN_S N : (VN (Datatypes.S N) == VN N + 15 * W)%Q.
Proof. unfold VN. rewrite qn_S. ring. Qed.
Lemma VN_add a b : (VN (a + b) == VN a + VN b)%Q.
Proof. unfold VN. rewrite qn_add. ring. Qed.
Lemma count_pos (n : node) : exists c, count n = Datatypes.S c.
Proof. destruct n. eexists. reflexivity. Qed.
Lemma V_pos n : (10 * W <= V n)%Q.
Proof. unfold V. destruct (count_pos n) as [c ->]. rewrite VN_S. assert (P := VN_pos c). lra. Qed.
Definition csum (ks : list node) : nat := fold_right Nat.add 0%nat (map count ks).
Definition good (o v : Q) (k : node) : Prop := tr anyb o k /\ forall b, n_box k = Some b -> bk W W v (7 * L) (W + 3 * L) o b.
Definition done (o B : Q) (k : node) : Prop := tr anyb o k /\ forall b, n_box k = Some b -> bot B b.
Lemma fr_bk o b : fr b -> nb o (origin_top b) -> nb o (origin_left b) -> bk 0 0 0 0 0 o b.
Proof.
  intros (t & l & ->) T U. assert (B := bk0 (Qmake 0 1) (Qle_refl _)). bkd B. unfold bk. cbn in *. repeat split; assumption.
Qed.
Lemma fr_done o B k : (2 * L <= B)%Q -> (B <= G)%Q -> tr fr o k -> done o B k.
Proof.
  intros E E' T. split; [eapply tr_any; exact T|]. intros b Hb. inversion T as [? ? ? ? ? ? ? ? Bx Ks]; subst. cbn [n_box] in Hb. subst.
  destruct (Bx b eq_refl) as (Hf & _ & _ & T1 & T2). eapply bot_bk; [apply fr_bk; eassumption|lra|exact E'].
Qed.
Lemma good_done o v B k : (v + 9 * L <= B)%Q -> (B <= G)%Q -> good o v k -> done o B k.
Proof. intros E E' [T H]. split; [exact T|]. intros b Hb. eapply bot_bk; [apply H, Hb|lra|exact E']. Qed.
Lemma place_b k b off bm A o v (P : box -> Prop) : good o v k -> nb A off -> (forall z, bm = Some z -> nb L (NI z)) -> (0 <= v)%Q -> (A + v + 15 * W <= X)%Q ->
  (forall b x, nb L x -> P b -> P (set_collapse_top (LNum x) b)) -> P b ->
  match place_childA K k b off bm with
  | (k', b', Ok (off', bm')) => P b' /\ done o (A + v + 15 * W) k' /\ nb (A + v + 5 * W) off' /\ (forall z, bm' = Some z -> nb L (NI z))
  | (_, _, Err e) => e <> Unmodelled
  end.
Proof.
  intros [T Hk] Ho Hm Hv HA HP Pb. assert (Z := L0). assert (A0 := nb_pos _ _ Ho). unfold place_childA. destruct (n_box k) as [kb|] eqn:Ek; [|discriminate].
  specialize (Hk kb eq_refl). assert (Hk' := Hk). bkd Hk'.
  assert (H1 : forall b1 off1, P b1 -> okr (nb (A + L)) off1 ->
    match (match off1 with
      | Err e => (k, b1, Err e)
      | Ok o =>
          match (bindr (a_add K (content_top kb) o) (fun w => set_content_topA K w k)) with
          | Err e => (k, b1, Err e)
          | Ok k' => (k', b1, bindr (border_box_heightA K kb) (fun h => bindr (a_add K o h) (fun o' => Ok (o', Some (collapse_bottom kb)))))
          end
      end) with
    | (k', b', Ok (off', bm')) => P b' /\ done o (A + v + 15 * W) k' /\ nb (A + v + 5 * W) off' /\ (forall z, bm' = Some z -> nb L (NI z))
    | (_, _, Err e) => e <> Unmodelled
    end).
  { intros b1 off1 Pb1 R. destruct off1 as [f|e]; [|exact R]. cbn in R.
    assert (R1 : okr (nb (A + 8 * L)) (a_add K (content_top kb) f)) by (eapply d_add; [exact Hct|exact R|lra|lra]).
    destruct (a_add K (content_top kb) f) as [w|e]; [|exact R1]. cbn [bindr]. cbn in R1.
    inversion T as [? s i bx ks E Ps Pi Bx Ks]; subst. cbn [n_box] in Ek. subst bx.
    assert (R2 := hm_top anyb o (csum ks) s i ins_any E W W v (7 * L) (W + 3 * L) (A + 8 * L) w R1).
    assert (Ex : (A + 8 * L <= X)%Q) by lra. specialize (R2 Ex (Node s i (Some kb) ks)).
    assert (Hn : nd s i (bk W W v (7 * L) (W + 3 * L) o) (kids anyb (o + X) (csum ks)) (Node s i (Some kb) ks)) by (exists kb, ks; repeat split; auto).
    specialize (R2 Hn). unfold mset in R2. destruct (set_content_topA K w (Node s i (Some kb) ks)) as [k'|e]; [|exact R2].
    destruct R2 as (kb' & ks' & -> & Pkb & [Tk _]).
    assert (R3 : okr (nb (v + 4 * L)) (border_box_heightA K kb)).
    { unfold border_box_heightA. eapply okr_bind; [apply okr_num; exact Hch|]. intros h Hh. eapply d_sum; [exact Hbt|repeat (first [apply Forall2_nil | apply Forall2_cons; [eassumption|]])|cbn [qsum]; lra|lra]. }
    destruct (border_box_heightA K kb) as [h|e]; [|exact R3]. cbn [bindr]. cbn in R3.
    assert (R4 : okr (nb (A + v + 5 * W)) (a_add K f h)) by (eapply d_add; [exact R|exact R3|lra|lra]).
    destruct (a_add K f h) as [o1|e]; [|exact R4]. cbn [bindr]. split; [exact Pb1|]. split; [|split; [exact R4|intros z [= <-]; exact Hkb]].
    split.
    - constructor; auto. intros b0 [= <-]. clear - Pkb Ex HX HW HL. bkd Pkb. split; [exact I|]. split; [eapply nb_w; [|exact Hct]; lra|]. split; [eapply nb_w; [|exact Hcl]; lra|]. split; assumption.
    - intros b0 [= <-]. eapply bot_bk; [exact Pkb|lra|lra]. }
  destruct bm as [m|].
  - apply (H1 b _ Pb). eapply okr_bind; [apply okr_num; exact Hmt|]. intros mt Ht. eapply d_add; [exact Ho|apply nb_max; [apply Hm; reflexivity|exact Ht]|lra|lra].
  - apply (H1 _ (Ok off) (HP b _ Hkt Pb)). cbn. eapply nb_w; [|exact Ho]. lra.
Qed.
Section Flow.
Variables (o B : Q) (P : box -> Prop) (lay : box -> node -> node * res unit).
Hypothesis HP : forall b x, nb L x -> P b -> P (set_collapse_top (LNum x) b).
Hypothesis HB : (B <= X)%Q.
Hypothesis Hlay : forall b k, P b -> tr fr o k -> (V k + 10 * W <= X)%Q ->
  match lay b k with (k', Ok _) => good o (V k) k' | (_, Err e) => e <> Unmodelled end.
Lemma flow_b ks : forall pend b off bm A, (forall k, In k ks -> tr fr o k) -> P b -> nb A off -> (forall z, bm = Some z -> nb L (NI z)) ->
  (A + VN (csum ks) + 10 * W <= B)%Q ->
  match flowA K sty lay ks pend b off bm with
  | (ks', b', Ok _) => P b' /\ (forall k, In k ks' -> done o B k)
  | (_, _, Err e) => e <> Unmodelled
  end.
Proof.
  induction ks as [|k ks IH]; intros pend b off bm A T Pb Ho Hm HA; cbn [flowA]; [split; [exact Pb|intros k []]|].
  assert (A0 := nb_pos _ _ Ho). assert (Z := L0).
  assert (EV : (VN (csum (k :: ks)) == V k + 5 * W + VN (csum ks))%Q).
  { unfold csum. cbn [map fold_right]. rewrite VN_add. unfold V, csum. ring. }
  assert (PV := VN_pos (csum ks)). assert (PK := V_pos k). rewrite EV in HA.
  assert (Tk : tr fr o k) by (apply T; left; reflexivity). assert (Ts : forall k, In k ks -> tr fr o k) by (intros x Hx; apply T; right; exact Hx).
  destruct is_block_level.
  - destruct pend; [discriminate|]. assert (Hk := Hlay b k Pb Tk). destruct (lay b k) as [k1 [[]|e]]; [|apply Hk; lra].
    assert (Hg : good o (V k) k1) by (apply Hk; lra). clear Hk.
    assert (Hpl := place_b k1 b off bm A o (V k) P Hg Ho Hm). destruct (place_childA K k1 b off bm) as [[k2 b2] [[off' bm']|e]]; [|apply Hpl; auto; lra].
    destruct (Hpl ltac:(lra) ltac:(lra) HP Pb) as (Pb2 & D2 & O2 & M2).
    specialize (IH false b2 off' bm' (A + V k + 5 * W)%Q Ts Pb2 O2 M2). destruct (flowA K sty lay ks false b2 off' bm') as [[ks2 b3] [[]|e]]; [|apply IH; lra].
    destruct (IH ltac:(lra)) as [Pb3 D3]. split; [exact Pb3|]. intros x [<-|Hx]; [|apply D3, Hx]. destruct D2 as [D2 D2']. split; [exact D2|]. intros x Hx. destruct (D2' x Hx) as [H1 H2]. split; [|exact H2].
    eapply okr_w; [|exact H1]. intros a. apply nb_w. lra.
  - specialize (IH true b off bm A Ts Pb Ho Hm). destruct (flowA K sty lay ks true b off bm) as [[ks2 b3] [[]|e]]; [|apply IH; lra].
    destruct (IH ltac:(lra)) as [Pb3 D3]. split; [exact Pb3|]. intros x [<-|Hx]; [|apply D3, Hx]. apply fr_done; [lra|lra|exact Tk].
Qed.
Lemma lay_all_b b ks : (forall k, In k ks -> tr fr o k) -> P b -> (VN (csum ks) + 10 * W <= B)%Q ->
  match lay_all (lay b) ks with (ks', Ok _) => forall k, In k ks' -> done o B k | (_, Err e) => e <> Unmodelled end.
Proof.
  induction ks as [|k ks IH]; intros T Pb HA; cbn [lay_all]; [intros k []|].
  assert (EV : (VN (csum (k :: ks)) == V k + 5 * W + VN (csum ks))%Q).
  { unfold csum. cbn [map fold_right]. rewrite VN_add. unfold V, csum. ring. }
  assert (Z := L0). assert (PV := VN_pos (csum ks)). assert (PK := V_pos k). rewrite EV in HA.
  assert (Tk : tr fr o k) by (apply T; left; reflexivity). assert (Ts : forall k, In k ks -> tr fr o k) by (intros x Hx; apply T; right; exact Hx).
  assert (Hk := Hlay b k Pb Tk). destruct (lay b k) as [k1 [[]|e]]; [|apply Hk; lra].
  assert (Hg : good o (V k) k1) by (apply Hk; lra). clear Hk. specialize (IH Ts Pb). destruct (lay_all (lay b) ks) as [ks2 [[]|e]]; [|apply IH; lra].
  intros x [<-|Hx]; [|exact (IH ltac:(lra) x Hx)]. eapply good_done; [|lra|exact Hg]. lra.
Qed.
End Flow.

(** ** One node *)
Definition cbok (q : Q) (cb : cblock (S := S)) : Prop :=
  match cb with CBView => True | CBNode s b => pstyle d L (sty s) /\ lb q (content_width b) end.
Definition bots (B : Q) (ks : list node) : Prop := forall k b, In k ks -> n_box k = Some b -> bot B b.
Lemma hm_height F o N s i w B h t t' l q cb : ins F -> (o + X <= G)%Q -> pstyle d L (sty s) -> plain_size L i -> cbok q cb ->
  (w <= W)%Q -> (W + 1 <= B)%Q -> (B <= G)%Q -> (t + 3 * L <= t')%Q -> (t' <= X)%Q ->
  hm (nd s i (bk W w h t l o) (fun ks => kids F (o + X) N ks /\ bots B ks)) (calculate_height_and_marginsA K sty (vctx d dummy_font cb) cb)
    (fun _ => nd s i (bk W w B t' l o) (kids F (o + X) N)).
Proof.
  intros HF Ho Ps Pi Cb Hw HB HBG Ht Ht' n (b & ks & -> & Pb & Kk & Bt). unfold calculate_height_and_marginsA. cbn [n_style n_intr].
  assert (Hp : forall u, cb_style_height sty cb = Some u -> plen d L u).
  { intros u E. destruct cb as [|s0 b0]; cbn [cb_style_height] in E; [discriminate|]. destruct Cb as [[P _] _]. destruct (st_height (sty s0)) as [|v] eqn:E'; [discriminate|]. injection E as ->.
    apply P. unfold lengths_of. rewrite E', !in_app_iff. cbn. tauto. }
  assert (Hl : forall lb0, last_layout (Node s i (Some b) ks) = Some (Some lb0) -> bot B lb0).
  { intros lb0 E. unfold last_layout in E. cbn [n_kids] in E. destruct (rev ks) as [|k r] eqn:R; [discriminate|]. injection E as E. apply (Bt k lb0); [|exact E]. apply in_rev. rewrite R. left. reflexivity. }
  assert (H := hm_on_box s i (bk W w h t l o) (kids F (o + X) N) _ _ (h_height w B t l o Hw HB (cb_height d cb) h (sty s) i (cb_style_height sty cb) _ Ps Pi Hp Hl)).
  assert (R : hm (nd s i (bk W w h t l o) (kids F (o + X) N))
    (mbind (on_box (calculate_heightA K (sty s) i (cb_style_height sty cb) (last_layout (Node s i (Some b) ks)) (vctx d dummy_font cb))) (fun d0 => add_content_topA K d0))
    (fun _ => nd s i (bk W w B t' l o) (kids F (o + X) N))).
  { eapply hm_bind; [exact H|]. intros a n' Hn. apply nd_pure in Hn. destruct Hn as [Ha Hn]. exact (hm_add_top F o N s i HF Ho W w B t l (3 * L) t' a Ha Ht Ht' n' Hn). }
  apply (R (Node s i (Some b) ks)). exists b, ks. auto.
Qed.
Lemma hm_width F o N s i q cb : ins F -> (o + X <= G)%Q -> pstyle d L (sty s) -> plain_size L i -> cbok q cb -> (L <= q)%Q -> (q + 6 * L <= W)%Q ->
  hm (nd s i (bk L 0 0 0 0 o) (kids F (o + X) N)) (calculate_width_and_marginsA K sty (hctx d dummy_font cb))
    (fun _ => nd s i (bk W (q + 6 * L) 0 0 (q + 8 * L) o) (kids F (o + X) N)).
Proof.
  intros HF Ho Ps Pi Cb Hq HqW n Hn. assert (Hn' := Hn). destruct Hn' as (b & ks & -> & _). unfold calculate_width_and_marginsA. cbn [n_style n_intr]. assert (Z := L0).
  assert (Hsz : lb q (cb_width d cb)).
  { destruct cb as [|s0 b0]; cbn [cb_width]; [|apply Cb]. destruct HD as (H & _). cbn. eapply nb_w; [exact Hq|exact H]. }
  assert (H := hm_on_box s i _ (kids F (o + X) N) _ _ (h_width q o Hq HqW (cb_width d cb) Hsz (sty s) i Ps Pi)).
  revert Hn. generalize (Node s i (Some b) ks). eapply hm_bind; [exact H|]. intros ol n' Hn. apply nd_pure in Hn. destruct Hn as [Ha Hn].
  assert (Wk : forall l0, (l0 <= q + 8 * L)%Q -> forall n0, nd s i (bk (q + 6 * L) (q + 6 * L) 0 0 l0 o) (kids F (o + X) N) n0 -> nd s i (bk W (q + 6 * L) 0 0 (q + 8 * L) o) (kids F (o + X) N) n0).
  { intros l0 E n0 (b0 & ks0 & -> & B0 & K0). exists b0, ks0. split; [reflexivity|]. split; [|exact K0]. revert B0. apply bk_w; lra. }
  destruct ol as [x|].
  - assert (R := hm_left F o N s i HF Ho (q + 6 * L) (q + 6 * L) 0 0 0 (q + 8 * L) x (Ha x eq_refl)). assert (E : (q + 8 * L <= X)%Q) by lra. specialize (R E n' Hn).
    destruct (mset (set_content_leftA K x) n') as [n'' [[]|e]]; [|exact R]. apply (Wk (q + 8 * L)%Q (Qle_refl _)), R.
  - apply (Wk 0%Q); [lra|exact Hn].
Qed.
Lemma c_rel c st en cs ce sz : c = cx sz -> (forall u, In u (of_offset st ++ of_offset en) -> plen d L u) -> st <> OInherit -> en <> OInherit -> okr (nb L) (rel_offsetA K c st en cs ce).
Proof.
  intros -> P N1 N2. assert (Z := L0). destruct st as [| |u], en as [| |v]; try contradiction; cbn [rel_offsetA].
  - apply nb_zero, Z.
  - eapply okr_bind; [apply c_px, P; left; reflexivity|]. intros a H. apply nb_neg, H.
  - apply c_px, P. left. reflexivity.
  - apply c_px, P. left. reflexivity.
Qed.
Lemma hm_shift F o N s i w h t l t' l' cb : ins F -> (o + X <= G)%Q -> pstyle d L (sty s) -> (t + L <= t')%Q -> (t' <= X)%Q -> (l + L <= l')%Q -> (l' <= X)%Q ->
  hm (nd s i (bk W w h t l o) (kids F (o + X) N)) (relative_shiftA K sty d dummy_font cb) (fun _ => nd s i (bk W w h t' l' o) (kids F (o + X) N)).
Proof.
  intros HF Ho (P & N1 & N2 & N3 & N4) Ht Ht' Hl Hl' n Hn. assert (Hn' := Hn). destruct Hn' as (b & ks & -> & _). unfold relative_shiftA. cbn [n_style]. assert (Z := L0).
  destruct is_relative.
  - revert Hn. generalize (Node s i (Some b) ks).
    eapply hm_lift; [eapply c_rel; [reflexivity| |assumption|assumption]; intros u U; apply P; unfold lengths_of; rewrite !in_app_iff in *; tauto|]. intros vl Hvl.
    eapply hm_bind; [apply (hm_add_left F o N s i HF Ho W w h t l L l' vl Hvl Hl Hl')|]. intros [].
    eapply hm_lift; [eapply c_rel; [reflexivity| |assumption|assumption]; intros u U; apply P; unfold lengths_of; rewrite !in_app_iff in *; tauto|]. intros vt Hvt.
    apply (hm_add_top F o N s i HF Ho W w h t l' L t' vt Hvt Ht Ht').
  - destruct Hn as (b0 & ks0 & E & B0 & K0). exists b0, ks0. split; [exact E|]. split; [|exact K0]. revert B0. apply bk_w; lra.
Qed.
Lemma hm_ensure o s i bx ks : (0 <= o)%Q -> tr fr o (Node s i bx ks) ->
  match mset (ensure_boxA K) (Node s i bx ks) with (n', Ok _) => nd s i (bk 0 0 0 0 0 o) (kids fr (o + X) (csum ks)) n' | (_, Err e) => e <> Unmodelled end.
Proof.
  intros Oo T. inversion T as [o' s' i' bx' ks' E P I Bx Ks]; subst. unfold mset, ensure_boxA. cbn [n_box]. destruct bx as [b|].
  - exists b, ks. split; [reflexivity|]. split; [|split; [exact Ks|reflexivity]]. destruct (Bx b eq_refl) as (Hf & _ & _ & H1 & H2). apply fr_bk; assumption.
  - assert (Z := W0).
    assert (O0 : (0 <= o + X)%Q -> okr (kids fr (o + X) (csum ks)) (rmap (fun k => match n_box k with None => Ok k | Some _ => bindr (a_add K n0 n0) (fun w => bindr (set_origin_topA K w k) (fun k1 => bindr (a_add K n0 n0) (fun v => set_origin_leftA K v k1))) end) ks)).
    { intros O. apply rmap_kids; [|split; [exact Ks|reflexivity]]. intros k Hk Tk. destruct (n_box k); [|split; [exact Tk|reflexivity]].
      assert (A0 : okr (nb (o + X)) (a_add K n0 n0)) by (eapply (d_add (o + X) 0 0); [apply nb_zero, Qle_refl|apply nb_zero, Qle_refl|lra|exact E]).
      eapply okr_bind; [exact A0|]. intros w Hw. eapply okr_bind; [apply (so_top fr ins_fr); [exact Tk|exact Hw]|]. intros k1 [T1 C1]. eapply okr_bind; [exact A0|]. intros v Hv.
      eapply okr_w; [|apply (so_left fr ins_fr); [exact T1|exact Hv]]. intros k2 [T2 C2]. split; [exact T2|]. rewrite C2. exact C1. }
    unfold reset_selfA. specialize (O0 ltac:(lra)). destruct (rmap _ ks) as [ks'|e]; cbn [bindr okr] in *; [|exact O0].
    exists box0, ks'. split; [reflexivity|]. split; [apply bk0; exact Oo|exact O0].
Qed.
Lemma tr_nd o s i w h t l (kp : list node -> Prop) n : (o + X <= G)%Q -> pstyle d L (sty s) -> plain_size L i -> (t <= X)%Q -> (l <= X)%Q -> (forall ks, kp ks -> forall k, In k ks -> tr anyb (o + X) k) ->
  nd s i (bk W w h t l o) kp n -> tr anyb o n.
Proof.
  intros E P I Et El Hk (b & ks & -> & B & Kk). constructor; auto; [|apply Hk, Kk]. intros b0 [= <-]. bkd B.
  split; [exact Logic.I|]. split; [eapply nb_w; [|exact Hct]; assumption|]. split; [eapply nb_w; [|exact Hcl]; assumption|]. split; assumption.
Qed.
Lemma layout_box_b fuel : forall o q cb n, (0 <= o)%Q -> (L <= q)%Q -> (q + 6 * L * qn fuel <= W)%Q -> cbok q cb -> tr fr o n -> (V n + 10 * W <= X)%Q ->
  match layout_boxA K sty fuel d dummy_font cb n with (n', Ok _) => good o (V n) n' | (_, Err e) => e <> Unmodelled end.
Proof.
  induction fuel as [|fuel IH]; intros o q cb n Oo Hq HqW Cb T HV; [discriminate|].
  assert (Z := L0). assert (Zf : (0 <= L * qn fuel)%Q) by (apply Qmult_le_0_compat; [exact Z|apply qn_pos]).
  assert (Ef : (q + 6 * L + 6 * L * qn fuel <= W)%Q).
  { assert (Q1 : (q + 6 * L * qn (Datatypes.S fuel) == q + 6 * L + 6 * L * qn fuel)%Q) by (rewrite qn_S; ring). rewrite Q1 in HqW. exact HqW. }
  assert (Eq : (q + 6 * L <= W)%Q) by lra. clear HqW.
  assert (HV10 := V_pos n). set (Vn := V n) in *. assert (En : (Vn == VN (csum (n_kids n)) + 10 * W)%Q).
  { unfold Vn, V. destruct n as [s i bx ks]. cbn [count n_kids]. fold (csum ks). rewrite VN_S. ring. }
  destruct n as [s i bx ks]. cbn [n_kids] in En. clearbody Vn.
  assert (T' := T). inversion T' as [o' s' i' bx' ks' E Ps Pi Bx Ks]; subst. clear T'.
  cbn [layout_boxA n_style]. destruct (st_display (sty s)) as [dv|] eqn:Ed.
  2: { split; [|discriminate]. constructor; auto; [discriminate|]. intros k Hk. eapply tr_any, Ks, Hk. }
  assert (E0 := hm_ensure o s i bx ks Oo T).
  unfold mbind at 1. destruct (mset (ensure_boxA K) (Node s i bx ks)) as [n1 [[]|e]]; [|exact E0].
  set (N := csum ks) in *. revert E0. generalize n1. clear n1.
  change (hm (nd s i (bk 0 0 0 0 0 o) (kids fr (o + X) N))
   (mbind (on_box (copy_edgesA K (sty s) (hctx d dummy_font cb) (vctx d dummy_font cb))) (fun _ =>
    mbind (calculate_width_and_marginsA K sty (hctx d dummy_font cb)) (fun _ =>
    mbind (if is_relative (sty s) then calculate_height_and_marginsA K sty (vctx d dummy_font cb) cb else mret tt) (fun _ =>
    mbind (if is_abspos (sty s) then mlift (Err NotImplementedError) else if is_float (sty s) then mlift (Err NotImplementedError) else layout_childrenA K sty (layout_boxA K sty fuel d dummy_font)) (fun _ =>
    mbind (calculate_height_and_marginsA K sty (vctx d dummy_font cb) cb) (fun _ => relative_shiftA K sty d dummy_font cb))))))
   (fun _ => good o Vn)).
  eapply hm_bind; [apply (hm_on_box s i _ _ _ _ (h_edges (sty s) _ _ o Ps))|]. intros [].
  eapply hm_bind; [apply (hm_width fr o N s i q cb ins_fr E Ps Pi Cb Hq Eq)|]. intros [].
  (* the first computation of the height *)
  eapply hm_bind with (Q := fun _ => nd s i (bk W (q + 6 * L) Vn (3 * L) (q + 8 * L) o) (kids fr (o + X) N)).
  { apply hm_if.
    - eapply hm_w; [| |apply (hm_height fr o N s i (q + 6 * L)%Q Vn 0%Q 0%Q (3 * L)%Q (q + 8 * L)%Q q cb ins_fr E Ps Pi Cb)]; try lra; [|auto].
      intros n1 (b & ks1 & -> & Pb & Kk). exists b, ks1. split; [reflexivity|]. split; [exact Pb|]. split; [exact Kk|].
      intros k b0 Hk Hb. apply (fr_done (o + X) Vn k); [lra|lra|apply Kk, Hk|exact Hb].
    - apply hm_ret. intros n1 (b & ks1 & -> & Pb & Kk). exists b, ks1. split; [reflexivity|]. split; [|exact Kk]. revert Pb. apply bk_w; lra. }
  intros [].
  eapply hm_bind with (Q := fun _ => nd s i (bk W (q + 6 * L) Vn (3 * L) (q + 8 * L) o) (fun ks => forall k, In k ks -> done (o + X) Vn k)).
  { apply hm_if; [intros n1 _; discriminate|]. apply hm_if; [intros n1 _; discriminate|].
    intros n1 (b & ks1 & -> & Pb & Tk & Ck). unfold layout_childrenA.
    set (lay := fun b0 => layout_boxA K sty fuel d dummy_font (CBNode s b0)).
    set (P := bk W (q + 6 * L) Vn (3 * L) (q + 8 * L) o).
    assert (Hlay : forall b k, P b -> tr fr (o + X) k -> (V k + 10 * W <= X)%Q -> match lay b k with (k', Ok _) => good (o + X) (V k) k' | (_, Err e) => e <> Unmodelled end).
    { intros b0 k Pb0 T0 E0. apply (IH (o + X)%Q (q + 6 * L)%Q (CBNode s b0) k); try assumption; try lra. split; [exact Ps|]. unfold P in Pb0. bkd Pb0. exact Hcw. }
    assert (HP : forall b x, nb L x -> P b -> P (set_collapse_top (LNum x) b)) by (intros b0 x Hx; apply k_kt; exact Hx).
    assert (EB : (Vn <= X)%Q) by lra. assert (EN : csum ks1 = N) by exact Ck.
    destruct establishes_inline.
    - assert (R := lay_all_b (o + X) Vn P lay EB Hlay b ks1 Tk Pb). rewrite EN in R. specialize (R ltac:(lra)). unfold lay in R.
      destruct (lay_all (layout_boxA K sty fuel d dummy_font (CBNode s b)) ks1) as [ks2 [[]|e]]; [|exact R]. exists b, ks2. auto.
    - assert (R := flow_b (o + X) Vn P lay HP EB Hlay ks1 false b n0 None 0%Q Tk Pb (nb_zero _ (Qle_refl _))). rewrite EN in R. specialize (R ltac:(discriminate) ltac:(lra)).
      destruct (flowA K sty lay ks1 false b n0 None) as [[ks2 b2] [[]|e]]; [|exact R]. destruct R as [Pb2 D2]. exists b2, ks2. auto. }
  intros [] n1 (b & ks1 & -> & Pb & D1).
  assert (R : hm (nd s i (bk W (q + 6 * L) Vn (3 * L) (q + 8 * L) o) (fun ks => kids anyb (o + X) (csum ks1) ks /\ bots Vn ks))
    (mbind (calculate_height_and_marginsA K sty (vctx d dummy_font cb) cb) (fun _ => relative_shiftA K sty d dummy_font cb))
    (fun _ => nd s i (bk W (q + 6 * L) Vn (7 * L) (q + 9 * L) o) (kids anyb (o + X) (csum ks1)))).
  { eapply hm_bind; [apply (hm_height anyb o (csum ks1) s i (q + 6 * L)%Q Vn Vn (3 * L)%Q (6 * L)%Q (q + 8 * L)%Q q cb ins_any E Ps Pi Cb); lra|]. intros [].
    apply (hm_shift anyb o (csum ks1) s i (q + 6 * L)%Q Vn (6 * L)%Q (q + 8 * L)%Q (7 * L)%Q (q + 9 * L)%Q cb ins_any E Ps); lra. }
  specialize (R (Node s i (Some b) ks1)).
  destruct (mbind _ _ (Node s i (Some b) ks1)) as [n2 [[]|e]].
  - assert (H : nd s i (bk W (q + 6 * L) Vn (7 * L) (q + 9 * L) o) (kids anyb (o + X) (csum ks1)) n2).
    { apply R. exists b, ks1. split; [reflexivity|]. split; [exact Pb|]. split; [split; [intros k Hk; apply D1, Hk|reflexivity]|]. intros k b0 Hk Hb. apply (D1 k Hk), Hb. }
    split.
    + eapply tr_nd; [exact E|exact Ps|exact Pi| | | |exact H]; [lra|lra|]. intros ks2 [Hk _]. exact Hk.
    + destruct H as (b2 & ks2 & -> & Pb2 & _). intros b3 [= <-]. revert Pb2. apply bk_w; lra.
  - apply R. exists b, ks1. split; [reflexivity|]. split; [exact Pb|]. split; [split; [intros k Hk; apply D1, Hk|reflexivity]|]. intros k b0 Hk Hb. apply (D1 k Hk), Hb.
Qed.

(** ** The whole document *)
Lemma count_reset (n : node) : count (reset n) = count n.
Proof.
  induction n as [s i [b|] ks IH] using node_ind'; [|reflexivity]. cbn [reset count]. f_equal. f_equal. rewrite map_map. apply map_ext_in. exact IH.
Qed.
Lemma finish_b h5 n v : (v + 10 * W <= X)%Q -> good 0 v n -> match finish_rootA K d h5 n with (_, Ok _) => True | (_, Err e) => e <> Unmodelled end.
Proof.
  intros Hv [T Hb]. unfold finish_rootA. destruct (n_box n) as [b|] eqn:Eb; [|discriminate]. specialize (Hb b eq_refl). assert (Z := L0).
  inversion T as [o' s i bx ks E Ps Pi Bx Ks]; subst. cbn [n_box] in Eb. subst bx.
  assert (Hn : nd s i (bk W W v (7 * L) (W + 3 * L) 0) (kids anyb (0 + X) (csum ks)) (Node s i (Some b) ks)) by (exists b, ks; split; [reflexivity|split; [exact Hb|split; [exact Ks|reflexivity]]]).
  unfold mbind at 1. rewrite mset_bind. assert (Hb' := Hb). bkd Hb'.
  assert (R : okr (nb (8 * L)) (a_add K (content_top b) (NI (collapse_top b)))) by (eapply d_add; [exact Hct|exact Hkt|lra|lra]).
  destruct (a_add K (content_top b) (NI (collapse_top b))) as [w|e]; [|exact R].
  assert (Ex : (8 * L <= X)%Q) by lra.
  assert (R2 := hm_top anyb 0 (csum ks) s i ins_any E W W v (7 * L)%Q (W + 3 * L)%Q (8 * L)%Q w R Ex _ Hn).
  destruct (mset (set_content_topA K w) (Node s i (Some b) ks)) as [n1 [[]|e]]; [|exact R2].
  destruct h5; [|exact I]. unfold mbind, mlift.
  assert (R3 : okr (nb (3 * L)) (a_diff K (disp_height d) [NI (collapse_top b); NI (collapse_bottom b)])).
  { destruct HD as (_ & H & _). eapply d_diff; [exact H|repeat (first [apply Forall2_nil | apply Forall2_cons; [eassumption|]])|cbn [qsum]; lra|lra]. }
  destruct (a_diff K (disp_height d) [NI (collapse_top b); NI (collapse_bottom b)]) as [h|e]; [|exact R3].
  destruct R2 as (b1 & ks1 & -> & _). exact I.
Qed.
Lemma layout_b h5 (n : node) : tr fr 0 (reset n) -> (L + 6 * L * qn (height n) <= W)%Q -> (V n + 10 * W <= X)%Q ->
  snd (layoutA K sty d h5 n) <> Err Unmodelled.
Proof.
  intros T Hw Hv. unfold layoutA. destruct (n_box n); [|discriminate]. unfold mbind at 1. unfold mmod.
  assert (Ev : V (reset n) = V n) by (unfold V; rewrite count_reset; reflexivity).
  assert (R := layout_box_b (height n) 0 L CBView (reset n) (Qle_refl _) (Qle_refl _) Hw I T). rewrite Ev in R. specialize (R Hv).
  unfold mbind. destruct (layout_boxA K sty (height n) d dummy_font CBView (reset n)) as [n1 [[]|e]]; [|intros H; injection H as ->; apply R; reflexivity].
  assert (R2 := finish_b h5 n1 _ Hv R). destruct (finish_rootA K d h5 n1) as [n2 [[]|e]]; [discriminate|]. intros H. injection H as ->. apply R2. reflexivity.
Qed.
Definition new_boxes (n : node) : Prop := forall p m, get_path p n = Some m -> n_box m = None \/ n_box m = Some box0.
Lemma plain_kid s i bx ks k : pdoc sty d L (Node s i bx ks) -> In k ks -> pdoc sty d L k.
Proof. intros P H. apply In_nth_error in H. destruct H as [j J]. intros p m Hm. apply (P (j :: p)). cbn [get_path n_kids]. rewrite J. exact Hm. Qed.
Lemma height_kid s i bx (ks : list node) k : In k ks -> (qn (height k) + 1 <= qn (height (Node s i bx ks)))%Q.
Proof.
  intros H. rewrite <- qn_S. unfold qn. rewrite <- Zle_Qle. apply inj_le. cbn [height]. apply le_n_S.
  induction ks as [|x ks IH]; [destruct H|]. cbn [map fold_right]. destruct H as [->|H]; [apply Nat.le_max_l|]. etransitivity; [apply IH, H|apply Nat.le_max_r].
Qed.
Lemma room_kid o s i bx (ks : list node) k : In k ks -> (o + X * qn (height (Node s i bx ks)) <= G)%Q -> (o + X + X * qn (height k) <= G)%Q.
Proof.
  intros H R. assert (Hh := height_kid s i bx ks k H). assert (Z := W0). assert (X0 : (0 <= X)%Q) by lra.
  assert (E : (X * (qn (height k) + 1) <= X * qn (height (Node s i bx ks)))%Q) by (rewrite (Qmult_comm X (qn (height k) + 1)), (Qmult_comm X (qn (height (Node s i bx ks)))); apply Qmult_le_compat_r; assumption).
  lra.
Qed.
Lemma room_self o (n : node) : (o + X * qn (height n) <= G)%Q -> (o + X <= G)%Q.
Proof.
  intros R. assert (Z := W0). assert (X0 : (0 <= X)%Q) by lra. destruct n as [s i bx ks]. cbn [height] in R. set (m := fold_right Nat.max 0%nat (map height ks)) in R.
  assert (P : (0 <= X * qn m)%Q) by (apply Qmult_le_0_compat; [exact X0|apply qn_pos]). assert (Q1 : (X * qn (Datatypes.S m) == X * qn m + X)%Q) by (rewrite qn_S; ring). lra.
Qed.
Lemma box0_ok o : (0 <= o)%Q -> fr box0 /\ nb X (content_top box0) /\ nb X (content_left box0) /\ nb o (origin_top box0) /\ nb o (origin_left box0).
Proof.
  intros Oo. assert (Z := W0). split; [exists n0, n0; reflexivity|]. repeat split; apply nb_zero; lra.
Qed.
Lemma tr_new n : forall o, (0 <= o)%Q -> pdoc sty d L n -> new_boxes n -> (o + X * qn (height n) <= G)%Q -> tr fr o n.
Proof.
  induction n as [s i bx ks IH] using node_ind'. intros o Oo P Nb R. assert (Z := W0). constructor.
  - eapply room_self, R.
  - apply (P [] _ eq_refl).
  - apply (P [] _ eq_refl).
  - intros b ->. destruct (Nb [] _ eq_refl) as [H|H]; cbn [n_box] in H; [discriminate|]. injection H as ->. apply box0_ok, Oo.
  - intros k Hk. apply IH; [exact Hk|lra|eapply plain_kid; eassumption| |eapply room_kid; eassumption].
    intros p m Hm. apply In_nth_error in Hk. destruct Hk as [j J]. apply (Nb (j :: p)). cbn [get_path n_kids]. rewrite J. exact Hm.
Qed.
Lemma tr_reset n : forall o, (0 <= o)%Q -> pdoc sty d L n -> no_stale_boxes n -> (o + X * qn (height n) <= G)%Q -> tr fr o (reset n).
Proof.
  induction n as [s i bx ks IH] using node_ind'. intros o Oo P Nb R. assert (Z := W0). destruct bx as [b|].
  - cbn [reset]. constructor.
    + eapply room_self, R.
    + apply (P [] _ eq_refl).
    + apply (P [] _ eq_refl).
    + intros b0 H. injection H as <-. apply box0_ok, Oo.
    + intros k' Hk'. apply in_map_iff in Hk'. destruct Hk' as (k & <- & Hk). apply IH; [exact Hk|lra|eapply plain_kid; eassumption| |eapply room_kid; eassumption].
      intros p r m x Hm. apply In_nth_error in Hk. destruct Hk as [j J]. apply (Nb (j :: p)). cbn [get_path n_kids]. rewrite J. exact Hm.
  - cbn [reset]. apply tr_new; [exact Oo|exact P| |exact R]. intros p m Hm. exact (Nb [] p _ m eq_refl eq_refl Hm).
Qed.
End Bounds.

Lemma gen_checked {S} (sty : S -> style) d L h5 (n : node S) : (300 <= L)%Q -> plain_display L d -> pdoc sty d L n -> no_stale_boxes n -> room L n ->
  snd (layoutA K sty d h5 n) <> Err Unmodelled.
Proof.
  intros HL HD P Nb R. unfold room in R. fold (qn (count n)) (qn (height n)) in R. change (qpow2 46) with G in R.
  set (W := ((6 * qn (height n) + 1) * L)%Q). set (X := (VN W (count n) + 5 * W)%Q).
  assert (D1 : (1 <= qn (height n))%Q) by (destruct n as [s0 i0 b0 ks]; cbn [height]; rewrite qn_S; assert (Q1 := qn_pos (fold_right Nat.max 0%nat (map height ks))); lra).
  assert (N1 : (1 <= qn (count n))%Q) by (destruct (count_pos n) as [c ->]; rewrite qn_S; assert (Q1 := qn_pos c); lra).
  set (D := qn (height n)) in *. set (N := qn (count n)) in *.
  assert (L0 : (0 <= L)%Q) by lra. assert (DL : (L <= D * L)%Q) by (rewrite <- (Qmult_1_l L) at 1; apply Qmult_le_compat_r; assumption).
  assert (EW : (W == 6 * (D * L) + L)%Q) by (unfold W; ring).
  assert (W7 : (W <= 7 * (D * L))%Q) by (rewrite EW; lra).
  assert (Wp : (0 <= W)%Q) by lra.
  assert (NW : (W <= N * W)%Q) by (rewrite <- (Qmult_1_l W) at 1; apply Qmult_le_compat_r; assumption).
  assert (EX : (X == 15 * (N * W) + 5 * W)%Q) by (unfold X, VN; fold N; ring).
  assert (X20 : (X <= 20 * (N * W))%Q) by (rewrite EX; lra).
  assert (N7 : (N * W <= 7 * (N * (D * L)))%Q).
  { assert (H : (W * N <= 7 * (D * L) * N)%Q) by (apply Qmult_le_compat_r; [exact W7|lra]). rewrite (Qmult_comm N W). eapply Qle_trans; [exact H|]. apply Qle_lteq. right. ring. }
  assert (X140 : (X <= 140 * (N * (D * L)))%Q) by lra.
  assert (XD : (X * D <= 140 * N * (D * D) * L)%Q).
  { eapply Qle_trans; [apply Qmult_le_compat_r; [exact X140|lra]|]. apply Qle_lteq. right. ring. }
  assert (HW : (7 * L <= W)%Q) by lra. assert (HX : (20 * W <= X)%Q) by lra.
  assert (X0 : (0 <= X)%Q) by lra.
  assert (XX : (X <= X * D)%Q) by (rewrite <- (Qmult_1_l X) at 1; rewrite (Qmult_comm X D); apply Qmult_le_compat_r; assumption).
  assert (HG : (X <= G)%Q) by lra.
  apply (layout_b d L W X HL HW HX HG HD sty h5 n).
  - apply (tr_reset d L W X); try assumption; [apply Qle_refl|]. fold D. lra.
  - fold D. apply Qle_lteq. right. unfold W. ring.
  - unfold V, X. lra.
Qed.
End Gen.

(** ** The checked arithmetic *)
Lemma xround_modelled x : okr (fun _ => True) (xround x).
Proof. destruct x; cbn; [trivial|discriminate|discriminate]. Qed.
Lemma px_modelled c u : px c u <> Err Unmodelled.
Proof.
  assert (H : okr (fun _ => True) (lu c u)).
  { unfold lu. cbv zeta. destruct (u_kind u); try apply xround_modelled; [| |discriminate].
    - eapply okr_bind with (P := fun _ => True); [|intros; apply xround_modelled]. unfold font_attr.
      destruct String.eqb; [exact I|]. destruct String.eqb; [exact I|]. destruct String.eqb; [exact I|discriminate].
    - eapply okr_bind with (P := fun _ => True); [|intros; apply xround_modelled]. destruct (c_size c); cbn; try exact I; discriminate. }
  unfold px. destruct (lu c u); cbn [bindr]; [discriminate|]. intros E. injection E as ->. apply H. reflexivity.
Qed.
Lemma c_px d B sz u : plain_length d B u -> okr (nb B) (a_px checked_arith (mkCtx d dummy_font sz) u).
Proof.
  intros H. destruct (H sz) as [E N]. cbv zeta in *. assert (U := px_modelled (mkCtx d dummy_font sz) u).
  cbn [a_px checked_arith]. unfold agreed_px. rewrite E. destruct (px (mkCtx d dummy_font sz) u) as [x|e]; cbn.
  - assert (S : same_num x x = true) by (destruct x; cbn; [apply Z.eqb_refl|destruct (qc_eqb_spec q q); [reflexivity|contradiction]]). rewrite S. apply N. reflexivity.
  - destruct (exn_eq_dec e e); cbn; intros X; [subst; contradiction|contradiction].
Qed.

Lemma plain_checked {S} (sty : S -> style) d L h5 (n : node S) : (300 <= L)%Q -> plain_display L d -> plain_doc sty d L n -> no_stale_boxes n -> room L n ->
  snd (layoutA checked_arith sty d h5 n) <> Err Unmodelled.
Proof. exact (gen_checked agreed_px plain_length c_px sty d L h5 n). Qed.
