(** * C151: a written length is the size of the box *)
From Coq Require Import ZArith QArith Qcanon Qabs Qminmax Lia Lqa Bool String Ascii List.
From Verif Require Import PyNum NumFacts Units UnitsFacts BoxModel BoxSpec BoxFacts Engine EnginePure EngineSpec EngineExamples EngineInv EngineTree EngineTotal EngineWidth
  Float64 PyStr Colors ColorSpec Values Parser ParseSpec Choices Shorthand Decl DeclSpec DeclFacts DeclProps Computed ComputedSpec ComputedFacts ComputedProps
  DeclProps3 FloatSpec FloatFacts FloatTextProps RefLayout RefFacts RefProps HistSpec HistProps MoveSpec MoveProps EdgeSpec EdgeProps UnitsParseProps ReadSpec ReadProps WrittenSpec.
Import ListNotations.
Open Scope string_scope.
Open Scope Q_scope.

(** ** The written number *)
Lemma nearest_error q r : Qabs q <= qpow2 1000 -> nearest_double q r -> Qabs (this r - q) <= qpow2 (-53) * Qabs q + qpow2 (-1022).
Proof.
  intros B [D N]. destruct (Qlt_le_dec (Qabs q) (qpow2 (-1022))) as [L|L].
  - assert (Z0 : binary64 0%Qc) by (split; [exists 0%Z, 0%Z; split; [lia|]; split; [lia|reflexivity]|reflexivity]).
    destruct (N 0%Qc Z0) as [H _]. change (this 0%Qc) with 0 in H. assert (E : Qabs (0 - q) == Qabs q) by (rewrite <- (Qabs_opp q); apply Qabs_wd; ring). rewrite E in H.
    pose proof (Qabs_nonneg q). pose proof (qpow2_gt0 (-53)). set (x := qpow2 (-53)) in *. set (y := qpow2 (-1022)) in *. clearbody x y. nra.
  - assert (L2 : Qabs q < qpow2 1022) by (apply (Qle_lt_trans _ _ _ B); reflexivity).
    destruct (b64_error q L L2) as (r0 & E0 & X). destruct (b64_is_nearest q B) as (r1 & E1 & [D1 _]). rewrite E0 in E1. injection E1 as <-.
    destruct (N r0 D1) as [H _]. pose proof (qpow2_gt0 (-1022)). set (y := qpow2 (-1022)) in *. clearbody y. lra.
Qed.
(** ** The conversion *)
Lemma grid_error q : Qabs (this (to_grid q) - this q) <= 1 # 128.
Proof.
  unfold to_grid. pose proof (rhe_near (this (Z2Qc 64 * q)%Qc)) as R. set (m := round_half_even _) in *. clearbody m.
  assert (E1 : this (qfrac m 64) == inject_Z m / 64) by (unfold qfrac; cbn [this Q2Qc]; rewrite Qred_correct; unfold Qeq, Qdiv, Qmult, Qinv; cbn; lia).
  assert (E2 : this (Z2Qc 64 * q)%Qc == 64 * this q) by (rewrite this_mul, this_Z2Qc; reflexivity).
  rewrite E2 in R. rewrite E1. apply Qabs_Qle_condition. unfold Qdiv. change (/ 64) with (1 # 64). lra.
Qed.
Definition scaled (d : display_t) (u : unit_) (f : Q) : Prop := forall x, this (exact_len d x u) == this (amount (u_val u)) * f.
Lemma len_error d x u f q : scaled d u f -> Qabs (this (amount (u_val u)) - q) <= qpow2 (-53) * Qabs q + qpow2 (-1022) ->
  Qabs (this (len d x u) - q * f) <= (1 # 128) + Qabs f * (qpow2 (-53) * Qabs q + qpow2 (-1022)).
Proof.
  intros Sc E. unfold len. pose proof (grid_error (exact_len d x u)) as G. specialize (Sc x). rewrite Sc in G.
  set (a := this (amount (u_val u))) in *. set (g := this (to_grid _)) in *. set (t := qpow2 (-53) * Qabs q + qpow2 (-1022)) in *. clearbody a g t.
  assert (X : g - q * f == (g - a * f) + (a - q) * f) by ring. rewrite X. eapply Qle_trans; [apply Qabs_triangle|]. rewrite (Qabs_Qmult (a - q) f), (Qmult_comm (Qabs (a - q))).
  pose proof (Qabs_nonneg f). nra.
Qed.
Lemma max_q a b : this (qc_maxi a b) == Qmax (this a) (this b).
Proof. unfold qc_maxi. destruct (qc_ltb_spec a b) as [H|H]; [rewrite Q.max_r; [reflexivity|apply Qlt_le_weak, H]|rewrite Q.max_l; [reflexivity|apply Qcnot_lt_le in H; exact H]]. Qed.
Lemma min_q a b : this (qc_min a b) == Qmin (this a) (this b).
Proof. unfold qc_min. destruct (qc_ltb_spec b a) as [H|H]; [rewrite Q.min_r; [reflexivity|apply Qlt_le_weak, H]|rewrite Q.min_l; [reflexivity|apply Qcnot_lt_le in H; exact H]]. Qed.
Lemma decimal_lengths s q : decimal_text s q -> Qabs q <= qpow2 1000 ->
  exists r, nearest_double q r /\ units (VStr s) = Ok (mkU KPx (PF (Fin r)))
    /\ forall t k, In (t, k) css_units -> units (VStr (s ++ t)) = Ok (mkU k (PF (Fin r))).
Proof.
  intros (p & sg & neg & w & ip & fp & e & x & r0 & P & R0 & Sg & Mn & Ex & Es & Eq) B. destruct (b64_is_nearest q B) as (r & E & N). exists r. split; [exact N|].
  assert (F : py_float s = Ok (Fin r)).
  { apply C147_float. exists p, sg, neg, (w ++ e)%string, r0. split; [exact P|]. split; [exact R0|]. split; [exact Sg|]. split; [|exact Es]. eapply body_decimal; [exact Mn|exact Ex|].
    apply (rounded_b64 q _ _ Eq). symmetry. exact E. }
  destruct (C06_numbers s (Fin r) F) as (A & C & _). split; [exact A|exact C].
Qed.
Lemma unit_found d s q t f : decimal_text s q -> Qabs q <= qpow2 1000 -> In (t, f) (pixels_per d) ->
  exists t' k r, In (t', k) css_units /\ units (VStr (s ++ t)) = Ok (mkU k (PF (Fin r))) /\ nearest_double q r /\ (forall v, scaled d (mkU k v) f).
Proof.
  intros Nt B I. destruct (decimal_lengths s q Nt B) as (r & Nr & U0 & U).
  assert (App : (s ++ "" = s)%string) by (clear; induction s as [|c s IH]; [reflexivity|]; cbn; rewrite IH; reflexivity).
  assert (K : exists t' k, In (t', k) css_units /\ (t = t' \/ (t = "" /\ k = KPx)) /\ forall v, scaled d (mkU k v) f).
  { unfold pixels_per in I. cbv zeta in I. unfold scaled, exact_len. cbn [u_val u_kind].
    repeat (destruct I as [I|I]; [injection I as <- <-|]); [..|destruct I].
    - exists "px", KPx. split; [left; reflexivity|]. split; [right; auto|]. intros v x. cbn. ring.
    - exists "px", KPx. split; [left; reflexivity|]. split; [left; reflexivity|]. intros v x. cbn. ring.
    - exists "in", (KAbs "in" (Z2Qc 72)). split; [cbn; tauto|]. split; [left; reflexivity|]. intros v x. rewrite ?this_div, ?this_mul, ?this_div, !this_Z2Qc. field.
    - exists "pc", (KAbs "pc" (Z2Qc 12)). split; [cbn; tauto|]. split; [left; reflexivity|]. intros v x. rewrite ?this_div, ?this_mul, ?this_div, !this_Z2Qc. field.
    - exists "pt", (KAbs "pt" (Z2Qc 1)). split; [cbn; tauto|]. split; [left; reflexivity|]. intros v x. rewrite ?this_div, ?this_mul, ?this_div, !this_Z2Qc. field.
    - exists "cm", (KAbs "cm" (qfrac 283465 10000)). split; [cbn; tauto|]. split; [left; reflexivity|]. intros v x. rewrite ?this_div, ?this_mul, ?this_div, !this_Z2Qc, this_qfrac. field.
    - exists "mm", (KAbs "mm" (qfrac 283465 100000)). split; [cbn; tauto|]. split; [left; reflexivity|]. intros v x. rewrite ?this_div, ?this_mul, ?this_div, !this_Z2Qc, this_qfrac. field.
    - exists "vw", (KVp "vw" ScaleVw). split; [cbn; tauto|]. split; [left; reflexivity|]. intros v x. rewrite ?this_div, ?this_mul, ?this_div, !this_Z2Qc. field.
    - exists "vh", (KVp "vh" ScaleVh). split; [cbn; tauto|]. split; [left; reflexivity|]. intros v x. rewrite ?this_div, ?this_mul, ?this_div, !this_Z2Qc. field.
    - exists "vmax", (KVp "vmax" ScaleVmax). split; [cbn; tauto|]. split; [left; reflexivity|]. intros v x. rewrite ?this_div, ?this_mul, ?this_div, !this_Z2Qc, max_q. field.
    - exists "vmin", (KVp "vmin" ScaleVmin). split; [cbn; tauto|]. split; [left; reflexivity|]. intros v x. rewrite ?this_div, ?this_mul, ?this_div, !this_Z2Qc, min_q. field. }
  destruct K as (t' & k & It & [<- |[-> ->]] & Sc); [exists t, k, r|exists t', KPx, r]; (split; [exact It|]); (split; [|split; [exact Nr|exact Sc]]).
  - apply U, It.
  - rewrite App. exact U0.
Qed.
(** ** The declaration *)
Definition length_first (p : longhand) : Prop := exists r, ch_validators (choices_of p) = is_length :: r.
Lemma written_read ho p x w c m c' m' : valid_order ho -> reachable ho c m -> length_first p -> units (VStr x) = Ok w ->
  set_prop ho (Long p) (VStr x) c m = (c', m', Ok tt) ->
  exists v, reads ho c' p v /\ (v = VUnit w \/ (py_eqb (VUnit w) v = true /\ reads ho c p v)).
Proof.
  intros V R [r Fi] U H. pose proof (reachable_op ho c m (OpSet (Long p) (VStr x)) R c' m' (Ok tt) H) as R'. cbn [set_prop] in H.
  apply set_long_ok in H. destruct H as (w0 & Va & H).
  assert (Ew : w0 = VUnit w).
  { unfold validate in Va. rewrite Fi in Va. cbn [first_valid run_validator] in Va. rewrite U in Va. cbn in Va. injection Va as <- _. reflexivity. }
  subst w0. unfold reads. cbn [get_prop]. destruct (get_long_ok ho c' m' p V R') as (v & Gv & _). destruct (get_long_ok ho c m p V R) as (v0 & Gv0 & _).
  destruct H as [[Sv ->]|[Sv ->]].
  - exists v0. rewrite Gv0. split; [reflexivity|]. right. split; [|reflexivity]. unfold get_long in Gv0. unfold stored_or_initial in Sv. destruct (c_store c p) as [y|] eqn:Cs.
    + destruct (initial_value ho c (initial_of ho p)); [|discriminate]. cbn in Gv0. injection Gv0 as <-. exact Sv.
    + unfold same_value in Sv. destruct (initial_of ho p) as [y| |]; [|discriminate..]. cbn in Gv0. injection Gv0 as <-. exact Sv.
  - exists (VUnit w). rewrite Gv. split; [|left; reflexivity]. unfold get_long in Gv. rewrite mark_dirty_store in Gv. rewrite store_same in Gv. destruct (initial_value ho _ (initial_of ho p)); [|discriminate]. cbn in Gv. injection Gv as <-. reflexivity.
Qed.
Lemma library_kind t1 k1 v1 t2 k2 v2 : In (t1, k1) css_units -> In (t2, k2) css_units -> u_eqb (mkU k1 v1) (mkU k2 v2) = true -> k1 = k2 /\ pval v1 = pval v2.
Proof.
  intros I1 I2 E. assert (X : py_num_eqb v1 v2 = true /\ k1 = k2).
  { unfold u_eqb in E. cbn [u_kind u_val] in E. destruct (py_num_eqb v1 v2); [split; [reflexivity|]|exfalso; destruct k1, k2; cbn in E; discriminate].
    cbn [andb] in E. unfold css_units in I1, I2.
    repeat (destruct I1 as [I1|I1]; [injection I1 as <- <-|]); [..|destruct I1];
    repeat (destruct I2 as [I2|I2]; [injection I2 as <- <-; try reflexivity; discriminate E|]); destruct I2. }
  destruct X as [X ->]. split; [reflexivity|]. apply num_eqb_pval, X.
Qed.
Lemma pval_amount a b : pval a = pval b -> amount a = amount b.
Proof.
  assert (A : forall x, amount x = match pval x with Fin q => q | _ => 0%Qc end) by (intros [z|[q|q|]]; reflexivity).
  intros E. rewrite !A, E. reflexivity.
Qed.

(** ** The box *)
Definition style_len (s : style) (p : longhand) : option unit_ :=
  match ComputedSpec.shows s p with Some (VUnit u) => Some u | _ => None end.
Lemma laid_part {S} (sty : S -> style) d h5 (n n' : node S) op k p u : history sty n -> layout sty d h5 n = (n', Ok tt) -> laid sty n' op k ->
  (exists b l, part p b = Some l) -> style_len (sty (n_style k)) p = Some u -> (forall x y, len d x u = len d y u) ->
  match p with
  | L_width => block_level (sty (n_style k)) = true /\ st_min_width (sty (n_style k)) = Auto /\ st_max_width (sty (n_style k)) = None
  | L_height => block_level (sty (n_style k)) = true /\ st_max_height (sty (n_style k)) = None /\ (op <> None \/ h5 = false)
  | _ => True
  end ->
  exists b x, n_box k = Some b /\ part p b = Some (LNum x) /\ nval x = len d 0 u.
Proof.
  intros Hi H L Pp Sl Any Cond.
  assert (Al : forall x, len d x u = len d 0 u) by (intros x; apply Any).
  destruct (laid_used_h sty d h5 n n' op k Hi H L) as (a & x & v & us & F & (A1 & A2 & A3 & A4 & A5 & A6 & A7 & A8 & A9 & A10 & A11) & Sh & Ar & _ & Ah & _).
  inversion Sh as [s i b ks u0 us0 Hu Fs| |]; subst. cbn [n_style n_box] in *. exists b.
  rewrite format_split in F. destruct (st_display (sty s)) as [dk|] eqn:Dk; [|discriminate]. unfold node_of in F. cbv zeta in F. injection F as Eu _.
  subst x. cbn [u_mt u_mb u_bt u_br u_bb u_bl u_pt u_pr u_pb u_pl u_w u_h] in *.
  destruct Hu as [H1 H2 H3 H4 H5 H6 H7 H8 H9 H10 H11 H12 H13 H14 H15 H16 H17 H18].
  unfold style_len in Sl.
  destruct p; try (exfalso; destruct Pp as (b0 & l0 & Pp); discriminate Pp); cbn [part ComputedSpec.shows] in *.
  - destruct s0; try (exfalso; destruct Pp as (b0 & l0 & Pp); discriminate Pp).
    + destruct (st_margin_top (sty s)) as [|u1]; [discriminate|]. injection Sl as ->. destruct H1 as (x & -> & X). exists x. split; [reflexivity|]. split; [reflexivity|]. rewrite X, A1. apply Al.
    + unfold bottoms in A2. destruct (st_margin_bottom (sty s)) as [|u1]; [discriminate|]. injection Sl as ->. rewrite andb_false_r in A2. rewrite A2 in H3. destruct H3 as (x & -> & X).
      exists x. split; [reflexivity|]. split; [reflexivity|]. rewrite X. apply Al.
  - destruct s0; injection Sl as Sl; eexists; (split; [reflexivity|]; split; [reflexivity|]); [rewrite H9, A7|rewrite H10, A8|rewrite H11, A9|rewrite H12, A10]; rewrite Sl; apply Al.
  - destruct s0; eexists; (split; [reflexivity|]; split; [reflexivity|]); [rewrite H5, A3|rewrite H6, A4|rewrite H7, A5|rewrite H8, A6];
      match goal with |- border_len d _ ?w = _ => destruct w as [kw|u1]; [discriminate|] end; injection Sl as ->; apply Al.
  - destruct Cond as (Bl & Mn & Mx). destruct (st_width (sty s)) as [|u1] eqn:Ew; [discriminate|]. injection Sl as ->.
    assert (W : u_w v = Some (len d 0 u)).
    { rewrite A11. unfold wmargins. unfold block_level in Bl. rewrite Dk in Bl. destruct dk; try discriminate Bl; cbn [isinl]; unfold widths; rewrite Ew; unfold limited_width; rewrite Mn, Mx, Al;
        destruct (qc_ltb _ _), (st_direction (sty s)), (st_margin_left (sty s)), (st_margin_right (sty s)); reflexivity. }
    rewrite W in H13. destruct H13 as (x & -> & X). exists x. auto.
  - destruct Cond as (Bl & Mx & Ro). destruct (st_height (sty s)) as [|u1] eqn:Ew; [discriminate|]. injection Sl as ->.
    assert (W : u_h v = Some (len d 0 u)).
    { rewrite (Ah Ro). unfold hgt. unfold block_level in Bl. rewrite Dk in Bl. destruct dk; try discriminate Bl; cbn [isinl]; unfold used_block_height, spec_height; rewrite Ew, Mx, Al; reflexivity. }
    rewrite W in H14. destruct H14 as (x & -> & X). exists x. auto.
Qed.
Lemma part_first p b l : part p b = Some l -> length_first p.
Proof. intros H. unfold length_first. destruct p; try discriminate H; try (destruct s; try discriminate H); eexists; reflexivity. Qed.

(** C151: a length assigned as a text is the size of that part of the box.
    The third hypothesis on the declaration only excludes units that the
    program made itself: such a unit can call itself "pt" and be of another
    size, and assigning an equal value changes nothing. *)
Theorem C151_written_length : forall ho d h5 (n n' : node css) op k p name c m m' s t f q,
  valid_order ho -> history (declared_style ho) n -> reachable ho c m ->
  names_prop name (Long p) -> setitem ho name (VStr (s ++ t)) c m = (n_style k, m', Ok tt) ->
  (forall u, reads ho c p (VUnit u) -> exists t', In (t', u_kind u) css_units) ->
  decimal_text s q -> Qabs q <= qpow2 1000 -> In (t, f) (pixels_per d) ->
  layout_css ho d h5 n = (n', Ok tt) -> laid (declared_style ho) n' op k ->
  decides ho (n_style k) (match op with None => true | _ => false end) h5 p -> (exists b l, part p b = Some l) ->
  exists b x, n_box k = Some b /\ part p b = Some (LNum x)
    /\ Qabs (this (nval x) - q * f) <= (1 # 128) + Qabs f * (qpow2 (-53) * Qabs q + qpow2 (-1022)).
Proof.
  intros ho d h5 n n' op k p name c m m' s t f q V Hi R Nm Se Lib Nt B I H L De Pp.
  destruct (unit_found d s q t f Nt B I) as (t' & kd & r & It & U & Nr & Sc).
  rewrite (proj1 (proj2 (proj1 (proj2 (C26_names ho c m)) (Long p) name Nm))) in Se.
  pose proof (reachable_op ho c m (OpSet (Long p) (VStr (s ++ t))) R _ _ _ Se) as R'.
  assert (Lf : length_first p) by (destruct Pp as (b0 & l0 & Pp0); exact (part_first p b0 l0 Pp0)).
  destruct (written_read ho p (s ++ t) _ c m _ m' V R Lf U Se) as (v & Rv & Cv).
  destruct (C30_kinds_partial ho _ _ V R') as (st & Cs & Sh).
  assert (Ds : declared_style ho (n_style k) = st) by (unfold declared_style; rewrite Cs; reflexivity).
  assert (Same : forall p0 v0 v1, reads ho (n_style k) p0 v0 -> ComputedSpec.shows st p0 = Some v1 -> v1 = v0).
  { unfold reads. intros p0 v0 v1 E1 E2. apply Sh in E2. rewrite E1 in E2. injection E2 as <-. reflexivity. }
  assert (Su : exists u, style_len st p = Some u /\ u_kind u = kd /\ amount (u_val u) = r).
  { assert (Sv : ComputedSpec.shows st p = Some v).
    { destruct Pp as (b0 & l0 & Pp0). destruct p; try discriminate Pp0; try (destruct s0; try discriminate Pp0); cbn [ComputedSpec.shows]; f_equal; (eapply Same; [exact Rv|reflexivity]). }
    unfold style_len. rewrite Sv. destruct Cv as [-> |[E Rc]].
    - eexists. split; [reflexivity|]. split; reflexivity.
    - assert (Vu : exists u, v = VUnit u).
      { destruct v; try (cbn in E; discriminate E); try (eexists; reflexivity); exfalso;
          destruct Pp as (b0 & l0 & Pp0); destruct p; try discriminate Pp0; try (destruct s0; try discriminate Pp0); cbn [ComputedSpec.shows] in Sv; try discriminate Sv;
          match type of Sv with Some (show_lenauto ?w) = _ => destruct w; discriminate Sv | Some (show_bwidth ?w) = _ => destruct w; discriminate Sv end. }
      destruct Vu as (u & ->). destruct (Lib u Rc) as (t2 & I2). exists u. split; [reflexivity|]. cbn [py_eqb] in E. destruct u as [k2 v2]. cbn [u_kind u_val] in *.
      destruct (library_kind t' kd _ t2 k2 v2 It I2 E) as [<- Pv]. split; [reflexivity|]. symmetry. apply (pval_amount (PF (Fin r))), Pv. }
  destruct Su as (u & Sl & Uk & Ua).
  assert (Scu : scaled d u f) by (destruct u as [k2 v2]; cbn in Uk; subst k2; apply Sc).
  destruct (laid_part (declared_style ho) d h5 n n' op k p u Hi H L Pp) as (b & x & Bk & Px & Nx).
  - rewrite Ds. exact Sl.
  - intros x y. unfold len. f_equal. apply Qc_is_canon. rewrite (Scu x), (Scu y). reflexivity.
  - rewrite Ds. assert (Blk : reads_block ho (n_style k) -> block_level st = true).
    { intros Rb. unfold block_level. destruct Rb as [Rb|[Rb|Rb]]; pose proof (Same L_display _ _ Rb eq_refl) as X; destruct (st_display st) as [[]|]; try discriminate X; reflexivity. }
    destruct p; try exact Logic.I; cbn [decides] in De.
    + destruct De as (D1 & D2 & D3). split; [apply Blk, D1|]. split.
      * pose proof (Same L_min_width _ _ D2 eq_refl) as X. destruct (st_min_width st); [reflexivity|discriminate X].
      * pose proof (Same L_max_width _ _ D3 eq_refl) as X. destruct (st_max_width st); [discriminate X|reflexivity].
    + destruct De as (D1 & D2 & D3). split; [apply Blk, D1|]. split.
      * pose proof (Same L_max_height _ _ D2 eq_refl) as X. destruct (st_max_height st); [discriminate X|reflexivity].
      * destruct op; [left; discriminate|right; exact D3].
  - exists b, x. split; [exact Bk|]. split; [exact Px|]. rewrite Nx. apply len_error; [exact Scu|]. rewrite Ua. apply nearest_error; assumption.
Qed.
Print Assumptions C151_written_length.
(** A block of width "12.3mm" inside a block; the display has 96 dots per inch. *)
Definition written_before : list op := [OpSet (Long L_display) (VStr "block"); OpSet (Long (L_padding SLeft)) (VStr "1.5pt")].
Definition written_width : css := declared (written_before ++ [OpSetItem "width" (VStr "12.3mm")]).
Definition written_doc : node css := Node (declared [OpSet (Long L_display) (VStr "block")]) size0 (Some box0) [Node written_width size0 (Some box0) []].
Definition written_laid : node css := fst (layout_css plain_order screen false written_doc).
Example C151_example :
  history (declared_style plain_order) written_doc /\ reachable plain_order (declared written_before) (declared_n written_before)
  /\ names_prop "width" (Long L_width)
  /\ (exists m', setitem plain_order "width" (VStr ("12.3" ++ "mm")) (declared written_before) (declared_n written_before) = (written_width, m', Ok tt))
  /\ (forall u, ~ reads plain_order (declared written_before) L_width (VUnit u))
  /\ decimal_text "12.3" (123 # 10) /\ decimal_text " 1_230.e-2" (123 # 10) /\ In ("mm", 96 * (283465 # 7200000)) (pixels_per screen)
  /\ layout_css plain_order screen false written_doc = (written_laid, Ok tt)
  /\ (exists k, laid (declared_style plain_order) written_laid (Some written_laid) k /\ n_style k = written_width
       /\ decides plain_order (n_style k) false false L_width
       /\ option_map (fun b => lq (content_width b)) (n_box k) = Some (Some (2975 # 64))
       /\ option_map (fun b => this (nval (padding_left b))) (n_box k) = Some 2).
Proof.
  split; [apply history_new; solve_new|]. split; [apply declared_reachable|]. split; [reflexivity|]. split; [eexists; vm_compute; reflexivity|].
  split; [intros u E; vm_compute in E; discriminate E|]. split.
  { exists "", "", false, "12.3", "12", "3", "", 0%Z, "". split; [reflexivity|]. split; [reflexivity|]. split; [left; auto|]. split; [|split; [left; auto|split; reflexivity]].
    right. exists "12", "3". split; [reflexivity|]. split; [right; repeat constructor|]. split; [right; repeat constructor|discriminate]. }
  split.
  { exists " ", "", false, "1_230.", "1230", "", "e-2", (-2)%Z, "". split; [reflexivity|]. split; [reflexivity|]. split; [left; auto|]. split; [|split; [|split; reflexivity]].
    - right. exists "1_230", "". split; [reflexivity|]. split; [right; apply run_under; [reflexivity|repeat constructor]|]. split; [left; auto|discriminate].
    - right. exists "e", "-", true, "2", "2". split; [left; reflexivity|]. split; [right; auto|]. split; [repeat constructor|]. split; reflexivity. } split; [vm_compute; tauto|].
  split; [unfold written_laid; rewrite (surjective_pairing (layout_css _ _ _ _)) at 1; f_equal; vm_compute; reflexivity|].
  exists (match n_kids written_laid with k :: _ => k | [] => written_laid end).
  split; [|split; [vm_compute; reflexivity|split; [|split; vm_compute; reflexivity]]].
  - eapply EngineSpec.laid_kid; [apply laid_root; vm_compute; discriminate|vm_compute; left; reflexivity|vm_compute; discriminate|vm_compute; right; reflexivity].
  - split; [left; vm_compute; reflexivity|]. split; vm_compute; reflexivity.
Qed.
