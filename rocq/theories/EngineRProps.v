(** * Properties C57, C58, C60, C62, C81, C82: relative boxes, replaced elements,
      non-negative sizes, vertical margins, re-displayed nodes *)
From Coq Require Import ZArith QArith Qcanon Lqa Lia Bool String List.
From Verif Require Import PyNum NumFacts Units UnitsSpec UnitsFacts BoxModel BoxSpec BoxFacts Engine EnginePure EngineFacts
  EngineSpec EngineTree EngineWidth EngineHeight EngineReplaced EngineRel EngineInv EngineExamples EngineIProps.
Import ListNotations.
Open Scope Qc_scope.

Section Props.
Context {S : Type} (sty : S -> style).
Notation node := (node S).

(** C57, horizontally: a relatively positioned block-level node is at the place
    a static one takes (margin + border + padding from the left content edge of
    its parent), moved by left, or by minus right, or not at all.  Its width and
    margins satisfy the same theorems as those of static nodes (C37-C46 do not
    ask for a static position).  Missing: the vertical direction and the
    parent's height, where the claim is false (see the refutations). *)
Theorem C57_relative_left_partial : forall d h5 (n n' : node) op k,
  layout sty d h5 n = (n', Ok tt) -> laid sty n' op k -> is_block_level (sty (n_style k)) = true ->
  st_left (sty (n_style k)) <> OInherit -> st_right (sty (n_style k)) <> OInherit ->
  exists b ml, n_box k = Some b /\ margin_left b = LNum ml
    /\ (st_position (sty (n_style k)) = PStatic ->
         nval (content_left b) = nval ml + nval (border_left_width b) + nval (padding_left b))
    /\ (st_position (sty (n_style k)) = PRelative ->
         exists q, shift_by (width_ctx d op) (st_left (sty (n_style k))) (st_right (sty (n_style k))) q
         /\ nval (content_left b) = nval ml + nval (border_left_width b) + nval (padding_left b) + q).
Proof.
  intros d h5 n n' op k H L B I1 I2. destruct (laid_left sty _ _ _ _ _ _ H L B) as (b & ml & E1 & E2 & E3 & E4).
  exists b, ml. split; [exact E1|]. split; [exact E2|]. unfold is_relative in *. split.
  - intros P. rewrite P in E3. exact (E3 eq_refl).
  - intros P. rewrite P in E4. exact (E4 eq_refl I1 I2).
Qed.

(** C81 (and the true part of C58).  The used size of an inline replaced
    element, for every combination of specified and intrinsic dimensions. *)
Theorem C81_replaced_size : forall d h5 (n n' : node) op k,
  layout sty d h5 n = (n', Ok tt) -> ready sty n -> laid sty n' op k -> parent_ok sty h5 n' op ->
  st_display (sty (n_style k)) = Some DInline -> s_replaced (n_intr k) = true -> op <> None \/ h5 = false ->
  exists b w h, n_box k = Some b /\ content_width b = LNum w /\ content_height b = LNum h
    /\ replaced_width (width_ctx d op) (sty (n_style k)) (n_intr k) b w
    /\ replaced_height (height_ctx sty d op) (sty (n_style k)) (n_intr k) w h.
Proof. intros. eapply laid_replaced; eassumption. Qed.

(** C58, what holds of the statement: intrinsic sizes, specified sizes, the
    width from the ratio, the fallbacks.  Missing: the height from the ratio,
    for which the code uses the ratio upside down (see the refutation). *)
Theorem C58_inline_replaced_partial : forall d h5 (n n' : node) op k,
  layout sty d h5 n = (n', Ok tt) -> ready sty n -> laid sty n' op k -> parent_ok sty h5 n' op ->
  st_display (sty (n_style k)) = Some DInline -> s_replaced (n_intr k) = true -> op <> None \/ h5 = false ->
  let s := sty (n_style k) in let i := n_intr k in
  exists b w h, n_box k = Some b /\ content_width b = LNum w /\ content_height b = LNum h
    (* intrinsic sizes when both sizes are auto *)
    /\ (st_width s = Auto -> st_height s = Auto -> forall x, s_width i = Some x -> w = x)
    /\ (st_width s = Auto -> st_height s = Auto -> forall y, s_height i = Some y -> h = y)
    (* specified sizes *)
    /\ (forall u, st_width s = Len u -> length_is (width_ctx d op) u (nval w))
    /\ (forall u, st_height s = Len u -> length_is (height_ctx sty d op) u (nval h))
    (* the width from the ratio, to the nearest pixel *)
    /\ (st_width s = Auto -> st_height s = Auto -> s_width i = None -> forall y r, s_height i = Some y -> s_ratio i = Some r ->
          exists z, w = NI z /\ Z2Qc z - qfrac 1 2 <= nval y * nval r /\ nval y * nval r <= Z2Qc z + qfrac 1 2)
    (* the fallbacks *)
    /\ (st_width s = Auto -> st_height s = Auto -> s_width i = None -> s_height i = None -> s_ratio i = None ->
          nval w = Z2Qc 300 /\ nval h <= Z2Qc 150).
Proof.
  intros d h5 n n' op k H R L P D Rp A s i.
  destruct (laid_replaced sty _ _ _ _ _ _ H R L P D Rp A) as (b & w & h & E1 & E2 & E3 & W & Ht).
  fold s i in W, Ht. exists b, w, h. do 3 (split; [assumption|]).
  split; [|split; [|split; [|split; [|split]]]].
  - intros W1 W2 x Ex. inversion W; subst; congruence || (exfalso; intuition congruence) || idtac.
  - intros W1 W2 y Ey. inversion Ht; subst; try congruence; exfalso; intuition congruence.
  - intros u Eu. inversion W; subst; try congruence. exists w. split; [congruence|reflexivity].
  - intros u Eu. inversion Ht; subst; try congruence. exists h. split; [congruence|reflexivity].
  - intros W1 W2 W3 y r Ey Er. inversion W as [| |h0 r0 z0 X1 X2 X3 X4 X5 (N1 & N2 & _)|r0 w0 W0 X1 X2 X3 X4|X1 X2 X3]; subst; try congruence;
      [|exfalso; intuition congruence].
    rewrite Ey in X4. rewrite Er in X5. injection X4 as <-. injection X5 as <-. eexists. split; [reflexivity|].
    split; assumption.
  - intros W1 W2 W3 W4 W5. assert (Ew : w = NI 300) by (inversion W; subst; congruence). split; [rewrite Ew; reflexivity|].
    inversion Ht as [| | | |h0 X1 X2 X3 X4 (_ & _ & X5)]; subst; first [exact X5|congruence].
Qed.

(** C82.  The used vertical margins of a laid out block are the specified
    ones; auto counts as 0. *)
Theorem C82_vertical_margins : forall d h5 (n n' : node) op k,
  layout sty d h5 n = (n', Ok tt) -> ready sty n -> laid sty n' op k -> is_block_level (sty (n_style k)) = true ->
  parent_ok sty h5 n' op ->
  exists b mt mb, n_box k = Some b /\ margin_top b = LNum mt /\ margin_bottom b = LNum mb
    /\ specified (height_ctx sty d op) (st_margin_top (sty (n_style k))) (nval mt)
    /\ specified (height_ctx sty d op) (st_margin_bottom (sty (n_style k))) (nval mb).
Proof.
  intros d h5 n n' op k H R L B P. destruct (laid_vertical_v sty _ _ _ _ _ _ H R L B P) as (b & h & VF).
  destruct (vf_mt _ _ _ _ _ _ _ _ _ _ VF) as (mt & M1 & M2). destruct (vf_mb _ _ _ _ _ _ _ _ _ _ VF) as (mb & M3 & M4).
  exists b, mt, mb. split; [exact (vf_box _ _ _ _ _ _ _ _ _ _ VF)|]. auto.
Qed.

(** C60, for static block documents whose lengths are non-negative.  Missing:
    font-relative lengths (refuted below), inline and relative boxes, and the
    horizontal margins, one of which becomes negative in every
    over-constrained box (C46). *)
Theorem C60_nonnegative_partial : forall d h5 (n n' : node) op k,
  layout sty d h5 n = (n', Ok tt) -> ready sty n -> laid sty n' op k ->
  every_node (fun s i => In (st_display (sty s)) [Some DBlock; Some DListItem] /\ st_position (sty s) = PStatic
     /\ s_replaced i = false /\ nonneg_style d (sty s)) n ->
  exists b, n_box k = Some b
    /\ 0 <= nval (border_top_width b) /\ 0 <= nval (border_right_width b)
    /\ 0 <= nval (border_bottom_width b) /\ 0 <= nval (border_left_width b)
    /\ 0 <= nval (padding_top b) /\ 0 <= nval (padding_right b)
    /\ 0 <= nval (padding_bottom b) /\ 0 <= nval (padding_left b)
    /\ (exists mt mb, margin_top b = LNum mt /\ margin_bottom b = LNum mb /\ 0 <= nval mt /\ 0 <= nval mb)
    /\ (op <> None \/ h5 = false -> exists h, content_height b = LNum h /\ 0 <= nval h).
Proof.
  intros d h5 n n' op k H R L E.
  assert (E' : every_node (plain_block sty d) n').
  { pose proof (layout_inputs sty d h5 n) as I. rewrite H in I. cbn [fst] in I.
    clear -E I. revert n' I. induction E as [s i bx ks P Hk IH]. intros [s' i' bx' ks'] I. cbn [inputs] in I. injection I as -> -> I.
    constructor; [exact P|]. clear P bx bx' Hk. revert ks' I IH. induction ks as [|k ks IHk]; intros [|k' ks'] I IH k0 I0; try discriminate; [destruct I0|].
    cbn in I. injection I as I1 I2. destruct I0 as [<-|I0]; [eapply IH; [left; reflexivity|exact I1]|].
    eapply IHk; [exact I2| |exact I0]. intros. eapply IH; [right|]; eassumption. }
  assert (Ek : every_node (plain_block sty d) k).
  { clear -L E'. induction L as [|op p k L IH I D B]; [exact E'|]. inversion IH as [? ? ? ? _ Hk]; subst. apply Hk, I. }
  destruct (laid_width sty d h5 n n' op k H L) as (_ & b & cb & B & _).
  { inversion Ek as [? ? ? ? P _]; subst. apply (plain_block_facts sty d _ _ P). }
  exists b. split; [exact B|].
  assert (N : nonneg_box b).
  { inversion Ek as [? ? ? ? P _]; subst. eapply laid_nonneg_edges; [exact H|exact L|apply (plain_block_facts sty d _ _ P)|apply P|exact B]. }
  destruct N as [X1 X2 X3 X4 X5 X6 X7 X8 (mt & M1 & M2) (mb & M3 & M4)]. repeat (split; [assumption|]).
  split; [exists mt, mb; auto|]. intros Ho. eapply laid_nonneg_height; eassumption.
Qed.

(** Which lengths are non-negative: pixels, absolute lengths and viewport
    percentages with non-negative magnitudes. *)
Theorem C60_nonnegative_units : forall d u v,
  magnitude (u_val u) v -> 0 <= v ->
  0 <= nval (dpi d) -> 0 <= nval (disp_width d) -> 0 <= nval (disp_height d) ->
  (u_kind u = KPx \/ (exists s pt, u_kind u = KAbs s pt /\ 0 <= pt) \/ (exists s sc, u_kind u = KVp s sc)) ->
  nonneg_length d u.
Proof.
  intros d [k pv] v M Hv Hd Hw Hh K f x p Px. cbn [u_val u_kind] in *. apply px_inv in Px. destruct Px as (q & E & ->).
  rewrite lu_to_px_val.
  assert (Q : 0 <= q).
  { assert (U : forall v', magnitude pv v' -> v' = v).
    { intros v' M'. apply magnitude_pval in M, M'. congruence. }
    assert (Mul : forall a b, 0 <= a -> 0 <= b -> 0 <= a * b).
    { intros a b. unfold Qcle. rewrite this_mul, this_0. intros. apply Qmult_le_0_compat; assumption. }
    assert (Div : forall a z, 0 <= a -> 0 <= a / Z2Qc (Zpos z)).
    { intros a z. unfold Qcle. rewrite this_div, this_0, this_Z2Qc. intros. apply Qmult_le_0_compat; [assumption|].
      apply Qinv_le_0_compat. change 0%Q with (inject_Z 0). rewrite <- Zle_Qle. lia. }
    inversion E as [p0 v0 M0 E1|p0 v0 M0 E1|p0 v0 M0 E1|p0 v0 M0 E1|s0 pt0 p0 v0 M0 E1|s0 sc0 p0 v0 e0 M0 X0 E1|p0 v0 n0 M0 X0 E1]; subst;
      try (destruct K as [K|[(s & pt & K & K2)|(s & sc & K)]]; discriminate K).
    - rewrite (U _ M0). exact Hv.
    - destruct K as [K|[(s & pt & K & K2)|(s & sc & K)]]; try discriminate K. injection K as <- <-. rewrite (U _ M0). auto.
    - rewrite (U _ M0). apply Div, Mul; [exact Hv|]. cbn [c_disp] in X0. inversion X0; subst; try assumption;
      match goal with H : _ \/ _ |- _ => destruct H; subst; assumption end. }
  pose proof (rhe_near (this (Z2Qc 64 * q))) as [_ N].
  assert (G : (0 <= this (Z2Qc 64 * q))%Q).
  { rewrite this_mul, this_Z2Qc. apply Qmult_le_0_compat; [discriminate|]. exact Q. }
  set (r := round_half_even _) in *.
  assert (0 <= r)%Z.
  { assert ((-1) < r)%Z; [|lia]. rewrite Zlt_Qlt. change (inject_Z (-1)) with (-1)%Q. lra. }
  apply (qfrac_64_le 0 r). assumption.
Qed.
End Props.

(** ** Examples and refutations *)
Definition rel (ot or ob ol : offset) (s : style) : style := s_offsets ot or ob ol (s_position PRelative s).
Definition rel_doc : doc :=
  el block_style [el (rel OAuto (OLen (pxu 5)) OAuto OAuto (s_padding (pxu 1) (pxu 1) (pxu 1) (pxu 3) (s_size (Len (pxu 50)) (Len (pxu 10)) block_style))) []].
Example C57_example : exists k, laid idsty (out true rel_doc) (Some (out true rel_doc)) k
  /\ layout idsty screen true rel_doc = (out true rel_doc, Ok tt)
  /\ is_block_level (n_style k) = true /\ st_position (n_style k) = PRelative
  /\ st_left (n_style k) <> OInherit /\ st_right (n_style k) <> OInherit
  /\ (exists b, n_box k = Some b /\ nval (content_left b) = Z2Qc (-2)).
Proof.
  exists (kid 0 (out true rel_doc)). split; [laid_tac|]. split; [apply ok_layout; vm_compute; reflexivity|].
  do 2 (split; [vm_compute; reflexivity|]). split; [vm_compute; discriminate|]. split; [vm_compute; discriminate|].
  exists (bx (kid 0 (out true rel_doc))). split; [vm_compute; reflexivity|]. apply qc_eq. vm_compute. reflexivity.
Qed.

(** C57 as stated is false.  A relative box with padding 7 and border 2 and no
    offsets at all is 9px below the place of the same static box ... *)
Definition edged (s : style) : style :=
  s_padding (pxu 7) (pxu 7) (pxu 7) (pxu 7) (s_border (BLen (pxu 2)) (BLen (pxu 2)) (BLen (pxu 2)) (BLen (pxu 2)) (hpx 10 s)).
Definition one_doc (s : style) : doc := el block_style [el s []; el (hpx 5 block_style) []].
Theorem C57_vertical_refuted : exists (n m n' m' : doc) b c,
  n = one_doc (edged block_style) /\ m = one_doc (s_position PRelative (edged block_style))
  /\ layout idsty screen true n = (n', Ok tt) /\ layout idsty screen true m = (m', Ok tt)
  /\ n_box (kid 0 n') = Some b /\ n_box (kid 0 m') = Some c
  /\ nval (content_top c) = nval (content_top b) + Z2Qc 9.
Proof.
  do 2 eexists. exists (out true (one_doc (edged block_style))), (out true (one_doc (s_position PRelative (edged block_style)))).
  do 2 eexists. split; [reflexivity|]. split; [reflexivity|].
  split; [apply ok_layout; vm_compute; reflexivity|]. split; [apply ok_layout; vm_compute; reflexivity|].
  split; [vm_compute; reflexivity|]. split; [vm_compute; reflexivity|]. apply qc_eq. vm_compute. reflexivity.
Qed.
(** ... and moving the last child by 30px makes its parent 30px higher. *)
Definition last_doc (s : style) : doc := el block_style [el block_style [el s []]].
Theorem C57_parent_height_refuted : exists (n m n' m' : doc) b c h h',
  n = last_doc (hpx 10 block_style) /\ m = last_doc (rel (OLen (pxu 30)) OAuto OAuto OAuto (hpx 10 block_style))
  /\ layout idsty screen true n = (n', Ok tt) /\ layout idsty screen true m = (m', Ok tt)
  /\ n_box (kid 0 n') = Some b /\ n_box (kid 0 m') = Some c
  /\ content_height b = LNum h /\ content_height c = LNum h' /\ nval h' = nval h + Z2Qc 30.
Proof.
  do 2 eexists. exists (out true (last_doc (hpx 10 block_style))), (out true (last_doc (rel (OLen (pxu 30)) OAuto OAuto OAuto (hpx 10 block_style)))).
  do 4 eexists. split; [reflexivity|]. split; [reflexivity|].
  split; [apply ok_layout; vm_compute; reflexivity|]. split; [apply ok_layout; vm_compute; reflexivity|].
  do 4 (split; [vm_compute; reflexivity|]). apply qc_eq. vm_compute. reflexivity.
Qed.

(** Replaced elements. *)
Definition img (s : style) (w h r : option num) : doc :=
  Node (s_display (Some DInline) s) (mkSize w h true true r true) (Some box0) [].
Definition img_doc (k : doc) : doc := el block_style [el (hpx 10 block_style) [k]].
Example C58_example : exists k,
  layout idsty screen true (img_doc (img block_style None (Some (NI 11)) (Some (NF (qfrac 3 2))))) = (out true (img_doc (img block_style None (Some (NI 11)) (Some (NF (qfrac 3 2))))), Ok tt)
  /\ boxed (img_doc (img block_style None (Some (NI 11)) (Some (NF (qfrac 3 2)))))
  /\ laid idsty (out true (img_doc (img block_style None (Some (NI 11)) (Some (NF (qfrac 3 2))))))
       (Some (kid 0 (out true (img_doc (img block_style None (Some (NI 11)) (Some (NF (qfrac 3 2)))))))) k
  /\ st_display (n_style k) = Some DInline /\ s_replaced (n_intr k) = true
  /\ option_map content_width (n_box k) = Some (LNum (NI 16)).
Proof.
  set (o := img_doc _). exists (kid 0 (kid 0 (out true o))). split; [apply ok_layout; vm_compute; reflexivity|].
  split; [solve_boxed|]. split; [laid_tac|]. do 2 (split; [vm_compute; reflexivity|]). vm_compute. reflexivity.
Qed.
Lemma parent_ok_static {S} (sty : S -> style) h5 (root p : node S) : is_relative (sty (n_style p)) = false -> parent_ok sty h5 root (Some p).
Proof. intros E R. congruence. Qed.

(** C58 as stated is false: an image of ratio 2 (twice as wide as high) that
    is 100px wide becomes 200px high. *)
Theorem C58_ratio_refuted : exists (n n' k : doc) p b w h r,
  boxed n /\ layout idsty screen true n = (n', Ok tt) /\ laid idsty n' (Some p) k
  /\ st_display (n_style k) = Some DInline /\ s_replaced (n_intr k) = true
  /\ st_width (n_style k) = Len (pxu 100) /\ st_height (n_style k) = Auto
  /\ s_ratio (n_intr k) = Some r /\ n_box k = Some b /\ content_width b = LNum w /\ content_height b = LNum h
  /\ nval w = Z2Qc 100 /\ nval r = Z2Qc 2 /\ nval h = Z2Qc 200 /\ nval w <> nval h * nval r.
Proof.
  set (n := img_doc (img (s_size (Len (pxu 100)) Auto block_style) None None (Some (NI 2)))).
  exists n, (out true n), (kid 0 (kid 0 (out true n))), (kid 0 (out true n)).
  do 3 eexists. exists (NI 2). split; [solve_boxed|]. split; [apply ok_layout; vm_compute; reflexivity|]. split; [laid_tac|].
  do 8 (split; [vm_compute; reflexivity|]). do 3 (split; [apply qc_eq; vm_compute; reflexivity|]).
  intros E. apply (f_equal this) in E. vm_compute in E. discriminate.
Qed.

(** Non-negative sizes: a document meeting the hypotheses. *)
Definition nn_doc : doc :=
  el (s_padding (mkU (KVp "vw" ScaleVw) (PI 3)) (pxu 1) (mkU (KAbs "pt" (Z2Qc 1)) (PI 3)) (pxu 1) block_style)
    [el (edged block_style) []; el (vmargin 3 4 (s_display (Some DListItem) block_style)) [el (edged block_style) []]].
Lemma nonneg_dec s : forallb (fun u => match u_kind u, u_val u with
    | KPx, PI z => (0 <=? z)%Z
    | KAbs _ pt, PI z => qc_leb 0 pt && (0 <=? z)%Z
    | KVp _ _, PI z => (0 <=? z)%Z
    | _, _ => false end) (style_units s) = true -> nonneg_style screen s.
Proof.
  intros H. split.
  - intros u I. rewrite forallb_forall in H. specialize (H u I). destruct u as [k v]. cbn [u_kind u_val] in H.
    assert (G : forall z, (0 <=? z)%Z = true -> 0 <= Z2Qc z).
    { intros z Hz. apply Z.leb_le in Hz. apply Z2Qc_le in Hz. exact Hz. }
    destruct k as [|s0|s0 pt|s0 sc| |s0 sc]; destruct v as [z|x]; try discriminate.
    + eapply C60_nonnegative_units; [apply mag_int|apply G, H|vm_compute; discriminate|vm_compute; discriminate|vm_compute; discriminate|left; reflexivity].
    + apply andb_prop in H. destruct H as [H1 H2]. destruct (qc_leb_spec 0 pt) as [H3|]; [|discriminate].
      eapply C60_nonnegative_units; [apply mag_int|apply G, H2|vm_compute; discriminate|vm_compute; discriminate|vm_compute; discriminate|right; left; exists s0, pt; auto].
    + eapply C60_nonnegative_units; [apply mag_int|apply G, H|vm_compute; discriminate|vm_compute; discriminate|vm_compute; discriminate|right; right; exists s0, sc; reflexivity].
  - intros []; vm_compute; discriminate.
Qed.
Example C60_example : boxed nn_doc /\ ok true nn_doc = true
  /\ every_node (fun s i => In (st_display (idsty s)) [Some DBlock; Some DListItem] /\ st_position (idsty s) = PStatic
     /\ s_replaced i = false /\ nonneg_style screen (idsty s)) nn_doc.
Proof.
  split; [solve_boxed|]. split; [vm_compute; reflexivity|].
  assert (E : forall s ks, In (st_display s) [Some DBlock; Some DListItem] -> st_position s = PStatic -> nonneg_style screen s ->
    (forall k, In k ks -> every_node (fun s i => In (st_display (idsty s)) [Some DBlock; Some DListItem] /\ st_position (idsty s) = PStatic
     /\ s_replaced i = false /\ nonneg_style screen (idsty s)) k) ->
    every_node (fun s i => In (st_display (idsty s)) [Some DBlock; Some DListItem] /\ st_position (idsty s) = PStatic
     /\ s_replaced i = false /\ nonneg_style screen (idsty s)) (el s ks)).
  { intros s ks A B C D. constructor; [repeat split; try assumption; apply C|exact D]. }
  unfold nn_doc. apply E; [cbn; tauto|reflexivity|apply nonneg_dec; vm_compute; reflexivity|].
  intros k [<-|[<-|[]]]; (apply E; [cbn; tauto|reflexivity|apply nonneg_dec; vm_compute; reflexivity|]).
  - intros k [].
  - intros k [<-|[]]. apply E; [cbn; tauto|reflexivity|apply nonneg_dec; vm_compute; reflexivity|]. intros k [].
Qed.

(** The list item of this document meets the hypotheses of C82. *)
Example C82_example : laid idsty (out true nn_doc) (Some (out true nn_doc)) (kid 1 (out true nn_doc))
  /\ is_block_level (n_style (kid 1 (out true nn_doc))) = true /\ is_relative (n_style (out true nn_doc)) = false
  /\ margin_top (bx (kid 1 (out true nn_doc))) = LNum (NI 3).
Proof.
  split; [laid_tac|]. split; [vm_compute; reflexivity|]. split; [vm_compute; reflexivity|].
  vm_compute. reflexivity.
Qed.

(** C60 as stated is false: a padding of 2em is negative, because the engine
    lays documents out with a dummy font of size -1. *)
Theorem C60_font_refuted : exists (n n' : doc) b,
  boxed n /\ layout idsty screen true n = (n', Ok tt) /\ n_box n' = Some b
  /\ st_padding_top (n_style n') = emu 2 /\ nval (padding_top b) < 0.
Proof.
  set (n := el (s_padding (emu 2) (pxu 1) (pxu 1) (pxu 1) block_style) []).
  exists n, (out true n), (bx (out true n)). split; [solve_boxed|]. split; [apply ok_layout; vm_compute; reflexivity|].
  do 2 (split; [vm_compute; reflexivity|]). vm_compute. reflexivity.
Qed.

(** C62 as stated is false: a node that was hidden, laid out, shown again and
    laid out again has another absolute position than if it had never been
    hidden ([hist_doc], [show_again] in EngineIProps.v). *)
Theorem C62_reshow_refuted : exists (n h m n' m' : doc),
  (* n: never hidden; h: hidden; m: shown again after a layout while hidden *)
  boxed n /\ boxed h /\ m = show_again (fst (layout idsty screen false h)) /\ inputs m = inputs n
  /\ layout idsty screen false n = (n', Ok tt) /\ snd (layout idsty screen false h) = Ok tt
  /\ layout idsty screen false m = (m', Ok tt)
  /\ nval (absolute_content_left (bx (kid 0 n'))) <> nval (absolute_content_left (bx (kid 0 m'))).
Proof.
  exists (hist_doc false), (hist_doc true), (show_again (out false (hist_doc true))), (out false (hist_doc false)),
    (out false (show_again (out false (hist_doc true)))).
  split; [solve_boxed|]. split; [solve_boxed|]. split; [reflexivity|]. split; [vm_compute; reflexivity|].
  split; [apply ok_layout; vm_compute; reflexivity|]. split; [vm_compute; reflexivity|]. split; [apply ok_layout; vm_compute; reflexivity|].
  intros E. apply (f_equal this) in E. vm_compute in E. discriminate.
Qed.

Print Assumptions C57_relative_left_partial.
Print Assumptions C57_vertical_refuted.
Print Assumptions C57_parent_height_refuted.
Print Assumptions C81_replaced_size.
Print Assumptions C58_inline_replaced_partial.
Print Assumptions C58_ratio_refuted.
Print Assumptions C82_vertical_margins.
Print Assumptions C60_nonnegative_partial.
Print Assumptions C60_nonnegative_units.
Print Assumptions C60_font_refuted.
Print Assumptions C62_reshow_refuted.

(** A picture 40px wide whose height comes from its ratio. *)
Definition picture : doc :=
  el block_style [Node (s_size (Len (pxu 40)) Auto (s_display (Some DInline) block_style)) (mkSize (Some (NI 9)) None true true (Some (NF (qfrac 1 2))) true) (Some box0) []].
Example C81_example : layout idsty screen false picture = (out false picture, Ok tt) /\ ready idsty picture
  /\ laid idsty (out false picture) (Some (out false picture)) (kid 0 (out false picture)) /\ parent_ok idsty false (out false picture) (Some (out false picture))
  /\ st_display (n_style (kid 0 (out false picture))) = Some DInline /\ s_replaced (n_intr (kid 0 (out false picture))) = true
  /\ (lq (content_width (bx (kid 0 (out false picture)))), lq (content_height (bx (kid 0 (out false picture))))) = (Some 40, Some 20)%Q.
Proof.
  split; [apply ok_layout; vm_compute; reflexivity|]. split; [apply boxed_ready; solve_boxed|]. split; [laid_tac|].
  split; [intros E; vm_compute in E; discriminate E|]. repeat split; vm_compute; reflexivity.
Qed.
