(** * C177: from programs to the page *)
From Coq Require Import ZArith QArith Qcanon Qabs Lia Bool String Ascii List.
From Verif Require Import PyNum NumFacts Units UnitsSpec UnitsFacts UnitsProps BoxModel BoxSpec BoxFacts Engine EnginePure EngineSpec EngineSim EngineExamples EngineInv EngineTree EngineTotal EngineWidth
  Float64 PyStr Colors ColorSpec Values Parser ParseSpec Choices Shorthand Decl DeclSpec DeclFacts DeclProps Computed ComputedSpec ComputedFacts ComputedProps
  DeclProps3 FloatSpec FloatFacts FloatTextProps RefLayout RefFacts RefProps HistSpec HistProps MoveSpec MoveProps EdgeSpec EdgeProps UnitsParseProps ReadSpec ReadProps WrittenSpec WrittenProps
  AcceptSpec AcceptProps GrammarSpec GrammarProps ShortSpec ShortProps TableSpec TableProps EditSpec EditProps WrapSpec ScriptSpec.
Import ListNotations.
Open Scope string_scope.
Open Scope Qc_scope.

(** ** The reference layout only uses the sizes of lengths *)
Lemma extent_some d sc : exists e, extent d sc e.
Proof.
  destruct sc; [eexists; constructor| | |eexists; constructor]; destruct (Qclt_le_dec (nval (disp_width d)) (nval (disp_height d))) as [L|L].
  - exists (nval (disp_height d)). constructor; [auto|apply Qclt_le_weak, L|apply Qcle_refl].
  - exists (nval (disp_width d)). constructor; [auto|apply Qcle_refl|exact L].
  - exists (nval (disp_width d)). constructor; [auto|apply Qcle_refl|apply Qclt_le_weak, L].
  - exists (nval (disp_height d)). constructor; [auto|exact L|apply Qcle_refl].
Qed.
Lemma lib_px d x u : library_unit u -> (exists p, px (mkCtx d dummy_font (LNum (NF x))) u = Ok p) \/ forall q, exact_len d q u = 0.
Proof.
  intros [t I]. destruct u as [k m]. cbn [u_kind] in I.
  assert (M : (exists q, magnitude m q) \/ amount m = 0) by (destruct m as [z|[q|sg|]]; [left; eexists; constructor|left; eexists; constructor|right; reflexivity|right; reflexivity]).
  destruct M as [[q M]|M].
  - assert (A : (exists y, exact_px (mkCtx d dummy_font (LNum (NF x))) (mkU k m) y) \/ exists a b, k = KAngle a b).
    { pose proof (extent_some d) as X. destruct (X ScaleVw) as [e1 X1], (X ScaleVh) as [e2 X2], (X ScaleVmax) as [e3 X3], (X ScaleVmin) as [e4 X4].
      repeat (destruct I as [I|I]; [injection I as <- <-; first [right; do 2 eexists; reflexivity|left; eexists; econstructor; first [eassumption|reflexivity|constructor]]|]). destruct I. }
    destruct A as [[y A]|(a & b & ->)]; [left; destruct (C01_px_defined _ _ _ A) as [p P]; exists p; exact P|right; intros; reflexivity].
  - right. intros q. unfold exact_len. cbn [u_kind u_val]. rewrite M. destruct k as [|s|s q0|s []| |s q0]; unfold Qcdiv; ring.
Qed.
Lemma len_alike d x u v : library_unit u -> library_unit v -> EngineSim.alike u v -> len d x u = len d x v.
Proof.
  intros Lu Lv [P _]. set (c := mkCtx d dummy_font (LNum (NF x))). assert (C : ctx_is d x c) by (split; [reflexivity|]; split; [reflexivity|]; intros y [= <-]; reflexivity).
  specialize (P c). destruct (px c u) as [p|e] eqn:E.
  - rewrite <- (px_len _ _ _ _ _ C E). symmetry in P. rewrite <- (px_len _ _ _ _ _ C P). reflexivity.
  - destruct (lib_px d x u Lu) as [[p X]|Zu]; [change (px c u = Ok p) in X; congruence|]. destruct (lib_px d x v Lv) as [[p X]|Zv]; [change (px c v = Ok p) in X; congruence|].
    unfold len. rewrite Zu, Zv. reflexivity.
Qed.
Definition un_same (u v : unit_) : Prop := forall d x, len d x u = len d x v.
Inductive la_same : lenauto -> lenauto -> Prop := las_auto : la_same Auto Auto | las_len u v : un_same u v -> la_same (Len u) (Len v).
Inductive bw_same : bwidth -> bwidth -> Prop := bws_kw k : bw_same (BKw k) (BKw k) | bws_len u v : un_same u v -> bw_same (BLen u) (BLen v).
Inductive mx_same : option unit_ -> option unit_ -> Prop := mxs_none : mx_same None None | mxs_len u v : un_same u v -> mx_same (Some u) (Some v).
Inductive of_same : offset -> offset -> Prop := ofs_auto : of_same OAuto OAuto | ofs_inherit : of_same OInherit OInherit | ofs_len u v : un_same u v -> of_same (OLen u) (OLen v).
Definition style_same (s t : style) : Prop :=
  st_display s = st_display t /\ st_position s = st_position t /\ st_direction s = st_direction t
  /\ la_same (st_width s) (st_width t) /\ la_same (st_height s) (st_height t)
  /\ la_same (st_min_width s) (st_min_width t) /\ la_same (st_min_height s) (st_min_height t)
  /\ mx_same (st_max_width s) (st_max_width t) /\ mx_same (st_max_height s) (st_max_height t)
  /\ la_same (st_margin_top s) (st_margin_top t) /\ la_same (st_margin_right s) (st_margin_right t)
  /\ la_same (st_margin_bottom s) (st_margin_bottom t) /\ la_same (st_margin_left s) (st_margin_left t)
  /\ un_same (st_padding_top s) (st_padding_top t) /\ un_same (st_padding_right s) (st_padding_right t)
  /\ un_same (st_padding_bottom s) (st_padding_bottom t) /\ un_same (st_padding_left s) (st_padding_left t)
  /\ bw_same (st_border_top s) (st_border_top t) /\ bw_same (st_border_right s) (st_border_right t)
  /\ bw_same (st_border_bottom s) (st_border_bottom t) /\ bw_same (st_border_left s) (st_border_left t)
  /\ of_same (st_top s) (st_top t) /\ of_same (st_right s) (st_right t)
  /\ of_same (st_bottom s) (st_bottom t) /\ of_same (st_left s) (st_left t).
Definition area_same (a b : area) : Prop := a_w a = a_w b /\ a_h a = a_h b /\ a_left a = a_left b /\ a_top a = a_top b /\ mx_same (a_spec_h a) (a_spec_h b).
Lemma len0_same d x u v : la_same u v -> len0 d x u = len0 d x v.
Proof. intros [|u' v' E]; [reflexivity|apply E]. Qed.
Lemma border_same d x u v : bw_same u v -> border_len d x u = border_len d x v.
Proof. intros [|u' v' E]; [reflexivity|apply E]. Qed.
Lemma shift_same d p e u v u' v' : of_same u v -> of_same u' v' -> shift d p e u u' = shift d p e v v'.
Proof. intros [| |x y E] [| |x' y' E']; cbn [shift]; rewrite ?E, ?E'; reflexivity. Qed.
Section Same.
Context (s t : style) (H : style_same s t).
Lemma limited_same d W u v : un_same u v -> limited_width d W s u = limited_width d W t v.
Proof.
  intros E. destruct H as (_ & _ & _ & _ & _ & Mw & _ & Xw & _). unfold limited_width. rewrite (E d W). destruct Mw as [|a b A], Xw as [|e f F]; rewrite ?(A d W), ?(F d W); reflexivity.
Qed.
Lemma widths_same d W e : widths d W e s = widths d W e t.
Proof.
  destruct H as (_ & _ & Dr & Wi & _ & _ & _ & _ & _ & _ & Mr & _ & Ml & _). unfold widths. rewrite Dr, (len0_same d W _ _ Mr), (len0_same d W _ _ Ml).
  destruct Wi as [|u v E]; [reflexivity|]. rewrite (limited_same d W u v E). destruct Ml, Mr; reflexivity.
Qed.
Lemma hedges_same d h : hedges d h s = hedges d h t.
Proof.
  destruct H as (_ & _ & _ & _ & _ & _ & _ & _ & _ & _ & _ & _ & _ & _ & Pr & _ & Pl & _ & Br & _ & Bl & _). unfold hedges.
  rewrite (border_same d h _ _ Br), (border_same d h _ _ Bl), (Pr d h), (Pl d h). reflexivity.
Qed.
Lemma wmargins_same d a b dk i : area_same a b -> wmargins d a dk s i = wmargins d b dk t i.
Proof.
  intros (A1 & A2 & _). unfold wmargins. rewrite A1, A2, (hedges_same d), (widths_same d).
  pose proof H as (_ & _ & _ & Wi & He & _ & _ & _ & _ & _ & Mr & _ & Ml & _). rewrite (len0_same d _ _ _ Mr), (len0_same d _ _ _ Ml). unfold image_width.
  destruct Wi as [|u v E]; [destruct He; reflexivity|rewrite (E d); reflexivity].
Qed.
Lemma hgt_same d a b dk i last : area_same a b -> hgt d a dk s i last = hgt d b dk t i last.
Proof.
  intros A. unfold hgt. rewrite (wmargins_same d a b dk i A). pose proof A as (_ & A2 & _ & _ & Ap). rewrite A2.
  pose proof H as (_ & _ & _ & Wi & He & _ & Mh & _ & Xh & _). unfold image_height, used_block_height, spec_height.
  destruct He as [|u v E]; [rewrite (len0_same d _ _ _ Mh); destruct Wi; reflexivity|].
  destruct Ap as [|p q P], Xh as [|x y X]; rewrite ?(P d), ?(E d), ?(X d); reflexivity.
Qed.
Lemma isrel_same : isrel s = isrel t.
Proof. destruct H as (_ & P & _). unfold isrel. rewrite P. reflexivity. Qed.
Lemma edges_same d a b dk : area_same a b -> edges d a dk s = edges d b dk t.
Proof.
  intros (A1 & A2 & _). unfold edges. rewrite A1, A2. destruct H as (_ & _ & _ & _ & _ & _ & _ & _ & _ & Mt & _ & _ & _ & Pt & _ & _ & _ & Bt & _).
  rewrite (len0_same d _ _ _ Mt), (border_same d _ _ _ Bt), (Pt d). reflexivity.
Qed.
Lemma lefts_same d a b dk i : area_same a b -> lefts d a dk s i = lefts d b dk t i.
Proof.
  intros A. unfold lefts. rewrite (wmargins_same d a b dk i A). destruct A as (_ & A2 & _). rewrite A2.
  destruct H as (_ & _ & _ & _ & _ & _ & _ & _ & _ & _ & _ & _ & _ & _ & _ & _ & Pl & _ & _ & _ & Bl & _). rewrite (border_same d _ _ _ Bl), (Pl d). reflexivity.
Qed.
Lemma inner_same d a b dk i : area_same a b -> area_same (inner_of d a dk s i) (inner_of d b dk t i).
Proof.
  intros A. unfold inner_of. rewrite (wmargins_same d a b dk i A), (lefts_same d a b dk i A), (edges_same d a b dk A), (hgt_same d a b dk i _ A), isrel_same. repeat split.
  cbn [a_spec_h]. destruct H as (_ & _ & _ & _ & He & _). destruct He; constructor; assumption.
Qed.
Lemma bottoms_same d a b dk i : area_same a b -> bottoms d a dk s i = bottoms d b dk t i.
Proof.
  intros (_ & A2 & _). unfold bottoms. rewrite A2. destruct H as (_ & _ & _ & _ & _ & _ & _ & _ & _ & _ & _ & Mb & _). rewrite (len0_same d _ _ _ Mb). destruct Mb; reflexivity.
Qed.
Lemma node_of_same d a b dk i st K : area_same a b -> node_of d a dk s i st K = node_of d b dk t i st K.
Proof.
  intros A. unfold node_of. cbv zeta. rewrite (wmargins_same d a b dk i A), (lefts_same d a b dk i A), (edges_same d a b dk A), (hgt_same d a b dk i _ A), (bottoms_same d a b dk i A), isrel_same.
  destruct A as (A1 & A2 & A3 & A4 & _). rewrite A1, A2, A3, A4.
  destruct H as (_ & _ & _ & _ & He & _ & _ & _ & _ & Mt & _ & _ & _ & P1 & P2 & P3 & P4 & B1 & B2 & B3 & B4 & O1 & O2 & O3 & O4).
  rewrite (len0_same d _ _ _ Mt), (P1 d), (P2 d), (P3 d), (P4 d), (border_same d _ _ _ B1), (border_same d _ _ _ B2), (border_same d _ _ _ B3), (border_same d _ _ _ B4),
    (shift_same d _ _ _ _ _ _ O1 O3), (shift_same d _ _ _ _ _ _ O4 O2). destruct He; reflexivity.
Qed.
End Same.
(** Two ways of styling the nodes of a document. *)
Lemma format_same (sty sty' : css -> style) d (n : node css) : program_document (fun c => style_same (sty c) (sty' c)) n ->
  forall a b, area_same a b -> format sty d a n = format sty' d b n.
Proof.
  induction n as [c i bx ks IH] using node_ind'. intros P a b A. inversion P as [? ? ? ? Hc Hk]; subst. rewrite !format_split. rewrite <- (proj1 Hc).
  destruct (st_display (sty c)) as [dk|]; [|reflexivity].
  assert (Bl : forall k, In k ks -> block_level (sty' (n_style k)) = block_level (sty (n_style k))).
  { intros k I. specialize (Hk k I). inversion Hk as [? ? ? ? Hc' _]; subst. cbn [n_style]. unfold block_level. rewrite <- (proj1 Hc'). reflexivity. }
  assert (St : stacks_ sty' dk ks = stacks_ sty dk ks).
  { unfold stacks_. destruct dk; try reflexivity; clear - Bl; induction ks as [|k ks IH]; try reflexivity; cbn [existsb]; rewrite (Bl k (or_introl eq_refl)), IH; try reflexivity; intros k' I; apply Bl; right; exact I. }
  rewrite St. pose proof (inner_same _ _ Hc d a b dk i A) as Ai.
  assert (K : kids_of sty d (inner_of d a dk (sty c) i) (stacks_ sty dk ks) ks = kids_of sty' d (inner_of d b dk (sty' c) i) (stacks_ sty dk ks) ks).
  { unfold kids_of.
    assert (M : map (laid_kid sty d (inner_of d a dk (sty c) i) (stacks_ sty dk ks)) ks = map (laid_kid sty' d (inner_of d b dk (sty' c) i) (stacks_ sty dk ks)) ks).
    { apply map_ext_in. intros k I. unfold laid_kid. rewrite (Bl k I). rewrite (IH k I (Hk k I) _ _ Ai). reflexivity. }
    rewrite M. reflexivity. }
  rewrite K. apply node_of_same; assumption.
Qed.
Lemma page_same (sty sty' : css -> style) d h5 (n : node css) : program_document (fun c => style_same (sty c) (sty' c)) n -> page sty d h5 n = page sty' d h5 n.
Proof.
  intros P. unfold page. rewrite (format_same sty sty' d n P _ (mkArea (Some (nval (disp_width d))) (Some (nval (disp_height d))) 0 0 None)); [reflexivity|]. repeat split. constructor.
Qed.

(** ** The styles that programs make *)
Definition lib_style (s : style) : Prop := forall q u, engine_reads q = true -> ComputedSpec.shows s q = Some (VUnit u) -> library_unit u.
Lemma alike_same s t : lib_style s -> lib_style t -> style_alike s t -> style_same s t.
Proof.
  intros Ls Lt (D & P & _ & Dr & A1 & A2 & A3 & A4 & X1 & X2 & M1 & M2 & M3 & M4 & P1 & P2 & P3 & P4 & B1 & B2 & B3 & B4 & O1 & O2 & O3 & O4).
  assert (U : forall q u v, engine_reads q = true -> ComputedSpec.shows s q = Some (VUnit u) -> ComputedSpec.shows t q = Some (VUnit v) -> EngineSim.alike u v -> un_same u v).
  { intros q u v Q Su Sv A d x. apply len_alike; [exact (Ls q u Q Su)|exact (Lt q v Q Sv)|exact A]. }
  assert (LA : forall q x y, engine_reads q = true -> ComputedSpec.shows s q = Some (show_lenauto x) -> ComputedSpec.shows t q = Some (show_lenauto y) -> la_alike x y -> la_same x y).
  { intros q x y Q Sx Sy Ax. destruct Ax as [|u v A]; constructor. exact (U q u v Q Sx Sy A). }
  assert (BW : forall q x y, engine_reads q = true -> ComputedSpec.shows s q = Some (show_bwidth x) -> ComputedSpec.shows t q = Some (show_bwidth y) -> bw_alike x y -> bw_same x y).
  { intros q x y Q Sx Sy Ax. destruct Ax as [|u v A]; constructor. exact (U q u v Q Sx Sy A). }
  assert (MX : forall q x y, engine_reads q = true -> ComputedSpec.shows s q = Some (or_none VUnit x) -> ComputedSpec.shows t q = Some (or_none VUnit y) -> mx_alike x y -> mx_same x y).
  { intros q x y Q Sx Sy Ax. destruct Ax as [|u v A]; constructor. exact (U q u v Q Sx Sy A). }
  assert (OF : forall q x y, engine_reads q = true -> ComputedSpec.shows s q = Some (show_offset x) -> ComputedSpec.shows t q = Some (show_offset y) -> of_alike x y -> of_same x y).
  { intros q x y Q Sx Sy Ax. destruct Ax as [| |u v A]; constructor. exact (U q u v Q Sx Sy A). }
  split; [exact D|]. split; [exact P|]. split; [exact Dr|].
  split; [exact (LA L_width _ _ eq_refl eq_refl eq_refl A1)|].
  split; [exact (LA L_height _ _ eq_refl eq_refl eq_refl A2)|].
  split; [exact (LA L_min_width _ _ eq_refl eq_refl eq_refl A3)|].
  split; [exact (LA L_min_height _ _ eq_refl eq_refl eq_refl A4)|].
  split; [exact (MX L_max_width _ _ eq_refl eq_refl eq_refl X1)|].
  split; [exact (MX L_max_height _ _ eq_refl eq_refl eq_refl X2)|].
  split; [exact (LA (L_margin STop) _ _ eq_refl eq_refl eq_refl M1)|].
  split; [exact (LA (L_margin SRight) _ _ eq_refl eq_refl eq_refl M2)|].
  split; [exact (LA (L_margin SBottom) _ _ eq_refl eq_refl eq_refl M3)|].
  split; [exact (LA (L_margin SLeft) _ _ eq_refl eq_refl eq_refl M4)|].
  split; [exact (U (L_padding STop) _ _ eq_refl eq_refl eq_refl P1)|].
  split; [exact (U (L_padding SRight) _ _ eq_refl eq_refl eq_refl P2)|].
  split; [exact (U (L_padding SBottom) _ _ eq_refl eq_refl eq_refl P3)|].
  split; [exact (U (L_padding SLeft) _ _ eq_refl eq_refl eq_refl P4)|].
  split; [exact (BW (L_border_width STop) _ _ eq_refl eq_refl eq_refl B1)|].
  split; [exact (BW (L_border_width SRight) _ _ eq_refl eq_refl eq_refl B2)|].
  split; [exact (BW (L_border_width SBottom) _ _ eq_refl eq_refl eq_refl B3)|].
  split; [exact (BW (L_border_width SLeft) _ _ eq_refl eq_refl eq_refl B4)|].
  split; [exact (OF (L_offset STop) _ _ eq_refl eq_refl eq_refl O1)|].
  split; [exact (OF (L_offset SRight) _ _ eq_refl eq_refl eq_refl O2)|].
  split; [exact (OF (L_offset SBottom) _ _ eq_refl eq_refl eq_refl O3)|].
  exact (OF (L_offset SLeft) _ _ eq_refl eq_refl eq_refl O4).
Qed.
Lemma scripted_style ho c E : valid_order ho -> scripted ho c E -> exists st, declared_style ho c = st /\ lib_style st /\ (forall p v, ComputedSpec.shows st p = Some v -> get_long ho c p = Ok v)
  /\ forall q v w, engine_reads q = true -> means q (over Reset (E q)) v -> ComputedSpec.shows st q = Some w -> val_alike w v /\ fine q v.
Proof.
  intros V (l & rs & L & W & P & ->). unfold declared_style.
  assert (OK : stored_ok ho (fst (run_ops ho l fresh_css first_free))).
  { destruct (run_ops ho l fresh_css first_free) as [c k] eqn:RO. apply (reachable_stored ho c k V). exists l. exact RO. }
  destruct (computed_view ho _ V OK) as (st & -> & X). exists st. split; [reflexivity|]. split; [|split; [exact X|]].
  - intros q u Q Sq. apply X in Sq. assert (FO : ~ follower q) by (apply (engine_plain q Q)). rewrite (get_long_plain _ _ _ V FO) in Sq. injection Sq as Sq.
    destruct (c_store (fst (run_ops ho l fresh_css first_free)) q) as [z|] eqn:ST.
    + subst z. apply (library_run_ops ho V l fresh_css first_free L) with (q := q); [intros ? ? _ Y; discriminate Y|exact Q|exact ST].
    + apply (fine_initial q Q). exact Sq.
  - intros q v w Q Mv Sw. apply X in Sw. destruct (read_meaning ho l E rs q v V L W P Q Mv) as (r & G & A & F). rewrite Sw in G. injection G as <-. auto.
Qed.
Lemma scripted_same ho c E s : valid_order ho -> scripted ho c E -> styled E s -> style_same (declared_style ho c) s.
Proof.
  intros V Sc T. destruct (scripted_style ho c E V Sc) as (st & -> & Ls & _ & R). apply alike_same; [exact Ls| |].
  - intros q u Q Sq. destruct (T q Q) as (v & Mv & Sv). rewrite Sq in Sv. injection Sv as <-. destruct Sc as (l & rs & L & W & P & _). destruct (read_meaning ho l E rs q _ V L W P Q Mv) as (r & G & A & F). apply F. reflexivity.
  - apply shows_alike. intros q v w Q Sv Sw. destruct (T q Q) as (v' & Mv & Sv'). rewrite Sw in Sv'. injection Sv' as <-. exact (proj1 (R q w v Q Mv Sv)).
Qed.
Lemma scripted_page ho sty d h5 n : valid_order ho -> scripted_document ho sty n -> page (declared_style ho) d h5 n = page sty d h5 n.
Proof.
  intros V P. apply page_same. induction P as [c i bx ks (E & Sc & T) _ IH]. constructor; [eapply scripted_same; eassumption|exact IH].
Qed.

(** C177, after any history, with the positions relative to the parents. *)
Theorem C177_page : forall ho sty d h5 n n', valid_order ho -> history (declared_style ho) n -> scripted_document ho sty n ->
  layout_css ho d h5 n = (n', Ok tt) -> shows n' (page sty d h5 n).
Proof.
  intros ho sty d h5 n n' V Hn P L. rewrite <- (scripted_page ho sty d h5 n V P). apply (C122_any_history (declared_style ho)); assumption.
Qed.
(** New documents, with absolute positions. *)
Theorem C177_absolute : forall ho sty d h5 n n', valid_order ho -> boxed n -> scripted_document ho sty n ->
  layout_css ho d h5 n = (n', Ok tt) -> laid_out_as 0 0 n' (page sty d h5 n).
Proof.
  intros ho sty d h5 n n' V Bn P L. rewrite <- (scripted_page ho sty d h5 n V P).
  apply (C112_every_layout_is_the_reference (declared_style ho)); [apply boxed_ready, Bn|left; exact Bn|exact L].
Qed.
(** Every program-made declaration has such a style. *)
Theorem C177_styled : forall ho c E, valid_order ho -> scripted ho c E -> exists s, styled E s.
Proof.
  intros ho c E V (l & rs & L & W & P & ->).
  assert (Acc : forall q x, engine_reads q = true -> E q = Give x -> exists w m, validate (ho_set ho) (choices_of q) 0 x = Ok (w, m)).
  { intros q x Q G. destruct (proj2 (C166_table ho l E rs V W P)) as [_ S]. specialize (S q). rewrite G in S. destruct S as (n & w & m & r & Wr & _).
    apply (accepted_any ho V q x (engine_not_quotes q Q)). exists n, w, m. exact Wr. }
  set (st := fun q => match E q with Give x => match validate (ho_set ho) (choices_of q) 0 x with Ok (w, _) => Some w | Err _ => None end | _ => None end).
  set (c := mkCss st None).
  assert (OK : stored_ok ho c).
  { intros q w Sq. unfold c in Sq. cbn [c_store] in Sq. unfold st in Sq. destruct (E q) as [| |x]; try discriminate Sq. destruct (validate (ho_set ho) (choices_of q) 0 x) as [[w' m]|] eqn:Va; [|discriminate Sq]. injection Sq as <-. eauto. }
  destruct (computed_view ho c V OK) as (s & _ & X). exists s. intros q Q.
  assert (Sh : exists v, ComputedSpec.shows s q = Some v) by (destruct q; try discriminate Q; try (match goal with z : side |- _ => destruct z end); eexists; reflexivity).
  destruct Sh as [v Sv]. exists v. split; [|exact Sv]. apply X in Sv. assert (FO : ~ follower q) by (apply (engine_plain q Q)). rewrite (get_long_plain _ _ _ V FO) in Sv. injection Sv as <-.
  unfold c. cbn [c_store]. unfold st. destruct (E q) as [| |x] eqn:G; [constructor|constructor|]. cbn [over]. destruct (Acc q x Q G) as (w & m & Va). rewrite Va.
  apply (means_given q x 0%nat w m). apply accepts_written; [apply engine_not_quotes, Q|]. apply (validate_accepts ho); assumption.
Qed.

(** ** Written lengths *)
(** C177: a length that a program last wrote as a text, by whatever operation,
    is the size of that part of the box (as C151, but not only for the item
    syntax and the last operation). *)
Theorem C177_written_length : forall ho d h5 (n n' : node css) op k E p s t f q,
  valid_order ho -> history (declared_style ho) n -> scripted ho (n_style k) E -> E p = Give (VStr (s ++ t)) ->
  decimal_text s q -> (Qabs q <= qpow2 1000)%Q -> In (t, f) (pixels_per d) ->
  layout_css ho d h5 n = (n', Ok tt) -> laid (declared_style ho) n' op k ->
  decides ho (n_style k) (match op with None => true | _ => false end) h5 p -> (exists b l, part p b = Some l) ->
  exists b x, n_box k = Some b /\ part p b = Some (LNum x)
    /\ (Qabs (this (nval x) - q * f) <= (1 # 128) + Qabs f * (qpow2 (-53) * Qabs q + qpow2 (-1022)))%Q.
Proof.
  intros ho d h5 n n' op k E p s t f q V Hi Sc G Nt B I H L De Pp.
  destruct (unit_found d s q t f Nt B I) as (t' & kd & r & It & U & Nr & Scl).
  set (w := mkU kd (PF (Fin r))) in *.
  destruct (scripted_style ho _ E V Sc) as (st & Ds & Ls & Sh & R).
  assert (Same : forall p0 v0 v1, reads ho (n_style k) p0 v0 -> ComputedSpec.shows st p0 = Some v1 -> v1 = v0).
  { unfold reads. intros p0 v0 v1 E1 E2. apply Sh in E2. cbn [get_prop] in E1. rewrite E2 in E1. injection E1 as <-. reflexivity. }
  assert (Q : engine_reads p = true) by (destruct Pp as (b0 & l0 & Pp0); destruct p; try discriminate Pp0; reflexivity).
  assert (Mv : means p (over Reset (E p)) (VUnit w)).
  { rewrite G. cbn [over]. apply (means_given p _ 0%nat _ 0%nat). apply computed_written; [apply engine_not_quotes, Q|].
    destruct Pp as (b0 & l0 & Pp0). destruct (part_first p b0 l0 Pp0) as [vs Fi]. unfold validate. rewrite Fi. cbn [first_valid run_validator]. rewrite U. reflexivity. }
  assert (Su : exists u, style_len st p = Some u /\ forall x, len d x u = len d x w).
  { assert (Sv : exists v, ComputedSpec.shows st p = Some v) by (destruct Pp as (b0 & l0 & Pp0); destruct p; try discriminate Pp0; try (destruct s0; try discriminate Pp0); eexists; reflexivity).
    destruct Sv as [v Sv]. destruct (R p _ v Q Mv Sv) as [[-> |(u & z & -> & X & A)] Fw]; unfold style_len; rewrite Sv; [exists w; auto|]. injection X as <-. exists u. split; [reflexivity|].
    intros x. apply len_alike; [exact (Ls p u Q Sv)|apply Fw; reflexivity|exact A]. }
  destruct Su as (u & Sl & Lu).
  assert (Sw : scaled d w f) by apply Scl.
  destruct (laid_part (declared_style ho) d h5 n n' op k p u Hi H L Pp) as (b & x & Bk & Px & Nx).
  - rewrite Ds. exact Sl.
  - intros x y. rewrite !Lu. unfold len. f_equal. apply Qc_is_canon. rewrite (Sw x), (Sw y). reflexivity.
  - rewrite Ds. assert (Blk : reads_block ho (n_style k) -> block_level st = true).
    { intros Rb. unfold block_level. destruct Rb as [Rb|[Rb|Rb]]; pose proof (Same L_display _ _ Rb eq_refl) as X; destruct (st_display st) as [[]|]; try discriminate X; reflexivity. }
    destruct p; try exact Logic.I; cbn [decides] in De.
    + destruct De as (D1 & D2 & D3). split; [apply Blk, D1|]. split.
      * pose proof (Same L_min_width _ _ D2 eq_refl) as X. destruct (st_min_width st); [reflexivity|discriminate X].
      * pose proof (Same L_max_width _ _ D3 eq_refl) as X. destruct (st_max_width st); [discriminate X|reflexivity].
    + destruct De as (D1 & D2 & D3). split; [apply Blk, D1|]. split.
      * pose proof (Same L_max_height _ _ D2 eq_refl) as X. destruct (st_max_height st); [discriminate X|reflexivity].
      * destruct op; [left; discriminate|right; exact D3].
  - exists b, x. split; [exact Bk|]. split; [exact Px|]. rewrite Nx, Lu. apply len_error; [exact Sw|]. apply nearest_error; assumption.
Qed.
Print Assumptions C177_page.
Print Assumptions C177_absolute.
Print Assumptions C177_styled.
Print Assumptions C177_written_length.

(** ** Example *)
Definition script_unit (t : string) : unit_ := match units (VStr t) with Ok u => u | Err _ => mkU KPx (PI 0) end.
Definition script_root : list op := [OpSetItem "display" (VStr "block")].
Definition script_ops : list op :=
  [OpSetItem "display" (VStr "block"); OpSetItem "width" (VStr "100px"); OpSet (Dir D_margin) (VTuple [VStr "4px"; VStr "6px"]); OpSet (Short S_border) (VStr "2pt solid")].
Definition script_doc : node css := Node (declared script_root) size0 (Some box0) [Node (declared script_ops) size0 (Some box0) []].
Definition script_laid : node css := fst (layout_css plain_order screen false script_doc).
Lemma example_written q v w : q <> L_quotes -> validate (ho_set plain_order) (choices_of q) 0 v = Ok (w, 0%nat) -> accepted q v.
Proof. intros N W. exists 0%nat, w, 0%nat. apply computed_written; assumption. Qed.
Example C177_program : exists E, program script_ops E [None; None; None; None]
  /\ E (L_border_width STop) = Give (VStr ("2" ++ "pt")) /\ E (L_margin SLeft) = Give (VStr "6px") /\ E (L_border_color STop) = Reset /\ E (L_padding STop) = Keep.
Proof.
  set (E1 := fun q => if longhand_eq_dec q L_display then Give (VStr "block") else Keep).
  set (E2 := fun q => if longhand_eq_dec q L_width then Give (VStr "100px") else Keep).
  set (E3 := fun q => match q with L_margin STop | L_margin SBottom => Give (VStr "4px") | L_margin _ => Give (VStr "6px") | _ => Keep end).
  set (E4 := fun q => match q with L_border_width _ => Give (VStr "2pt") | L_border_style _ => Give (VStr "solid") | L_border_color _ => Reset | _ => Keep end).
  set (E5 := fun _ : longhand => Keep).
  exists (fun q => over (E1 q) (over (E2 q) (over (E3 q) (over (E4 q) (E5 q))))). split; [|repeat split; vm_compute; reflexivity].
  eapply program_step with (E := E1); [apply (operate_setitem "display" (Long L_display)); [reflexivity|]| |intros q; reflexivity].
  { apply assign_long; [discriminate| |vm_compute; reflexivity|].
    - exact (example_written L_display (VStr "block") (VStr "block") ltac:(discriminate) ltac:(vm_compute; reflexivity)).
    - intros r N. unfold E1. destruct (longhand_eq_dec r L_display); [contradiction|reflexivity]. }
  eapply program_step with (E := E2); [apply (operate_setitem "width" (Long L_width)); [reflexivity|]| |intros q; reflexivity].
  { apply assign_long; [discriminate| |vm_compute; reflexivity|].
    - exact (example_written L_width (VStr "100px") (VUnit (script_unit "100px")) ltac:(discriminate) ltac:(vm_compute; reflexivity)).
    - intros r N. unfold E2. destruct (longhand_eq_dec r L_width); [contradiction|reflexivity]. }
  eapply program_step with (E := E3); [apply operate_set| |intros q; reflexivity].
  { apply (assign_sides D_margin _ (fun s => match s with STop | SBottom => VStr "4px" | _ => VStr "6px" end)); [reflexivity| | |].
    - intros []; [apply (example_written (L_margin STop) _ (VUnit (script_unit "4px")))|apply (example_written (L_margin SRight) _ (VUnit (script_unit "6px")))|apply (example_written (L_margin SBottom) _ (VUnit (script_unit "4px")))|apply (example_written (L_margin SLeft) _ (VUnit (script_unit "6px")))]; try discriminate; vm_compute; reflexivity.
    - intros []; reflexivity.
    - intros q N. destruct q as []; try reflexivity. destruct (N s). reflexivity. }
  eapply program_step with (E := E4); [apply operate_set| |intros q; reflexivity].
  { assert (FT : forall k v w, (forall q, In q (component S_border k) -> q <> L_quotes /\ exists m, validate (ho_set plain_order) (choices_of q) 0 v = Ok (w, m)) -> fits S_border k v).
    { intros k v w H. split; [|discriminate]. intros q Q. destruct (H q Q) as (NQ & m & X). exists 0%nat, w, m. apply computed_written; assumption. }
    apply (assign_parts S_border _ [VStr "2pt"; VStr "solid"] [CWidth; CStyle]).
    - apply (given_words "2pt solid" ["2pt"; "solid"]); [discriminate| |exact (ParserProps.split_spaced "2pt solid")].
      apply Forall_cons; [split; [discriminate|reflexivity]|]. apply Forall_cons; [split; [discriminate|reflexivity]|apply Forall_nil].
    - split; [repeat constructor; cbn; intuition discriminate|]. constructor; [|constructor; [|constructor]].
      + apply (FT CWidth _ (VUnit (script_unit "2pt"))). intros q I. cbn in I. repeat destruct I as [<- | I]; try destruct I; (split; [discriminate|]); eexists; vm_compute; reflexivity.
      + apply (FT CStyle _ (VStr "solid")). intros q I. cbn in I. repeat destruct I as [<- | I]; try destruct I; (split; [discriminate|]); eexists; vm_compute; reflexivity.
    - intros X. inversion X as [? ? A|? ? X']; subst; [|inversion X' as [? ? A|? ? X2]; subst; [|inversion X2]]; destruct A as (t & u & T & L & K); injection T as <-; apply len_units in L; vm_compute in L; [injection L as <-; vm_compute in K; destruct K as (? & ? & K); discriminate K|discriminate L].
    - constructor; [|constructor; [|constructor]]; intros q I; cbn in I; repeat destruct I as [<- | I]; try destruct I; reflexivity.
    - intros k q N I. destruct k; cbn in N, I; try (exfalso; tauto). repeat destruct I as [<- | I]; try destruct I; reflexivity.
    - intros q N. destruct q; try reflexivity; destruct N; destruct s; cbn; tauto. }
  apply program_end. intros q; reflexivity.
Qed.
Lemma texts_library l : library_value (VTuple (map VStr l)).
Proof. intros u W. inversion W as [|x v k y M I W']; subst. assert (k = map VStr l) as -> by (destruct M as [M|[M|M]]; try discriminate M; injection M as M; symmetry; exact M). apply in_map_iff in I. destruct I as (s & <- & _). exact (text_library s u W'). Qed.
Example C177_example : exists sty E,
  scripted plain_order (declared script_ops) E /\ E (L_border_width STop) = Give (VStr ("2" ++ "pt")) /\ styled E (sty (declared script_ops))
  /\ boxed script_doc /\ history (declared_style plain_order) script_doc /\ scripted_document plain_order sty script_doc
  /\ layout_css plain_order screen false script_doc = (script_laid, Ok tt)
  /\ map (fun u => (this (u_left u), this (u_top u), option_map this (u_w u), this (u_bt u))) (drawn 0 0 (page sty screen false script_doc))
     = [(0, 4, Some 1000, 0); (555 # 64, 427 # 64, Some 100, 171 # 64)]%Q
  /\ decimal_text "2" 2%Q /\ In ("pt", (96 / 72)%Q) (pixels_per screen)
  /\ (exists k, laid (declared_style plain_order) script_laid (Some script_laid) k /\ n_style k = declared script_ops
       /\ decides plain_order (n_style k) false false (L_border_width STop)
       /\ option_map (fun b => this (nval (border_top_width b))) (n_box k) = Some (171 # 64)).
Proof.
  destruct C177_program as (E & P & W & _).
  assert (S2 : scripted plain_order (declared script_ops) E).
  { exists script_ops, [None; None; None; None]. split; [|split; [intros N; cbn in N; intuition discriminate|split; [exact P|reflexivity]]].
    constructor; [apply text_library|]. constructor; [apply text_library|]. constructor; [exact (texts_library ["4px"; "6px"])|]. constructor; [apply text_library|constructor]. }
  assert (S1 : exists F, scripted plain_order (declared script_root) F).
  { destruct (C166_total script_root) as (F & rs & Q); [constructor; [intros N; vm_compute in N; discriminate|constructor]|]. exists F, script_root, rs.
    split; [constructor; [apply text_library|constructor]|split; [intros N; cbn in N; intuition discriminate|split; [exact Q|reflexivity]]]. }
  destruct S1 as [F S1]. destruct (C177_styled _ _ _ plain_valid S1) as [s1 T1], (C177_styled _ _ _ plain_valid S2) as [s2 T2].
  set (sty := fun c : css => match c_store c L_width with Some _ => s2 | None => s1 end).
  assert (D : scripted_document plain_order sty script_doc).
  { constructor; [exists F; split; [exact S1|exact T1]|]. intros k [<- | []]. constructor; [exists E; split; [exact S2|exact T2]|intros ? []]. }
  exists sty, E. split; [exact S2|]. split; [exact W|]. split; [exact T2|]. split; [solve_boxed|]. split; [apply history_new; solve_new|]. split; [exact D|].
  split; [unfold script_laid; rewrite (surjective_pairing (layout_css _ _ _ _)) at 1; f_equal; vm_compute; reflexivity|].
  split; [rewrite <- (scripted_page plain_order sty screen false script_doc plain_valid D); vm_compute; reflexivity|].
  split.
  { exists "", "", false, "2", "2", "", "", 0%Z, "". split; [reflexivity|]. split; [reflexivity|]. split; [left; auto|]. split; [|split; [left; auto|split; reflexivity]].
    left. split; [repeat constructor|reflexivity]. }
  split; [vm_compute; tauto|].
  exists (match n_kids script_laid with k :: _ => k | [] => script_laid end).
  split; [|split; [vm_compute; reflexivity|split; [exact I|vm_compute; reflexivity]]].
  eapply EngineSpec.laid_kid; [apply laid_root; vm_compute; discriminate|vm_compute; left; reflexivity|vm_compute; discriminate|vm_compute; right; reflexivity].
Qed.
