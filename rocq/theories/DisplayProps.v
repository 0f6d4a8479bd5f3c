(** * C133, C134: how the size of the display matters *)
From Coq Require Import String ZArith QArith Qcanon Qround Lia Lqa Bool List.
From Verif Require Import PyNum NumFacts Units BoxModel BoxSpec BoxFacts Engine EnginePure EngineSpec EngineExamples EngineInv EngineTree EngineTotal EngineWidth EngineIProps
  RefLayout RefFacts RefProps HistSpec HistProps OkProps MoveSpec MoveProps EdgeSpec EdgeProps LocalSpec LocalProps DisplaySpec.
Import ListNotations.
Open Scope Qc_scope.

(** ** C133 *)
Section D.
Context {S : Type} (sty : S -> style).
Notation node := (node S).
Variables (d d' : display_t) (Sd : same_but_height_display d d').
Lemma len_display p u : ignores_height u = true -> len d p u = len d' p u.
Proof.
  destruct Sd as [E1 E2 _]. unfold ignores_height, len, exact_len. destruct (u_kind u) as [|f|s0 pts|s0 sc| |s0 r]; rewrite ?E1, ?E2; try reflexivity.
  destruct sc; try discriminate. reflexivity.
Qed.
Lemma len0_display p v : match v with Auto => true | Len u => ignores_height u end = true -> len0 d p v = len0 d' p v.
Proof. destruct v; [reflexivity|apply len_display]. Qed.
Lemma border_display p v : match v with BKw _ => true | BLen u => ignores_height u end = true -> border_len d p v = border_len d' p v.
Proof. destruct v; [intros _; apply Sd|apply len_display]. Qed.
Lemma shift_display p e a b : match a with OLen u => ignores_height u | _ => true end = true -> match b with OLen u => ignores_height u | _ => true end = true ->
  shift d p e a b = shift d' p e a b.
Proof. intros A B. destruct a, b; try reflexivity; cbn [shift]; rewrite len_display by assumption; reflexivity. Qed.
Record lens_alike (s : style) : Prop := {
  la_w : forall p, len0 d p (st_width s) = len0 d' p (st_width s); la_h : forall p, len0 d p (st_height s) = len0 d' p (st_height s);
  la_miw : forall p, len0 d p (st_min_width s) = len0 d' p (st_min_width s); la_mih : forall p, len0 d p (st_min_height s) = len0 d' p (st_min_height s);
  la_mt : forall p, len0 d p (st_margin_top s) = len0 d' p (st_margin_top s); la_mr : forall p, len0 d p (st_margin_right s) = len0 d' p (st_margin_right s);
  la_mb : forall p, len0 d p (st_margin_bottom s) = len0 d' p (st_margin_bottom s); la_ml : forall p, len0 d p (st_margin_left s) = len0 d' p (st_margin_left s);
  la_maw : forall p u, st_max_width s = Some u -> len d p u = len d' p u; la_mah : forall p u, st_max_height s = Some u -> len d p u = len d' p u;
  la_pt : forall p, len d p (st_padding_top s) = len d' p (st_padding_top s); la_pr : forall p, len d p (st_padding_right s) = len d' p (st_padding_right s);
  la_pb : forall p, len d p (st_padding_bottom s) = len d' p (st_padding_bottom s); la_pl : forall p, len d p (st_padding_left s) = len d' p (st_padding_left s);
  la_bt : forall p, border_len d p (st_border_top s) = border_len d' p (st_border_top s); la_br : forall p, border_len d p (st_border_right s) = border_len d' p (st_border_right s);
  la_bb : forall p, border_len d p (st_border_bottom s) = border_len d' p (st_border_bottom s); la_bl : forall p, border_len d p (st_border_left s) = border_len d' p (st_border_left s);
  la_x : forall p e, shift d p e (st_left s) (st_right s) = shift d' p e (st_left s) (st_right s);
  la_y : forall p e, shift d p e (st_top s) (st_bottom s) = shift d' p e (st_top s) (st_bottom s) }.
Lemma style_alike s : every_length ignores_height s = true -> lens_alike s.
Proof.
  unfold every_length. cbv zeta. cbn [forallb]. repeat rewrite andb_true_iff. intros H. decompose [and] H. clear H.
  constructor; intros; try (apply len0_display; assumption); try (apply len_display; assumption); try (apply border_display; assumption); try (apply shift_display; assumption).
  - apply len_display. match goal with E : st_max_width s = Some _ |- _ => rewrite E in * end. assumption.
  - apply len_display. match goal with E : st_max_height s = Some _ |- _ => rewrite E in * end. assumption.
Qed.
Lemma wmargins_display a dk s i : lens_alike s -> wmargins d a dk s i = wmargins d' a dk s i.
Proof.
  intros A. unfold wmargins, hedges. rewrite (la_ml s A), (la_mr s A), (la_bl s A), (la_pl s A), (la_pr s A), (la_br s A). destruct (isinl dk).
  - destruct (s_replaced i); [|reflexivity]. unfold image_width. pose proof (la_w s A (or0 (a_w a))) as E. destruct (st_width s); cbn [len0] in E; rewrite ?E; reflexivity.
  - unfold widths. rewrite (la_ml s A), (la_mr s A). pose proof (la_w s A (or0 (a_w a))) as E. destruct (st_width s) as [|u]; [reflexivity|]. cbn [len0] in E.
    assert (El : limited_width d (or0 (a_w a)) s u = limited_width d' (or0 (a_w a)) s u).
    { unfold limited_width. cbv zeta. rewrite E. pose proof (la_maw s A (or0 (a_w a))) as Em. pose proof (la_miw s A (or0 (a_w a))) as En.
      destruct (st_max_width s) as [m|]; [rewrite (Em m eq_refl)|]; destruct (st_min_width s); cbn [len0] in En; rewrite ?En; reflexivity. }
    rewrite El. reflexivity.
Qed.
Lemma spec_height_display H ph s : lens_alike s -> (forall x, ph = Some x -> len d H x = len d' H x) -> spec_height d H ph s = spec_height d' H ph s.
Proof.
  intros A P. unfold spec_height. pose proof (la_h s A) as E. destruct (st_height s) as [|u]; [reflexivity|]. cbn [len0] in E. f_equal. rewrite E.
  assert (Eq : match ph with Some pu => len d H pu | None => H end = match ph with Some pu => len d' H pu | None => H end) by (destruct ph as [x|]; [apply P; reflexivity|reflexivity]).
  rewrite Eq. pose proof (la_mah s A H) as Em. destruct (st_max_height s) as [m|]; [rewrite (Em m eq_refl)|]; reflexivity.
Qed.
Lemma hgt_display a dk s i last : lens_alike s -> (forall x, a_spec_h a = Some x -> len d (or0 (a_h a)) x = len d' (or0 (a_h a)) x) -> hgt d a dk s i last = hgt d' a dk s i last.
Proof.
  intros A P. unfold hgt. rewrite (wmargins_display a dk s i A). destruct (isinl dk).
  - destruct (s_replaced i); [|reflexivity]. f_equal. unfold image_height. pose proof (la_h s A (or0 (a_h a))) as E. destruct (st_height s); cbn [len0] in E; rewrite ?E; reflexivity.
  - f_equal. unfold used_block_height. rewrite (spec_height_display _ _ s A P), (la_mih s A). reflexivity.
Qed.
Theorem format_display n : everywhere sty (every_length ignores_height) n = true -> forall a, (forall x, a_spec_h a = Some x -> ignores_height x = true) ->
  format sty d a n = format sty d' a n.
Proof.
  induction n as [s0 i bx ks IH] using node_ind'. cbn [everywhere]. intros Ev a Ha. apply andb_prop in Ev. destruct Ev as [Ev Ek]. rewrite !format_split.
  destruct (st_display (sty s0)) as [dk|]; [|reflexivity]. set (s := sty s0) in *. pose proof (style_alike s Ev) as A.
  assert (Ha' : forall x, a_spec_h a = Some x -> len d (or0 (a_h a)) x = len d' (or0 (a_h a)) x) by (intros x E; apply len_display, Ha, E).
  assert (E1 : edges d a dk s = edges d' a dk s) by (unfold edges; rewrite (la_mt s A), (la_bt s A), (la_pt s A); reflexivity).
  assert (E2 : lefts d a dk s i = lefts d' a dk s i) by (unfold lefts; rewrite (wmargins_display a dk s i A), (la_bl s A), (la_pl s A); reflexivity).
  assert (E3 : inner_of d a dk s i = inner_of d' a dk s i) by (unfold inner_of; rewrite (wmargins_display a dk s i A), (hgt_display a dk s i _ A Ha'), E1, E2; reflexivity).
  assert (E4 : bottoms d a dk s i = bottoms d' a dk s i) by (unfold bottoms; rewrite (la_mb s A); reflexivity).
  assert (E5 : kids_of sty d (inner_of d a dk s i) (stacks_ sty dk ks) ks = kids_of sty d' (inner_of d' a dk s i) (stacks_ sty dk ks) ks).
  { rewrite E3. unfold kids_of. replace (map (MoveProps.laid_kid sty d (inner_of d' a dk s i) (stacks_ sty dk ks)) ks) with (map (MoveProps.laid_kid sty d' (inner_of d' a dk s i) (stacks_ sty dk ks)) ks); [reflexivity|].
    apply map_ext_in. intros k Ik. unfold MoveProps.laid_kid. rewrite (IH k Ik); [reflexivity| |].
    - rewrite forallb_forall in Ek. apply Ek, Ik.
    - unfold inner_of. cbn [a_spec_h]. intros x Ex. pose proof Ev as Ev'. unfold every_length in Ev'. cbv zeta in Ev'. cbn [forallb] in Ev'. repeat rewrite andb_true_iff in Ev'.
      destruct Ev' as ((((( _ & Ev' & _) & _) & _) & _) & _). destruct (st_height s); [discriminate|]. injection Ex as <-. exact Ev'. }
  rewrite E5. unfold node_of. cbv zeta. rewrite E1, E2, E4, (wmargins_display a dk s i A), (hgt_display a dk s i _ A Ha').
  rewrite (la_mt s A), (la_bt s A), (la_br s A), (la_bb s A), (la_bl s A), (la_pt s A), (la_pr s A), (la_pb s A), (la_pl s A), (la_x s A), (la_y s A). reflexivity.
Qed.
End D.
Section E.
Context {S : Type} (sty : S -> style).
Notation node := (node S).
(** C133. *)
Theorem C133_display_height : forall d d' h5 (n n' : node), history sty n -> layout sty d h5 n = (n', Ok tt) ->
  same_but_height_display d d' -> everywhere sty (every_length ignores_height) n = true -> no_height_reference (sty (n_style n)) = true ->
  exists n2 u us, layout sty d' h5 n = (n2, Ok tt) /\ shows n' (UNode (fitted h5 d u) us) /\ shows n2 (UNode (fitted h5 d' u) us).
Proof.
  intros d d' h5 n n' Hi L Sd Ev Nr. destruct (C124_any_display sty d h5 d' h5 n n' Hi L) as (n2 & L2). exists n2.
  pose proof (C122_any_history sty d h5 n n' Hi L) as S1. pose proof (C122_any_history sty d' h5 n n2 Hi L2) as S2.
  assert (F : format sty d (mkArea (Some (nval (disp_width d))) (Some (nval (disp_height d))) 0 0 None) n
    = format sty d' (mkArea (Some (nval (disp_width d'))) (Some (nval (disp_height d'))) 0 0 None) n).
  { rewrite (format_display sty d d' Sd n Ev) by discriminate. rewrite (sd_width _ _ Sd). apply format_area, Nr. }
  assert (Dn : exists u us, format sty d' (mkArea (Some (nval (disp_width d'))) (Some (nval (disp_height d'))) 0 0 None) n = UNode u us).
  { destruct n as [s i bx ks]. rewrite format_split. destruct (st_display (sty s)) as [dk|] eqn:Dk; [unfold node_of; cbv zeta; eauto|].
    exfalso. destruct (C123_exactly_when sty d h5 (Node s i bx ks) Hi) as [C _]. specialize (C (ex_intro _ n' L)). unfold OkSpec.can_lay_out in C. cbn [n_style] in C. rewrite Dk in C.
    rewrite andb_false_r in C. discriminate. }
  destruct Dn as (u & us & E). unfold page in S1, S2. rewrite F in S1. rewrite E in S1, S2. destruct u as [mt mr mb ml bt br bb bl pt pr pb pl w h lf tp ct cb].
  exists (mkUsed mt mr mb ml bt br bb bl pt pr pb pl w h lf (tp + Z2Qc ct) ct cb), us. cbn [fitted]. auto.
Qed.

(** ** C134 *)
Lemma auto_laid root op k l r : auto_path sty root op k l r -> laid sty root op k.
Proof. intros H. inversion H; assumption. Qed.
Lemma auto_is root op k l r : auto_path sty root op k l r -> auto_block sty k.
Proof. intros H. inversion H; assumption. Qed.
Lemma is_num_inj v q x : is_num v q -> v = LNum x -> nval x = q.
Proof. intros (y & E & <-) E'. congruence. Qed.
(** One step: width and position in the containing block. *)
Lemma auto_step d h5 (n n' : node) op k b l r : history sty n -> layout sty d h5 n = (n', Ok tt) -> laid sty n' op k -> auto_block sty k ->
  n_box k = Some b -> left_edges b l -> right_edges b r ->
  nval (content_left b) = l /\ is_num (content_width b) (width_around d op - l - r).
Proof.
  intros Hi H L (A1 & A2 & A3) Eb (ml & M1 & ->) (mr & M2 & ->).
  assert (X : exists a u us t, format sty d a k = UNode u us /\ has_used b t /\ area_of sty d op a /\ u_w t = u_w u /\ u_ml t = u_ml u /\ u_mr t = u_mr u /\ u_left t = u_left u
     /\ u_bl t = u_bl u /\ u_br t = u_br u /\ u_pl t = u_pl u /\ u_pr t = u_pr u).
  { inversion L as [D|op0 p k0 Lp I D B]; subst.
    - pose proof (layout_inputs sty d h5 n) as In. rewrite H in In. cbn [fst] in In.
      assert (Sh : shows k (page sty d h5 k)).
      { pose proof (C122_any_history sty d h5 n k Hi H) as Sh. replace (page sty d h5 k) with (page sty d h5 n); [exact Sh|].
        unfold page. rewrite (format_inputs sty d n k); [reflexivity|]. symmetry. exact In. }
      unfold page in Sh. set (a := mkArea _ _ _ _ _) in *. destruct (format sty d a k) as [u us| |] eqn:F.
      + exists a, u, us. destruct u. inversion Sh as [s i b0 ks u0 us0 Hu Fs E1 E2| |]; subst. cbn [n_box] in Eb. injection Eb as ->. eexists. split; [exact F|]. split; [exact Hu|]. repeat split.
      + exfalso. destruct k as [s i bx ks]. rewrite format_split in F. unfold displayed in D. cbn [n_style] in D. destruct (st_display (sty s)); [discriminate|contradiction].
      + exfalso. destruct k as [s i bx ks]. rewrite format_split in F. unfold displayed in D. cbn [n_style] in D. destruct (st_display (sty s)); discriminate.
    - destruct (laid_placed sty d h5 n n' p k Hi H L) as (a & u & t & us & F & Sh & W & Hh & _). exists a, u, us, (move_down t u).
      inversion Sh as [s i b0 ks u0 us0 Hu Fs E1 E2| |]; subst. cbn [n_box] in Eb. injection Eb as ->. split; [exact F|]. split; [exact Hu|]. split; [split; assumption|].
      destruct u; repeat split. }
  destruct X as (a & u & us & t & F & Hu & Ar & T1 & T2 & T3 & T4 & T5 & T6 & T7 & T8). destruct k as [s i bx ks]. cbn [n_style] in *. rewrite format_split in F.
  destruct (st_display (sty s)) as [dk|] eqn:Dk; [|discriminate]. unfold node_of in F. cbv zeta in F. injection F as Eu _. subst u. cbn [u_w u_ml u_mr u_left u_bl u_br u_pl u_pr] in *.
  assert (Hn : isinl dk = false) by (unfold block_level in A1; rewrite Dk in A1; destruct dk; try discriminate; reflexivity).
  assert (Hr : isrel (sty s) = false) by (unfold isrel; destruct (st_position (sty s)); try reflexivity; contradiction).
  rewrite Hr in T4. unfold lefts in T4. rewrite Hn in T4. cbn [andb] in T4.
  pose proof (hu_ml _ _ Hu) as U1. pose proof (hu_mr _ _ Hu) as U2. pose proof (hu_w _ _ Hu) as U3. pose proof (hu_left _ _ Hu) as U4.
  rewrite (hu_bl _ _ Hu), (hu_pl _ _ Hu), (hu_br _ _ Hu), (hu_pr _ _ Hu), T5, T6, T7, T8.
  rewrite T1 in U3. rewrite T2 in U1. rewrite T3 in U2. rewrite T4 in U4. unfold wmargins in U1, U2, U3, U4. rewrite Hn in *. unfold widths in U1, U2, U3, U4. rewrite A2 in *. cbn [fst snd] in *.
  rewrite <- (is_num_inj _ _ _ U1 M1) in *. rewrite <- (is_num_inj _ _ _ U2 M2) in *. rewrite <- (area_width sty d op a Ar). split.
  - rewrite U4. ring.
  - cbn [is_size] in U3. destruct U3 as (x & X1 & X2). exists x. split; [exact X1|]. rewrite X2. unfold hedges. ring.
Qed.
(** C134: the width. *)
Theorem C134_width : forall d h5 (n n' : node) op k l r, history sty n -> layout sty d h5 n = (n', Ok tt) -> auto_path sty n' op k l r ->
  exists b w, n_box k = Some b /\ content_width b = LNum w /\ nval w = nval (disp_width d) - l - r.
Proof.
  intros d h5 n n' op k l r Hi H P. induction P as [b l r L A Eb El Er|op p k b l r l' r' P IH L I A Eb El Er].
  - destruct (auto_step d h5 n n' None n' b l r Hi H L A Eb El Er) as [_ (w & W1 & W2)]. exists b, w. auto.
  - destruct (auto_step d h5 n n' (Some p) k b l' r' Hi H L A Eb El Er) as [_ (w & W1 & W2)]. exists b, w. split; [exact Eb|]. split; [exact W1|].
    destruct IH as (pb & pw & B1 & B2 & B3). rewrite W2. cbn [width_around]. rewrite B1, B2, B3. ring.
Qed.
(** Where it is, in a document of which every node has a box. *)
Theorem C134_position : forall d h5 (n n' : node) op k l r, history sty n -> boxed n -> layout sty d h5 n = (n', Ok tt) -> auto_path sty n' op k l r ->
  exists b x, n_box k = Some b /\ nval (absolute_content_left b) = l /\ absolute_content_right b = Ok x /\ nval x = nval (disp_width d) - r.
Proof.
  intros d h5 n n' op k l r Hi B H P.
  assert (C : consistent n').
  { pose proof (layout_step sty d h5 n) as St. rewrite H in St. cbn [fst] in St. destruct St as [_ St]. apply (St (reset_ready sty n (boxed_ready' sty n B))), boxed_consistent, B. }
  assert (Ck : consistent k /\ exists b, n_box k = Some b /\ nval (absolute_content_left b) = l).
  { induction P as [b l r L A Eb El Er|op p k b l r l' r' P IH L I A Eb El Er].
    - split; [exact C|]. exists b. split; [exact Eb|]. destruct (auto_step d h5 n n' None n' b l r Hi H L A Eb El Er) as [E _].
      pose proof (C112_every_layout_is_the_reference sty d h5 n n' (boxed_ready sty n B) (or_introl B) H) as La.
      unfold absolute_content_left. rewrite nval_add, E. replace (nval (origin_left b)) with 0; [ring|].
      inversion La as [x y s i b0 ks u us Hu O1 O2 Fs E1 E2|x y s i ks E1 E2|x y n0 E1 E2]; subst.
      + cbn [n_box] in Eb. injection Eb as <-. symmetry. exact O1.
      + discriminate.
      + destruct (E1 b Eb) as (_ & O & _). symmetry. exact O.
    - destruct IH as (Cp & pb & Epb & Epl). destruct (auto_step d h5 n n' (Some p) k b l' r' Hi H L A Eb El Er) as [E _].
      destruct p as [ps pi px pks]. apply consistent_iff in Cp. destruct Cp as [C1 C2]. cbn [n_kids n_box] in *. split; [apply C1; exact I|]. exists b. split; [exact Eb|].
      destruct (C2 pb k b Epb I Eb) as [_ O]. unfold absolute_content_left at 1. rewrite nval_add, E. rewrite <- Epl, <- O. reflexivity. }
  destruct Ck as (_ & b & Eb & El). destruct (C134_width d h5 n n' op k l r Hi H P) as (b' & w & Eb' & W1 & W2). rewrite Eb in Eb'. injection Eb' as <-.
  exists b. eexists. split; [exact Eb|]. split; [exact El|]. unfold absolute_content_right. rewrite W1. cbn [as_num bindr]. split; [reflexivity|].
  rewrite !nval_add, W2. unfold absolute_content_left in El. rewrite nval_add in El. rewrite El. ring.
Qed.
Lemma sides_sum (n : node) op k l r : auto_path sty n op k l r -> (forall op' k', laid sty n op' k' -> nonneg_sides k') ->
  exists b, n_box k = Some b /\ nval (border_left_width b) + nval (padding_left b) <= l /\ nval (padding_right b) + nval (border_right_width b) <= r /\ 0 <= l /\ 0 <= r.
Proof.
  intros P N. induction P as [b l r L A Eb El Er|op p k b l r l' r' P IH L I A Eb El Er].
  - exists b. split; [exact Eb|]. destruct (N _ _ L) as (b' & ml & mr & Eb' & M1 & M2 & F). rewrite Eb in Eb'. injection Eb' as <-. destruct El as (m & Em & ->), Er as (m' & Em' & ->).
    rewrite M1 in Em. injection Em as <-. rewrite M2 in Em'. injection Em' as <-. inversion F as [|? ? F1 F']; subst. inversion F' as [|? ? F2 F'']; subst.
    inversion F'' as [|? ? F3 G]; subst. inversion G as [|? ? F4 G']; subst. inversion G' as [|? ? F5 G'']; subst. inversion G'' as [|? ? F6 _]; subst.
    clear -F1 F2 F3 F4 F5 F6. repeat split; qclra.
  - destruct IH as (pb & _ & _ & _ & Il & Ir). exists b. split; [exact Eb|]. destruct (N _ _ L) as (b' & ml & mr & Eb' & M1 & M2 & F). rewrite Eb in Eb'. injection Eb' as <-. destruct El as (m & Em & ->), Er as (m' & Em' & ->).
    rewrite M1 in Em. injection Em as <-. rewrite M2 in Em'. injection Em' as <-. inversion F as [|? ? F1 F']; subst. inversion F' as [|? ? F2 F'']; subst.
    inversion F'' as [|? ? F3 G]; subst. inversion G as [|? ? F4 G']; subst. inversion G' as [|? ? F5 G'']; subst. inversion G'' as [|? ? F6 _]; subst.
    clear -F1 F2 F3 F4 F5 F6 Il Ir. repeat split; qclra.
Qed.
(** Without negative edges on the sides such a block does not reach beyond the display. *)
Theorem C134_inside : forall d h5 (n n' : node) op k l r, history sty n -> boxed n -> layout sty d h5 n = (n', Ok tt) -> auto_path sty n' op k l r ->
  (forall op' k', laid sty n' op' k' -> nonneg_sides k') ->
  exists b x, n_box k = Some b /\ 0 <= nval (absolute_border_box_left b) /\ absolute_border_box_right b = Ok x /\ nval x <= nval (disp_width d).
Proof.
  intros d h5 n n' op k l r Hi B H P N. destruct (C134_position d h5 n n' op k l r Hi B H P) as (b & x & Eb & El & Er & Ex).
  destruct (sides_sum n' op k l r P N) as (b' & Eb' & L1 & R1 & _). rewrite Eb in Eb'. injection Eb' as <-. unfold absolute_content_right in Er. apply bindr_ok in Er. destruct Er as (w & W & Er). apply Ok_inj in Er. subst x.
  exists b. eexists. split; [exact Eb|]. split; [|split; [unfold absolute_border_box_right; rewrite W; reflexivity|]].
  - unfold absolute_border_box_left, absolute_content_left in *. rewrite !nval_sub. rewrite El. clear -L1. qclra.
  - rewrite !nval_add in *. clear -Ex R1. qclra.
Qed.
End E.
Print Assumptions C133_display_height.
Print Assumptions C134_width.
Print Assumptions C134_position.
Print Assumptions C134_inside.

(** ** Examples *)
(** A higher display; a document with percentages, vw, em and margins. *)
Definition tall_screen : display_t := mkDisp (NI 96) (NI 1000) (NI 900) (fixed_size screen).
Definition vwu (z : Z) : unit_ := mkU (KVp "vw"%string ScaleVw) (PI z).
Definition window : doc :=
  el (s_margin (Len (pxu 8)) (Len (pxu 8)) (Len (pxu 8)) (Len (pxu 8)) block_style)
    [el (s_padding (vwu 1) (pxu 3) (pctu 2) (pxu 3) (s_size (Len (pctu 50)) Auto block_style)) [el (hpx 20 block_style) []];
     el (s_border (BKw Thin) (BKw Thin) (BKw Thick) (BKw Medium) (s_margin (Len (pxu 4)) (Len (pxu 20)) (Len (pxu 4)) (Len (pxu 10)) block_style)) [el (s_size Auto (Len (pctu 30)) block_style) []]].
Example C133_example : history idsty window /\ layout idsty screen true window = (out true window, Ok tt) /\ same_but_height_display screen tall_screen
  /\ everywhere idsty (every_length ignores_height) window = true /\ no_height_reference (idsty (n_style window)) = true
  /\ lq (content_height (bx (out true window))) = Some 584%Q /\ lq (content_height (bx (fst (layout idsty tall_screen true window)))) = Some 884%Q.
Proof.
  split; [apply history_new; solve_new|]. split; [apply ok_layout; vm_compute; reflexivity|]. split; [constructor; reflexivity|]. repeat (split; [vm_compute; reflexivity|]). vm_compute. reflexivity.
Qed.
Fixpoint nodes (n : doc) : list doc := let 'Node _ _ _ ks := n in n :: flat_map nodes ks.
Lemma nodes_kid : forall n p k : doc, In p (nodes n) -> In k (n_kids p) -> In k (nodes n).
Proof.
  induction n as [s i b ks IH] using node_ind'. intros p k Hp Hk. destruct Hp as [<- |Hp]; right; apply in_flat_map.
  - exists k. split; [exact Hk|]. destruct k. left. reflexivity.
  - apply in_flat_map in Hp. destruct Hp as (c & Hc & Hp). exists c. split; [exact Hc|]. apply (IH c Hc p); assumption.
Qed.
Lemma laid_nodes (n : doc) op k : laid idsty n op k -> In k (nodes n).
Proof. induction 1 as [D|op p k L IH I D B]; [destruct n; left; reflexivity|]. apply (nodes_kid n p); assumption. Qed.
Lemma sides_ok (k : doc) : match n_box k with
  | Some b => match margin_left b, margin_right b with LNum ml, LNum mr => forallb (fun x => Qle_bool 0 (this (nval x))) [ml; mr; border_left_width b; border_right_width b; padding_left b; padding_right b] | _, _ => false end
  | None => false end = true -> nonneg_sides k.
Proof.
  intros H. destruct k as [s i [b|] ks]; cbn [n_box] in H; [|discriminate]. destruct (margin_left b) as [ml| |] eqn:E1; try discriminate. destruct (margin_right b) as [mr| |] eqn:E2; try discriminate.
  exists b, ml, mr. split; [reflexivity|]. split; [exact E1|]. split; [exact E2|]. rewrite forallb_forall in H. apply Forall_forall. intros x Hx. apply Qle_bool_iff, (H x Hx).
Qed.
Example C134_example : exists p k l r, history idsty window /\ boxed window /\ layout idsty screen false window = (out false window, Ok tt)
  /\ auto_path idsty (out false window) (Some p) k l r /\ this l = 21%Q /\ this r = 29%Q
  /\ (forall op' k', laid idsty (out false window) op' k' -> nonneg_sides k')
  /\ lq (content_width (bx k)) = Some 950%Q /\ this (nval (absolute_content_left (bx k))) = 21%Q.
Proof.
  exists (out false window), (kid 1 (out false window)). do 2 eexists.
  split; [apply history_new; solve_new|]. split; [solve_boxed|]. split; [apply ok_layout; vm_compute; reflexivity|]. split.
  { eapply auto_kid; [eapply auto_root; [laid_tac|split; [vm_compute; reflexivity|split; [vm_compute; reflexivity|vm_compute; discriminate]]|vm_compute; reflexivity|eexists; split; [reflexivity|reflexivity]|eexists; split; [reflexivity|reflexivity]]
      |laid_tac|vm_compute; auto|split; [vm_compute; reflexivity|split; [vm_compute; reflexivity|vm_compute; discriminate]]|vm_compute; reflexivity|eexists; split; [reflexivity|reflexivity]|eexists; split; [reflexivity|reflexivity]]. }
  split; [vm_compute; reflexivity|]. split; [vm_compute; reflexivity|]. split; [|split; vm_compute; reflexivity].
  intros op' k' L. apply laid_nodes in L. apply sides_ok. vm_compute in L. repeat destruct L as [L|L]; try (subst k'; vm_compute; reflexivity). destruct L.
Qed.
