(** * C144, C145: zooming and mirroring a document *)
From Coq Require Import ZArith QArith Qcanon Qround Lia Lqa Bool List.
From Verif Require Import PyNum NumFacts Units UnitsSpec BoxModel BoxSpec BoxFacts Engine EnginePure EngineSpec EngineExamples
  RefLayout RefFacts RefProps HistSpec HistProps OkSpec OkProps MoveSpec MoveProps LocalProps PushSpec PushProps SymSpec.
Import ListNotations.
Open Scope Qc_scope.

Lemma to_grid_on q : on_grid q -> to_grid q = q.
Proof.
  intros [z ->]. unfold to_grid. apply Qc_is_canon. rewrite !this_qfrac.
  assert (E : (this (Z2Qc 64 * qfrac z 64) == inject_Z z)%Q) by (rewrite this_mul, this_Z2Qc, this_qfrac; unfold Qeq, inject_Z, Qmult; cbn [Qnum Qden]; lia).
  rewrite (rhe_comp _ _ E), rhe_Z. reflexivity.
Qed.
Lemma exact_len_any d p u : u_kind u <> KPct -> exact_len d p u = exact_len d 0 u.
Proof. unfold exact_len. destruct (u_kind u); congruence. Qed.
Section Z.
Context (k : Qc) (Hk : 0 < k).
Context {S : Type} (sty : S -> style) (d d' : display_t) (Hd : zoomed_display k d d').
Notation node := (node S).
Lemma z_len p p' u v : zoomed_len k d d' u v -> len d' p' v = k * len d p u.
Proof.
  intros (A & B & G & G' & E & _). unfold len. rewrite (exact_len_any d p u A), (exact_len_any d' p' v B), (to_grid_on _ G), (to_grid_on _ G'). exact E.
Qed.
Lemma z_len0 p p' u v : zoomed_auto k d d' u v -> len0 d' p' v = k * len0 d p u.
Proof. destruct u, v; cbn; try contradiction; [intros _; ring|apply z_len]. Qed.
Lemma z_border p p' u v : zoomed_border k d d' u v -> border_len d' p' v = k * border_len d p u.
Proof. destruct u, v; cbn; try contradiction; [intros ->; apply (proj2 (proj2 Hd))|apply z_len]. Qed.
Lemma z_lt a b : qc_ltb (k * a) (k * b) = qc_ltb a b.
Proof.
  assert (M : forall x y, x < y -> k * x < k * y) by (intros x y L; rewrite !(Qcmult_comm k); apply Qcmult_lt_compat_r; assumption).
  destruct (qc_ltb_spec a b) as [H|H], (qc_ltb_spec (k * a) (k * b)) as [H'|H']; try reflexivity; exfalso.
  - apply H', M, H.
  - apply Qcnot_lt_le in H. destruct (Qcle_lt_or_eq _ _ H) as [L|L].
    + exact (Qclt_not_le _ _ (M _ _ L) (Qclt_le_weak _ _ H')).
    + rewrite L in H'. exact (Qclt_not_eq _ _ H' eq_refl).
Qed.
Lemma z_min a b : qc_min (k * a) (k * b) = k * qc_min a b.
Proof. unfold qc_min. rewrite z_lt. destruct (qc_ltb b a); reflexivity. Qed.
Lemma z_maxi a b : qc_maxi (k * a) (k * b) = k * qc_maxi a b.
Proof. unfold qc_maxi. rewrite z_lt. destruct (qc_ltb a b); reflexivity. Qed.
Lemma z_widths W e s t : zoomed_style k d d' s t -> not_centred s ->
  widths d' (k * W) (k * e) t = let '(x, y, z) := widths d W e s in (k * x, k * y, k * z).
Proof.
  intros (_ & _ & Ed & Zw & _ & Zmin & _ & Zmax & _ & _ & Zr & _ & Zl & _) Nc. unfold widths. rewrite <- Ed.
  rewrite (z_len0 W (k * W) _ _ Zl), (z_len0 W (k * W) _ _ Zr). set (l := len0 d W (st_margin_left s)). set (r := len0 d W (st_margin_right s)).
  destruct (st_width s) as [|u] eqn:Ws, (st_width t) as [|v]; cbn in Zw; try contradiction; [f_equal; f_equal; ring|].
  assert (El : limited_width d' (k * W) t v = k * limited_width d W s u).
  { unfold limited_width. rewrite (z_len W (k * W) _ _ Zw).
    assert (E1 : match st_max_width t with Some m => qc_min (k * len d W u) (len d' (k * W) m) | None => k * len d W u end
      = k * match st_max_width s with Some m => qc_min (len d W u) (len d W m) | None => len d W u end).
    { destruct (st_max_width s), (st_max_width t); cbn in Zmax; try contradiction; [|reflexivity]. rewrite (z_len W (k * W) _ _ Zmax). apply z_min. }
    rewrite E1. destruct (st_min_width s), (st_min_width t); cbn in Zmin; try contradiction; [reflexivity|]. rewrite (z_len W (k * W) _ _ Zmin). apply z_maxi. }
  rewrite El. set (x := limited_width d W s u). replace (k * e + k * x + k * l + k * r) with (k * (e + x + l + r)) by ring. rewrite z_lt.
  replace (k * W - k * e - k * x - k * l) with (k * (W - e - x - l)) by ring. replace (k * W - k * e - k * x - k * r) with (k * (W - e - x - r)) by ring.
  assert (Ov : forall dir, match dir with LTR => (k * x, k * l, k * (W - e - x - l)) | RTL => (k * x, k * (W - e - x - r), k * r) end
    = let '(x0, y, z) := match dir with LTR => (x, l, W - e - x - l) | RTL => (x, W - e - x - r, r) end in (k * x0, k * y, k * z)) by (intros []; reflexivity).
  destruct (qc_ltb W (e + x + l + r)) eqn:Lt; [apply Ov|]. clear Lt.
  destruct (st_margin_left s) eqn:Ml, (st_margin_left t); cbn in Zl; try contradiction; destruct (st_margin_right s) eqn:Mr, (st_margin_right t); cbn in Zr; try contradiction; try reflexivity; try apply Ov.
  exfalso. destruct Nc as [Nc|[Nc|Nc]]; congruence.
Qed.
Lemma k_nz : k <> 0. Proof. intros E. rewrite E in Hk. exact (Qclt_not_eq _ _ Hk eq_refl). Qed.
Lemma z_given x y : zoomed_num k x y -> given y = times k (given x).
Proof.
  destruct x as [a|], y as [b|]; cbn; try contradiction; [|reflexivity]. intros ->. destruct (qc_eqb_spec (nval a) 0) as [E|E], (qc_eqb_spec (k * nval a) 0) as [E'|E']; try reflexivity; exfalso.
  - apply E'. rewrite E. ring.
  - destruct (Qcmult_integral _ _ E') as [F|F]; [exact (k_nz F)|exact (E F)].
Qed.
Lemma z_image_width W r s t i j : zoomed_style k d d' s t -> zoomed_size k i j -> s_replaced i = true -> image_width d' (k * W) (k * r) t j = k * image_width d W r s i.
Proof.
  intros (_ & _ & _ & Zw & _) (Sw & _ & _ & _ & Im) R. unfold image_width. destruct (Im R) as [Nw _].
  destruct (st_width s), (st_width t); cbn in Zw; try contradiction; [|apply z_len, Zw].
  destruct (s_width i), (s_width j); cbn in Sw; try contradiction. exact Sw.
Qed.
Lemma z_image_height H H' w s t i j : zoomed_style k d d' s t -> zoomed_size k i j -> s_replaced i = true -> image_height d' H' (k * w) t j = k * image_height d H w s i.
Proof.
  intros (_ & _ & _ & Zw & Zh & _) (_ & Sh & Er & _ & Im) R. unfold image_height. destruct (Im R) as (_ & h & Eh & Nz).
  destruct (st_height s), (st_height t); cbn in Zh; try contradiction; [|apply z_len, Zh]. rewrite (z_given _ _ Sh), <- Er. rewrite Eh in *.
  destruct (s_height j) as [h'|]; cbn in Sh; [|contradiction].
  assert (Eg : given (Some h) = Some (nval h)) by (unfold given; destruct (qc_eqb_spec (nval h) 0); [contradiction|reflexivity]).
  rewrite Eg. cbn [times option_map].
  destruct (st_width s), (st_width t); cbn in Zw; try contradiction; [exact Sh|]. destruct (given (s_ratio i)); [ring|reflexivity].
Qed.
Lemma z_spec_height H H' ph ph' s t : zoomed_style k d d' s t -> spec_height d' H' ph' t = times k (spec_height d H ph s).
Proof.
  intros (_ & _ & _ & _ & Zh & _ & _ & _ & Zm & _). unfold spec_height. destruct (st_height s), (st_height t); cbn in Zh; try contradiction; [reflexivity|]. cbn [times option_map]. f_equal.
  rewrite (z_len (match ph with Some pu => len d H pu | None => H end) _ _ _ Zh).
  destruct (st_max_height s), (st_max_height t); cbn in Zm; try contradiction; [|reflexivity]. rewrite (z_len H _ _ _ Zm). apply z_min.
Qed.
Lemma z_or0 x : or0 (times k x) = k * or0 x.
Proof. destruct x; cbn; [reflexivity|ring]. Qed.
Lemma z_bottoms u v : zoomed_used k u v -> border_height v = k * border_height u /\ border_bottom v = k * border_bottom u.
Proof.
  intros (_ & H2 & H3 & H4 & _). injection H2 as B1 _ B2 _. injection H3 as P1 _ P2 _. injection H4 as _ Eh _ Et. unfold border_height, border_bottom.
  rewrite B1, B2, P1, P2, Eh, Et, z_or0. split; ring.
Qed.
Lemma z_whole x y : zoomed_auto k d d' x y -> whole_amount d x -> whole_amount d' y -> forall p p', Z2Qc (whole_px (len0 d' p' y)) = k * Z2Qc (whole_px (len0 d p x)).
Proof.
  intros Z Wx Wy p p'. rewrite (z_len0 p p' _ _ Z).
  assert (Wh : forall a v, match v with Auto => True | Len u => u_kind u <> KPct end -> whole_amount a v -> exists z, forall p, len0 a p v = Z2Qc z).
  { intros a [|u] N W; [exists 0%Z; reflexivity|]. cbn in W. destruct W as [z Ez]. exists z. intros p0. cbn [len0]. unfold len. rewrite (exact_len_any a p0 u N), Ez.
    apply to_grid_on. exists (64 * z)%Z. apply Qc_is_canon. rewrite this_Z2Qc, this_qfrac. unfold Qeq, inject_Z. cbn [Qnum Qden]. lia. }
  destruct (Wh d x) as [z Ez]; [destruct x, y; cbn in Z; try contradiction; [exact I|apply Z]|exact Wx|].
  destruct (Wh d' y) as [z' Ez']; [destruct x, y; cbn in Z; try contradiction; [exact I|apply Z]|exact Wy|].
  pose proof (z_len0 p p _ _ Z) as E. rewrite Ez, Ez' in E. rewrite Ez, <- E.
  assert (Wz : forall z, whole_px (Z2Qc z) = Z.max 0 z).
  { intros w. unfold whole_px. assert (F : Qfloor (this (Z2Qc w)) = w) by (rewrite (Qfloor_comp _ _ (this_Z2Qc w)); apply Qfloor_Z). rewrite F. destruct (qc_eqb_spec (Z2Qc w) (Z2Qc w)); [reflexivity|contradiction]. }
  rewrite !Wz. assert (Kz : (0 < this k)%Q) by exact Hk. assert (E2 : (inject_Z z' == this k * inject_Z z)%Q) by (rewrite <- !this_Z2Qc, E, this_mul; reflexivity).
  destruct (Z.max_spec 0 z) as [[A ->]|[A ->]], (Z.max_spec 0 z') as [[B ->]|[B ->]]; try (exact E).
  - exfalso. assert (X : (0 < inject_Z z)%Q) by (unfold Qlt; cbn; lia). assert (Y : (inject_Z z' <= 0)%Q) by (unfold Qle; cbn; lia). rewrite E2 in Y.
    assert (0 < this k * inject_Z z)%Q by (apply Qmult_lt_0_compat; assumption). lra.
  - exfalso. assert (X : (0 < inject_Z z')%Q) by (unfold Qlt; cbn; lia). assert (Y : (inject_Z z <= 0)%Q) by (unfold Qle; cbn; lia). rewrite E2 in X.
    assert (0 <= this k * - inject_Z z)%Q by (apply Qmult_le_0_compat; lra). lra.
  - change (Z2Qc 0) with 0. ring.
Qed.
Lemma z_max a b a' b' : Z2Qc a' = k * Z2Qc a -> Z2Qc b' = k * Z2Qc b -> Z2Qc (Z.max a' b') = k * Z2Qc (Z.max a b).
Proof.
  intros A B. assert (L : forall x y x' y', Z2Qc x' = k * Z2Qc x -> Z2Qc y' = k * Z2Qc y -> (x <= y)%Z -> (x' <= y')%Z).
  { intros x y x' y' X Y L. assert (E : Z2Qc x' <= Z2Qc y').
    { rewrite X, Y, !(Qcmult_comm k). apply Qcmult_le_compat_r; [|apply Qclt_le_weak, Hk]. unfold Qcle. rewrite !this_Z2Qc. unfold Qle. cbn. lia. }
    unfold Qcle in E. rewrite !this_Z2Qc in E. unfold Qle in E. cbn in E. lia. }
  destruct (Z.max_spec a b) as [[C ->]|[C ->]].
  - rewrite Z.max_r; [exact B|]. apply (L a b); try assumption. lia.
  - rewrite Z.max_l; [exact A|]. apply (L b a); try assumption.
Qed.
Lemma z_shift pos e a b a' b' : zoomed_offset k d d' a a' -> zoomed_offset k d d' b b' -> shift d' (k * pos) (times k e) a' b' = k * shift d pos e a b.
Proof.
  destruct a, a'; cbn; try contradiction; intros Ha; destruct b, b'; cbn; try contradiction; intros Hb; rewrite ?z_or0; try ring; rewrite ?(z_len (or0 e) _ _ _ Ha), ?(z_len (or0 e) _ _ _ Hb); ring.
Qed.
(** Areas. *)
Definition z_area (a a' : area) : Prop :=
  a_w a' = times k (a_w a) /\ a_h a' = times k (a_h a) /\ a_left a' = k * a_left a /\ a_top a' = k * a_top a.
Lemma z_wmargins a a' dk s t i j : z_area a a' -> zoomed_style k d d' s t -> not_centred s -> zoomed_size k i j ->
  wmargins d' a' dk t j = (times k (fst (fst (wmargins d a dk s i))), k * snd (fst (wmargins d a dk s i)), k * snd (wmargins d a dk s i)).
Proof.
  intros (Aw & Ah & _) Z Nc Zs. unfold wmargins. rewrite Aw, Ah, !z_or0. set (W := or0 (a_w a)). set (H := or0 (a_h a)).
  assert (Eh : hedges d' (k * H) t = k * hedges d H s).
  { unfold hedges. destruct Z as (_ & _ & _ & _ & _ & _ & _ & _ & _ & _ & _ & _ & _ & (_ & P1 & _ & P2) & (_ & B1 & _ & B2) & _).
    rewrite (z_border H (k * H) _ _ B1), (z_border H (k * H) _ _ B2), (z_len H (k * H) _ _ P1), (z_len H (k * H) _ _ P2). ring. }
  rewrite Eh. rewrite (z_widths W (hedges d H s) s t Z Nc). pose proof Z as (_ & _ & _ & _ & _ & _ & _ & _ & _ & _ & Zr & _ & Zl & _).
  rewrite (z_len0 W (k * W) _ _ Zl), (z_len0 W (k * W) _ _ Zr). destruct (isinl dk).
  - cbn [fst snd]. f_equal. f_equal. pose proof Zs as (Sw & Sh & Sr & Ei & Im). rewrite <- Ei. destruct (s_replaced i) eqn:R.
    + cbn [times option_map]. f_equal. replace (k * W - k * hedges d H s - k * len0 d W (st_margin_left s) - k * len0 d W (st_margin_right s)) with (k * (W - hedges d H s - len0 d W (st_margin_left s) - len0 d W (st_margin_right s))) by ring.
      apply z_image_width; assumption.
    + destruct (s_width i), (s_width j); cbn in *; try contradiction; [rewrite Sw|]; reflexivity.
  - destruct (widths d W (hedges d H s) s) as [[x y] z]. reflexivity.
Qed.
Lemma z_hgt a a' dk s t i j l l' : z_area a a' -> zoomed_style k d d' s t -> not_centred s -> zoomed_size k i j ->
  match l, l' with None, None => True | Some u, Some v => zoomed_used k u v | _, _ => False end ->
  hgt d' a' dk t j l' = times k (hgt d a dk s i l).
Proof.
  intros Za Z Nc Zs L. unfold hgt. rewrite (z_wmargins a a' dk s t i j Za Z Nc Zs). cbn [fst snd]. destruct Za as (Aw & Ah & _). destruct (isinl dk).
  - pose proof Zs as (_ & Sh & _ & Ei & _). rewrite <- Ei. destruct (s_replaced i) eqn:R.
    + cbn [times option_map]. f_equal. rewrite z_or0. apply z_image_height; assumption.
    + destruct (s_height i), (s_height j); cbn in *; try contradiction; [rewrite Sh|]; reflexivity.
  - cbn [times option_map]. f_equal. unfold used_block_height. rewrite (z_spec_height (or0 (a_h a)) (or0 (a_h a')) (a_spec_h a) (a_spec_h a') s t Z).
    destruct (spec_height d _ _ s); [reflexivity|]. cbn [times option_map]. destruct l, l'; try contradiction; [apply z_bottoms, L|].
    apply z_len0, Z.
Qed.
Lemma z_lefts a a' dk s t i j : z_area a a' -> zoomed_style k d d' s t -> not_centred s -> zoomed_size k i j -> lefts d' a' dk t j = k * lefts d a dk s i.
Proof.
  intros Za Z Nc Zs. unfold lefts. rewrite (z_wmargins a a' dk s t i j Za Z Nc Zs). cbn [fst snd]. destruct Zs as (_ & _ & _ & Ei & _). rewrite <- Ei. destruct (_ && _); [ring|].
  destruct Z as (_ & _ & _ & _ & _ & _ & _ & _ & _ & _ & _ & _ & _ & (_ & _ & _ & P) & (_ & _ & _ & B) & _).
  rewrite (z_border (or0 (a_h a)) _ _ _ B), (z_len (or0 (a_h a)) _ _ _ P). ring.
Qed.
Lemma z_edges a a' dk s t : zoomed_style k d d' s t -> edges d' a' dk t = k * edges d a dk s.
Proof.
  intros (_ & _ & _ & _ & _ & _ & _ & _ & _ & (M & _) & _ & _ & _ & (P & _) & (B & _) & _). unfold edges.
  rewrite (z_border (or0 (a_w a)) _ _ _ B), (z_len (or0 (a_w a)) _ _ _ P), (z_len0 (or0 (a_h a)) _ _ _ M). destruct (isinl dk); ring.
Qed.
Lemma used0_zoomed : zoomed_used k used0 used0.
Proof. unfold zoomed_used, used0. cbn. change (Z2Qc 0) with 0. rewrite !(Qcmult_comm k 0), !Qcmult_0_l. repeat split. Qed.
Lemma z_inner a a' dk s t i j : z_area a a' -> zoomed_style k d d' s t -> not_centred s -> zoomed_size k i j ->
  z_area (inner_of d a dk s i) (inner_of d' a' dk t j).
Proof.
  intros Za Z Nc Zs. unfold inner_of, z_area. cbn [a_w a_h a_left a_top]. rewrite (z_wmargins a a' dk s t i j Za Z Nc Zs). cbn [fst].
  assert (Ep : isrel t = isrel s) by (unfold isrel; rewrite (proj1 (proj2 Z)); reflexivity). rewrite Ep, (z_lefts a a' dk s t i j Za Z Nc Zs), (z_edges a a' dk s t Z).
  rewrite (z_hgt a a' dk s t i j (Some used0) (Some used0) Za Z Nc Zs used0_zoomed). repeat split.
  - destruct (isrel s); [reflexivity|]. cbn. f_equal. ring.
  - destruct (isrel s); ring.
Qed.
Lemma z_down r u v : zoomed_used k u v -> zoomed_used k (move_down r u) (move_down (k * r) v).
Proof.
  intros (H1 & H2 & H3 & H4 & H5). destruct u as [a1 a2 a3 a4 a5 a6 a7 a8 a9 a10 a11 a12 a13 a14 a15 a16 a17 a18], v as [b1 b2 b3 b4 b5 b6 b7 b8 b9 b10 b11 b12 b13 b14 b15 b16 b17 b18]. unfold zoomed_used, move_down in *. cbn [u_mt u_mr u_mb u_ml u_bt u_br u_bb u_bl u_pt u_pr u_pb u_pl u_w u_h u_left u_top u_ct u_cb] in *.
  split; [exact H1|]. split; [exact H2|]. split; [exact H3|]. split; [|exact H5]. injection H4 as -> -> -> ->. f_equal. ring.
Qed.
Lemma z_stack l l' : Forall2 (zoomed_tree k) l l' -> forall top prev prev', match prev, prev' with None, None => True | Some z, Some z' => Z2Qc z' = k * Z2Qc z | _, _ => False end ->
  Forall2 (zoomed_tree k) (stack top prev l) (stack (k * top) prev' l').
Proof.
  induction 1 as [|x x' l l' Hx Hl IH]; intros top prev prev' P; [constructor|]. inversion Hx as [u v us vs Hu Hs| |]; subst; cbn [stack]; [|constructor; [exact Hx|apply IH, P]..].
  set (c := match prev with None => 0 | Some z => qc_maxi (Z2Qc z) (u_mt u) end).
  assert (Ec : match prev' with None => 0 | Some z => qc_maxi (Z2Qc z) (u_mt v) end = k * c).
  { unfold c. destruct prev, prev'; try contradiction; [|ring]. rewrite P. destruct Hu as (H1 & _). injection H1 as -> _ _ _. apply z_maxi. }
  rewrite Ec, (proj1 (z_bottoms _ _ Hu)). replace (k * top + k * c) with (k * (top + c)) by ring. constructor; [constructor; [apply z_down, Hu|exact Hs]|].
  replace (k * (top + c) + k * border_height u) with (k * (top + c + border_height u)) by ring. apply IH. destruct Hu as (_ & _ & _ & _ & H5). exact (proj2 H5).
Qed.
Lemma z_last l l' : Forall2 (zoomed_tree k) l l' -> match last_kid l, last_kid l' with None, None => True | Some u, Some v => zoomed_used k u v | _, _ => False end.
Proof.
  intros H. unfold last_kid. assert (R : Forall2 (zoomed_tree k) (rev l) (rev l')).
  { clear -H. induction H; [constructor|]. cbn. apply Forall2_app; [assumption|constructor; [assumption|constructor]]. }
  destruct R as [|x x' r r' Hx _]; [exact I|]. destruct Hx; [assumption|exact used0_zoomed..].
Qed.
Lemma z_node a a' dk s t i j st ks ks' : z_area a a' -> zoomed_style k d d' s t -> not_centred s -> zoomed_size k i j -> Forall2 (zoomed_tree k) ks ks' ->
  zoomed_tree k (node_of d a dk s i st ks) (node_of d' a' dk t j st ks').
Proof.
  intros Za Z Nc Zs Hk'. pose proof (z_last _ _ Hk') as L. unfold node_of. cbv zeta. constructor; [|exact Hk'].
  pose proof Z as (_ & Ep & _ & _ & Zh & _ & _ & _ & _ & (Zmt & W1 & W2) & _ & (Zmb & W3 & W4) & _ & (P1 & P2 & P3 & P4) & (B1 & B2 & B3 & B4) & (O1 & O2 & O3 & O4) & _).
  assert (Ep' : isrel t = isrel s) by (unfold isrel; rewrite Ep; reflexivity). rewrite Ep'.
  pose proof Za as (Aw & Ah & Al & At).
  assert (Eb : bottoms d' a' dk t j = times k (bottoms d a dk s i)).
  { unfold bottoms. destruct Zs as (_ & _ & _ & Ei & _). rewrite <- Ei. destruct (st_margin_bottom s) eqn:Ms, (st_margin_bottom t) eqn:Mt; cbn in Zmb; try contradiction.
    - destruct (_ && _); [reflexivity|]. cbn. f_equal. ring.
    - rewrite !andb_false_r. cbn [times option_map]. f_equal. apply (z_len0 _ _ (Len _) (Len _)). exact Zmb. }
  assert (Ew : Z2Qc (whole_px (or0 (bottoms d' a' dk t j))) = k * Z2Qc (whole_px (or0 (bottoms d a dk s i)))).
  { unfold bottoms. destruct Zs as (_ & _ & _ & Ei & _). rewrite <- Ei. destruct (st_margin_bottom s) eqn:Ms, (st_margin_bottom t) eqn:Mt; cbn in Zmb; try contradiction.
    - destruct (_ && _); cbn [or0 len0]; rewrite whole_px_0; change (Z2Qc 0) with 0; ring.
    - rewrite !andb_false_r. cbn [or0]. apply z_whole; assumption. }
  rewrite (z_wmargins a a' dk s t i j Za Z Nc Zs), (z_lefts a a' dk s t i j Za Z Nc Zs), (z_edges a a' dk s t Z).
  unfold zoomed_used. cbn [u_mt u_mr u_mb u_ml u_bt u_br u_bb u_bl u_pt u_pr u_pb u_pl u_w u_h u_left u_top u_ct u_cb fst snd].
  split; [|split; [|split; [|split]]].
  - rewrite Eb, (z_len0 (or0 (a_h a)) _ _ _ Zmt). reflexivity.
  - rewrite (z_border (or0 (a_w a)) _ _ _ B1), (z_border (or0 (a_h a)) _ _ _ B2), (z_border (or0 (a_w a)) _ _ _ B3), (z_border (or0 (a_h a)) _ _ _ B4). reflexivity.
  - rewrite (z_len (or0 (a_w a)) _ _ _ P1), (z_len (or0 (a_h a)) _ _ _ P2), (z_len (or0 (a_w a)) _ _ _ P3), (z_len (or0 (a_h a)) _ _ _ P4). reflexivity.
  - rewrite (z_hgt a a' dk s t i j (last_kid ks) (last_kid ks') Za Z Nc Zs L). rewrite Aw, Ah, Al, At.
    rewrite (z_shift (a_left a) (a_w a) _ _ _ _ O4 O2), (z_shift (a_top a) (a_h a) _ _ _ _ O1 O3). destruct (isrel s); f_equal; [f_equal; ring|ring|f_equal; ring|ring].
  - split.
    + apply z_max; [apply z_whole; assumption|]. destruct st; [|change (Z2Qc 0) with 0; ring]. destruct Hk' as [|x x' r r' Hx _]; [change (Z2Qc 0) with 0; ring|].
      destruct Hx as [u v us vs (_ & _ & _ & _ & H5) _| |]; [exact (proj1 H5)|change (Z2Qc 0) with 0; ring..].
    + destruct (st_height s), (st_height t); cbn in Zh; try contradiction; [|exact Ew]. destruct (last_kid ks) as [u|], (last_kid ks') as [v|]; try contradiction; [|exact Ew].
      destruct (isinl dk); [exact Ew|]. apply z_max; [exact Ew|]. destruct L as (_ & _ & _ & _ & H5). exact (proj2 H5).
Qed.
Lemma zoomed_block (n m : node) : zoomed k d d' sty n m -> block_level (sty (n_style m)) = block_level (sty (n_style n)).
Proof. intros H. inversion H as [s s' i i' b b' ks ks' Z]; subst. cbn [n_style]. unfold block_level. rewrite (proj1 Z). reflexivity. Qed.
Theorem format_zoomed (n : node) : forall m, zoomed k d d' sty n m -> forall a a', z_area a a' -> zoomed_tree k (format sty d a n) (format sty d' a' m).
Proof.
  induction n as [s i b ks IH] using node_ind'. intros m Zm a a' Za. inversion Zm as [s1 s' i1 i' b1 b' ks1 ks' Z Nc Zs Zk]; subst. rewrite !format_split. rewrite <- (proj1 Z).
  destruct (st_display (sty s)) as [dk|]; [|constructor].
  assert (St : stacks_ sty dk ks' = stacks_ sty dk ks).
  { unfold stacks_. destruct dk; try reflexivity; clear -Zk; (induction Zk as [|x y l l' Hx _ IH']; [reflexivity|]; cbn [existsb]; rewrite (zoomed_block _ _ Hx), IH'; reflexivity). }
  rewrite St. apply z_node; try assumption. set (st := stacks_ sty dk ks). pose proof (z_inner a a' dk _ _ i i' Za Z Nc Zs) as Zi. set (inner := inner_of d a dk (sty s) i) in *. set (inner' := inner_of d' a' dk (sty s') i') in *.
  assert (Fk : Forall2 (zoomed_tree k) (map (MoveProps.laid_kid sty d inner st) ks) (map (MoveProps.laid_kid sty d' inner' st) ks')).
  { clearbody st inner inner'. clear -IH Zk Zi. induction Zk as [|x y l l' Hx Hl IHl]; [constructor|]. cbn [map]. constructor; [|apply IHl; intros z Iz; apply IH; right; exact Iz].
    unfold MoveProps.laid_kid. rewrite (zoomed_block _ _ Hx). destruct (_ && _); [constructor|]. apply IH; [left; reflexivity|assumption..]. }
  unfold kids_of. destruct st; [|exact Fk]. replace 0 with (k * 0) at 2 by ring. apply z_stack; [exact Fk|exact I].
Qed.
End Z.

(** ** C145 *)
Section Mi.
Context {S : Type} (sty : S -> style) (d : display_t).
Notation node := (node S).
Lemma m_widths W e s : widths d W e (mirror_style s) = let '(x, y, z) := widths d W e s in (x, z, y).
Proof.
  unfold widths. cbn [mirror_style st_margin_left st_margin_right st_width st_direction]. change (limited_width d W (mirror_style s)) with (limited_width d W s).
  set (l := len0 d W (st_margin_left s)). set (r := len0 d W (st_margin_right s)). destruct (st_width s) as [|u] eqn:Ws; [f_equal; f_equal; ring|]. set (x := limited_width d W s u).
  replace (e + x + r + l) with (e + x + l + r) by ring. destruct (qc_ltb W (e + x + l + r)); [destruct (st_direction s); reflexivity|].
  destruct (st_margin_left s) eqn:Ml, (st_margin_right s) eqn:Mr; try reflexivity. destruct (st_direction s); reflexivity.
Qed.
(** The widths, margins and edges of a block add up to the width around. *)
Lemma widths_sum W e s : not_centred s -> let '(x, y, z) := widths d W e s in y + e + x + z = W.
Proof.
  intros Nc. unfold widths. destruct (st_width s) as [|u] eqn:Ws; [ring|]. set (x := limited_width d W s u). set (l := len0 d W (st_margin_left s)). set (r := len0 d W (st_margin_right s)).
  destruct (qc_ltb W (e + x + l + r)); [destruct (st_direction s); ring|]. destruct (st_margin_left s) eqn:Ml, (st_margin_right s) eqn:Mr; try ring; [|destruct (st_direction s); ring].
  exfalso. destruct Nc as [Nc|[Nc|Nc]]; congruence.
Qed.
Definition m_area (a a' : area) : Prop := a_w a' = a_w a /\ a_h a' = a_h a /\ a_top a' = a_top a /\ a_spec_h a' = a_spec_h a.
Lemma m_wmargins a a' dk s i j : isinl dk = false -> m_area a a' ->
  wmargins d a' dk (mirror_style s) j = (fst (fst (wmargins d a dk s i)), snd (wmargins d a dk s i), snd (fst (wmargins d a dk s i))).
Proof.
  intros D (Aw & Ah & _). unfold wmargins. rewrite D, Aw, Ah. assert (Eh : hedges d (or0 (a_h a)) (mirror_style s) = hedges d (or0 (a_h a)) s) by (unfold hedges; cbn [mirror_style st_border_left st_border_right st_padding_left st_padding_right]; ring).
  rewrite Eh, m_widths. destruct (widths d _ _ s) as [[x y] z]. reflexivity.
Qed.
Lemma m_hgt a a' dk s i j l l' : isinl dk = false -> m_area a a' -> match l, l' with None, None => True | Some u, Some v => border_bottom v = border_bottom u | _, _ => False end ->
  hgt d a' dk (mirror_style s) j l' = hgt d a dk s i l.
Proof.
  intros D (Aw & Ah & At & As) L. unfold hgt. rewrite D, Ah, As. f_equal. unfold used_block_height. change (spec_height d (or0 (a_h a)) (a_spec_h a) (mirror_style s)) with (spec_height d (or0 (a_h a)) (a_spec_h a) s).
  destruct (spec_height _ _ _ _); [reflexivity|]. destruct l, l'; try contradiction; [exact L|reflexivity].
Qed.
Lemma m_edges a a' dk s : m_area a a' -> edges d a' dk (mirror_style s) = edges d a dk s.
Proof. intros (Aw & Ah & _). unfold edges. rewrite Aw, Ah. reflexivity. Qed.
Lemma m_inner a a' dk s i j : isinl dk = false -> m_area a a' -> m_area (inner_of d a dk s i) (inner_of d a' dk (mirror_style s) j).
Proof.
  intros D Ma. unfold inner_of, m_area. cbn [a_w a_h a_top a_spec_h]. rewrite (m_wmargins a a' dk s i j D Ma), (m_edges a a' dk s Ma). cbn [fst].
  change (isrel (mirror_style s)) with (isrel s). rewrite (m_hgt a a' dk s i j (Some used0) (Some used0) D Ma eq_refl). repeat split.
Qed.
Lemma m_bottoms w u v : mirrored_used w u v -> border_height v = border_height u /\ border_bottom v = border_bottom u.
Proof.
  intros (_ & H2 & H3 & H4 & _). injection H2 as B1 _ B2 _. injection H3 as P1 _ P2 _. injection H4 as _ Eh Et _ _. unfold border_height, border_bottom.
  rewrite B1, B2, P1, P2, Eh, Et. split; reflexivity.
Qed.
Lemma m_down w r u v : mirrored_used w u v -> mirrored_used w (move_down r u) (move_down r v).
Proof.
  intros (H1 & H2 & H3 & H4 & H5). destruct u, v. cbn in *. injection H1 as -> -> -> ->. injection H2 as -> -> -> ->. injection H3 as -> -> -> ->. injection H4 as -> -> -> -> ->. subst. repeat split.
Qed.
Lemma m_stack w l l' : Forall2 (mirrored_tree w) l l' -> forall top prev, Forall2 (mirrored_tree w) (stack top prev l) (stack top prev l').
Proof.
  induction 1 as [|x x' l l' Hx Hl IH]; intros top prev; [constructor|]. inversion Hx as [u v us vs Hu Hs| |]; subst; cbn [stack]; [|constructor; [exact Hx|apply IH]..].
  assert (E1 : u_mt v = u_mt u) by (destruct Hu as (H1 & _); injection H1 as -> _ _ _; reflexivity).
  assert (E2 : u_cb v = u_cb u) by (destruct Hu as (_ & _ & _ & H4 & _); injection H4 as _ _ _ _ ->; reflexivity).
  rewrite E1, E2, (proj1 (m_bottoms _ _ _ Hu)). constructor; [constructor; [apply m_down, Hu|]|apply IH]. destruct u. exact Hs.
Qed.
Lemma m_last w l l' : Forall2 (mirrored_tree w) l l' -> (last_kid l = None /\ last_kid l' = None) \/ exists u v, last_kid l = Some u /\ last_kid l' = Some v /\ border_bottom v = border_bottom u /\ u_cb v = u_cb u.
Proof.
  intros H. unfold last_kid. assert (R : Forall2 (mirrored_tree w) (rev l) (rev l')).
  { clear -H. induction H; [constructor|]. cbn. apply Forall2_app; [assumption|constructor; [assumption|constructor]]. }
  destruct R as [|x x' r r' Hx _]; [left; split; reflexivity|right]. destruct Hx as [u v us vs Hu Hs| |]; do 2 eexists; (split; [reflexivity|]); (split; [reflexivity|]); [|split; reflexivity..].
  split; [exact (proj2 (m_bottoms _ _ _ Hu))|]. destruct Hu as (_ & _ & _ & H4 & _). injection H4 as _ _ _ _ ->. reflexivity.
Qed.
Lemma m_shift p q e s : one_sided s -> st_position s = PRelative -> shift d q e (st_right s) (st_left s) = - shift d p e (st_left s) (st_right s).
Proof.
  intros O R. destruct (O R) as (H & N1 & N2). destruct (st_left s), (st_right s); try contradiction; cbn [shift]; try ring. destruct H; discriminate.
Qed.
Lemma m_node a a' dk s i j st ks ks' : isinl dk = false -> m_area a a' -> not_centred s -> one_sided s ->
  Forall2 (mirrored_tree (or0 (fst (fst (wmargins d a dk s i))))) ks ks' ->
  mirrored_tree (or0 (a_w a)) (node_of d a dk s i st ks) (node_of d a' dk (mirror_style s) j st ks').
Proof.
  intros D Ma Nc O Fk. pose proof (m_last _ _ _ Fk) as L. pose proof Ma as (Aw & Ah & At & As). unfold node_of. cbv zeta. constructor; [|exact Fk].
  rewrite (m_wmargins a a' dk s i j D Ma), (m_edges a a' dk s Ma). change (isrel (mirror_style s)) with (isrel s).
  assert (Eb : bottoms d a' dk (mirror_style s) j = bottoms d a dk s i) by (unfold bottoms; rewrite D, Ah; reflexivity). rewrite Eb, Aw, Ah, At.
  assert (Eh : hgt d a' dk (mirror_style s) j (last_kid ks') = hgt d a dk s i (last_kid ks)).
  { apply m_hgt; [exact D|exact Ma|]. destruct L as [[-> ->]|(u & v & -> & -> & E & _)]; [exact I|exact E]. }
  rewrite Eh. unfold mirrored_used. cbn [u_mt u_mr u_mb u_ml u_bt u_br u_bb u_bl u_pt u_pr u_pb u_pl u_w u_h u_left u_top u_ct u_cb fst snd mirror_style st_margin_top st_border_top st_border_right st_border_bottom st_border_left st_padding_top st_padding_right st_padding_bottom st_padding_left st_height st_top st_bottom st_left st_right].
  split; [reflexivity|]. split; [reflexivity|]. split; [reflexivity|]. split.
  - assert (E1 : (if st then match ks' with UNode u _ :: _ => u_ct u | _ => 0%Z end else 0%Z) = (if st then match ks with UNode u _ :: _ => u_ct u | _ => 0%Z end else 0%Z)).
    { destruct st; [|reflexivity]. destruct Fk as [|x x' r r' Hx _]; [reflexivity|]. destruct Hx as [u v us vs Hu Hs| |]; try reflexivity. destruct Hu as (_ & _ & _ & H4 & _). injection H4 as _ _ _ -> _. reflexivity. }
    rewrite E1. destruct (st_height s); [|reflexivity]. destruct L as [[-> ->]|(u & v & -> & -> & _ & ->)]; reflexivity.
  - unfold lefts. rewrite D, Ah. cbn [andb]. rewrite (m_wmargins a a' dk s i j D Ma). cbn [fst snd mirror_style st_border_left st_padding_left].
    assert (Sh : (if isrel s then shift d (a_left a') (a_w a) (st_right s) (st_left s) else 0) = - (if isrel s then shift d (a_left a) (a_w a) (st_left s) (st_right s) else 0)).
    { unfold isrel. destruct (st_position s) eqn:P; try ring. apply m_shift; assumption. }
    rewrite Sh. pose proof (widths_sum (or0 (a_w a)) (hedges d (or0 (a_h a)) s) s Nc) as Su. unfold wmargins. rewrite D. destruct (widths d (or0 (a_w a)) (hedges d (or0 (a_h a)) s) s) as [[x y] z]. cbn [fst snd or0].
    rewrite <- Su. unfold hedges. ring.
Qed.
Lemma mirrored_block (n m : node) : mirrored sty n m -> block_level (sty (n_style m)) = block_level (sty (n_style n)).
Proof. intros H. inversion H as [s s' i i' b b' ks ks' Z]; subst. cbn [n_style]. rewrite Z. reflexivity. Qed.
Theorem format_mirrored (n : node) : forall m, mirrored sty n m -> forall a a', m_area a a' -> mirrored_tree (or0 (a_w a)) (format sty d a n) (format sty d a' m).
Proof.
  induction n as [s i b ks IH] using node_ind'. intros m Zm a a' Za. inversion Zm as [s1 s' i1 i' b1 b' ks1 ks' Z O Bl Nc Re Zk]; subst. rewrite !format_split. rewrite Z. cbn [mirror_style st_display].
  destruct (st_display (sty s)) as [dk|] eqn:Dk; [|constructor].
  assert (D : isinl dk = false) by (destruct Bl as [Bl|Bl]; [congruence|]; unfold block_level in Bl; rewrite Dk in Bl; destruct dk; try discriminate; reflexivity).
  assert (St : stacks_ sty dk ks' = stacks_ sty dk ks).
  { unfold stacks_. destruct dk; try reflexivity; clear -Zk; (induction Zk as [|x y l l' Hx _ IH']; [reflexivity|]; cbn [existsb]; rewrite (mirrored_block _ _ Hx), IH'; reflexivity). }
  rewrite St. set (st := stacks_ sty dk ks). pose proof (m_inner a a' dk (sty s) i i' D Za) as Zi.
  apply m_node; try assumption. change (fst (fst (wmargins d a dk (sty s) i))) with (a_w (inner_of d a dk (sty s) i)).
  set (inner := inner_of d a dk (sty s) i) in *. set (inner' := inner_of d a' dk (mirror_style (sty s)) i') in *.
  assert (Fk : Forall2 (mirrored_tree (or0 (a_w inner))) (map (MoveProps.laid_kid sty d inner st) ks) (map (MoveProps.laid_kid sty d inner' st) ks')).
  { clearbody st inner inner'. clear -IH Zk Zi. induction Zk as [|x y l l' Hx Hl IHl]; [constructor|]. cbn [map]. constructor; [|apply IHl; intros z Iz; apply IH; right; exact Iz].
    unfold MoveProps.laid_kid. rewrite (mirrored_block _ _ Hx). destruct (_ && _); [constructor|]. apply IH; [left; reflexivity|assumption..]. }
  unfold kids_of. destruct st; [|exact Fk]. apply m_stack, Fk.
Qed.
End Mi.

(** ** Success *)
Definition same_fit (u v : unit_) : Prop := forall known, measurable known v = measurable known u.
Definition fit_opt (x y : option unit_) : Prop := match x, y with None, None => True | Some u, Some v => same_fit u v | _, _ => False end.
Definition fit (a a' : around) : Prop :=
  w_known a' = w_known a /\ h_known a' = h_known a /\ is_display a' = is_display a /\ fit_opt (spec_h a) (spec_h a').
Definition own_height (s : style) : option unit_ := match st_height s with Auto => None | Len u => Some u end.
(** A style and intrinsic sizes that succeed where others do. *)
Definition fit_pair (s : style) (i : size) (s' : style) (i' : size) : Prop :=
  st_display s' = st_display s /\ kind_of s' i' = kind_of s i /\ relative s' = relative s /\ fit_opt (own_height s) (own_height s')
  /\ forall kd, st_display s <> None -> kind_of s i = Some kd -> width_known kd i' = width_known kd i /\ height_known kd i' = height_known kd i
    /\ forall a a', fit a a' -> edges_ok a' s' = edges_ok a s /\ width_ok a' kd s' i' = width_ok a kd s i
      /\ (forall last, height_ok a' kd s' last = height_ok a kd s last)
      /\ (relative s = true -> offsets_ok a' (w_known a') (st_left s') (st_right s') = offsets_ok a (w_known a) (st_left s) (st_right s)
          /\ offsets_ok a' (h_known a') (st_top s') (st_bottom s') = offsets_ok a (h_known a) (st_top s) (st_bottom s)).
Section Fit.
Context {S : Type} (sty : S -> style).
Notation node := (node S).
Context (R : node -> node -> Prop)
  (HR : forall n m, R n m -> fit_pair (sty (n_style n)) (n_intr n) (sty (n_style m)) (n_intr m) /\ Forall2 R (n_kids n) (n_kids m)).
Lemma fit_block n m : R n m -> block_child sty m = block_child sty n.
Proof. intros H. destruct (HR _ _ H) as [(E & _) _]. unfold block_child. rewrite E. reflexivity. Qed.
Lemma fit_exists ks ks' : Forall2 R ks ks' -> existsb (block_child sty) ks' = existsb (block_child sty) ks.
Proof. induction 1 as [|k k' l l' H F IH]; [reflexivity|]. cbn [existsb]. rewrite (fit_block _ _ H), IH. reflexivity. Qed.
Lemma fit_first ks ks' : Forall2 R ks ks' -> blocks_first sty ks' = blocks_first sty ks.
Proof. induction 1 as [|k k' l l' H F IH]; [reflexivity|]. cbn [blocks_first]. rewrite (fit_block _ _ H), IH, (fit_exists _ _ F). reflexivity. Qed.
Lemma Forall2_backwards (ks ks' : list node) : Forall2 R ks ks' -> Forall2 R (rev ks) (rev ks').
Proof. induction 1; cbn [rev]; [constructor|]. apply Forall2_app; [assumption|constructor; [assumption|constructor]]. Qed.
Lemma boxed_some (n : node) : boxed n -> some (n_box n) = true.
Proof. intros H. inversion H. reflexivity. Qed.
Lemma can_lay_fit (n : node) : forall m, R n m -> boxed n -> boxed m -> forall a a', fit a a' -> can_lay sty a' m = can_lay sty a n.
Proof.
  induction n as [s i b ks IH] using node_ind'. intros [s' i' b' ks'] Rm Bn Bm a a' Fa. pose proof (HR _ _ Rm) as [(Ed & Ek & Er & Eh & Eo) F]. cbn [n_style n_intr n_kids] in *.
  inversion Bn as [? ? ? ? Kn]; subst. inversion Bm as [? ? ? ? Km]; subst. cbn [can_lay]. rewrite Ed, Ek, Er. destruct (st_display (sty s)) as [dk|] eqn:Dk; [|reflexivity].
  destruct (kind_of (sty s) i) as [kd|] eqn:K; [|reflexivity]. destruct (Eo kd ltac:(discriminate) eq_refl) as (Ew & Ehk & Ea). destruct (Ea a a' Fa) as (-> & -> & Eht & Eof). rewrite (fit_exists _ _ F), (fit_first _ _ F), !Eht, Ew, Ehk.
  set (stk := match dk with DBlock | DListItem => _ | _ => _ end).
  assert (L1 : last_boxed ks' = last_boxed ks).
  { unfold last_boxed. pose proof (Forall2_backwards _ _ F) as G. inversion G as [Ea0 Eb0|k k' r r' Hk Hr Ea0 Eb0]; [reflexivity|]. rewrite !boxed_some; [reflexivity| |].
    - apply Kn, in_rev. rewrite <- Ea0. left. reflexivity.
    - apply Km, in_rev. rewrite <- Eb0. left. reflexivity. }
  assert (L2 : last_sized sty stk ks' = last_sized sty stk ks).
  { unfold last_sized. pose proof (Forall2_backwards _ _ F) as G. inversion G as [Ea0 Eb0|k k' r r' Hk Hr Ea0 Eb0]; [reflexivity|]. rewrite (fit_block _ _ Hk). rewrite !boxed_some.
    2: { apply Kn, in_rev. rewrite <- Ea0. left. reflexivity. }
    2: { apply Km, in_rev. rewrite <- Eb0. left. reflexivity. }
    destruct (stk && negb (block_child sty k)) eqn:St; [reflexivity|]. destruct (HR _ _ Hk) as [(Ed' & Ek' & _ & _ & Eo') _]. rewrite Ek'. destruct (kind_of (sty (n_style k)) (n_intr k)) as [kd'|] eqn:K'; [|reflexivity].
    f_equal. apply (Eo' kd'); [|reflexivity]. intros D. unfold kind_of in K'. rewrite D in K'. destruct (st_float (sty (n_style k))), (st_position (sty (n_style k))); discriminate. }
  rewrite L1, L2. set (inner := mkAround (width_known kd i) _ false (match st_height (sty s) with Auto => None | Len u => Some u end)). set (inner' := mkAround (width_known kd i) _ false (match st_height (sty s') with Auto => None | Len u => Some u end)).
  assert (Fi : fit inner inner') by (split; [reflexivity|]; split; [reflexivity|]; split; [reflexivity|]; exact Eh).
  assert (G : forallb (can_lay sty inner') ks' = forallb (can_lay sty inner) ks
    /\ forallb (fun k => if block_child sty k then can_lay sty inner' k else true) ks' = forallb (fun k => if block_child sty k then can_lay sty inner k else true) ks).
  { clear L1 L2. clearbody inner inner' stk. clear -HR IH F Kn Km Fi. induction F as [|k k' l l' H F IHl]; [split; reflexivity|]. cbn [forallb].
    destruct IHl as [I1 I2]; [intros; apply IH; [right|..]; assumption|intros; apply Kn; right; assumption|intros; apply Km; right; assumption|].
    rewrite I1, I2, (fit_block _ _ H), (IH k (or_introl eq_refl) k' H (Kn k (or_introl eq_refl)) (Km k' (or_introl eq_refl)) inner inner' Fi). split; reflexivity. }
  destruct G as [-> ->]. destruct (relative (sty s)); [|reflexivity]. destruct (Eof eq_refl) as [-> ->]. reflexivity.
Qed.
Lemma can_lay_out_fit n m : R n m -> boxed n -> boxed m -> can_lay_out sty m = can_lay_out sty n.
Proof.
  intros H Bn Bm. unfold can_lay_out. rewrite (can_lay_fit n m H Bn Bm (mkAround true true true None)) by (repeat split). rewrite !boxed_some by assumption. destruct (HR _ _ H) as [(-> & _) _]. reflexivity.
Qed.
End Fit.
Lemma z_fit k d d' u v : zoomed_len k d d' u v -> same_fit u v.
Proof.
  intros (A & B & _ & _ & _ & E) known. assert (N : forall w, u_kind w <> KPct -> measurable known w = measurable true w) by (intros w H; unfold measurable; destruct (u_kind w); congruence).
  rewrite (N u A), (N v B). exact E.
Qed.
Lemma z_fit_auto k d d' u v known : zoomed_auto k d d' u v -> measurable_or_auto known v = measurable_or_auto known u.
Proof. destruct u, v; cbn; try contradiction; [reflexivity|]. intros H. apply (z_fit k d d' _ _ H). Qed.
Lemma z_fit_border k d d' u v known : zoomed_border k d d' u v -> measurable_border known v = measurable_border known u.
Proof. destruct u, v; cbn; try contradiction; [reflexivity|]. intros H. apply (z_fit k d d' _ _ H). Qed.
Lemma z_fit_opt k d d' u v known : zoomed_opt k d d' u v -> measurable_if_any known v = measurable_if_any known u.
Proof. destruct u, v; cbn; try contradiction; [|reflexivity]. intros H. apply (z_fit k d d' _ _ H). Qed.
Lemma z_fit_offsets k d d' a a' known x x' y y' : is_display a' = is_display a -> zoomed_offset k d d' x x' -> zoomed_offset k d d' y y' -> offsets_ok a' known x' y' = offsets_ok a known x y.
Proof.
  intros D Hx Hy. destruct x, x'; cbn in Hx; try contradiction; destruct y, y'; cbn in Hy; try contradiction; cbn [offsets_ok]; rewrite ?D; try reflexivity; try apply (z_fit k d d' _ _ Hx); apply (z_fit k d d' _ _ Hy).
Qed.
Lemma z_some k x y : zoomed_num k x y -> some y = some x.
Proof. destruct x, y; cbn; intros; try contradiction; reflexivity. Qed.
Lemma zoomed_fit k d d' s t i j : zoomed_style k d d' s t -> zoomed_size k i j -> fit_pair s i t j.
Proof.
  intros (Ed & Ep & _ & Zw & Zh & Zmiw & Zmih & Zmaw & Zmah & (Zmt & _) & Zmr & (Zmb & _) & Zml & (P1 & P2 & P3 & P4) & (B1 & B2 & B3 & B4) & (O1 & O2 & O3 & O4) & Ef) (Sw & Sh & Sr & Sp & _).
  split; [symmetry; exact Ed|]. split; [unfold kind_of; rewrite Ef, Ep, Ed, Sp; reflexivity|]. split; [unfold relative; rewrite Ep; reflexivity|]. split.
  { unfold own_height. destruct (st_height s), (st_height t); cbn in Zh |- *; try contradiction; [exact I|]. apply (z_fit k d d' _ _ Zh). }
  intros kd _ _. split; [destruct kd; try reflexivity; apply (z_some k _ _ Sw)|]. split; [destruct kd; try reflexivity; apply (z_some k _ _ Sh)|].
  intros a a' (Fw & Fh & Fd & Fs). split; [|split; [|split]].
  - unfold edges_ok. cbn [forallb]. rewrite Fw, Fh, !(z_fit_auto k d d' _ _ _ Zml), !(z_fit_auto k d d' _ _ _ Zmr), !(z_fit_auto k d d' _ _ _ Zmt), !(z_fit_auto k d d' _ _ _ Zmb), (z_fit_border k d d' _ _ _ B1), (z_fit_border k d d' _ _ _ B2), (z_fit_border k d d' _ _ _ B3), (z_fit_border k d d' _ _ _ B4), (z_fit k d d' _ _ P1), (z_fit k d d' _ _ P2), (z_fit k d d' _ _ P3), (z_fit k d d' _ _ P4). reflexivity.
  - unfold width_ok. rewrite Fw, Sr. destruct kd; [| |reflexivity].
    + destruct (st_width s), (st_width t); cbn in Zw; try contradiction; [reflexivity|]. rewrite (z_fit k d d' _ _ Zw), (z_fit_opt k d d' _ _ _ Zmaw), (z_fit_auto k d d' _ _ _ Zmiw). reflexivity.
    + destruct (st_width s), (st_width t); cbn in Zw; try contradiction; [|apply (z_fit k d d' _ _ Zw)]. destruct (st_height s), (st_height t); cbn in Zh; try contradiction; [|reflexivity].
      destruct (s_width i), (s_width j); cbn in Sw; try contradiction; [reflexivity|]. destruct (s_height i), (s_height j); cbn in Sh; try contradiction; reflexivity.
  - intros last. unfold height_ok. rewrite Fh. destruct kd.
    + destruct (st_height s), (st_height t); cbn in Zh; try contradiction; [destruct last; [reflexivity|]; apply (z_fit_auto k d d' _ _ _ Zmih)|].
      rewrite (z_fit_opt k d d' _ _ _ Zmah). destruct (spec_h a), (spec_h a'); cbn in Fs; try contradiction; rewrite ?Fs, !(z_fit k d d' _ _ Zh); reflexivity.
    + destruct (st_height s), (st_height t); cbn in Zh; try contradiction; [reflexivity|]. apply (z_fit k d d' _ _ Zh).
    + destruct (st_margin_top s), (st_margin_top t); cbn in Zmt; try contradiction; reflexivity.
  - intros _. rewrite Fw, Fh. split; apply (z_fit_offsets k d d'); assumption.
Qed.
Lemma mirrored_fit s i i' : one_sided s -> st_display s = None \/ block_level s = true -> s_replaced i' = s_replaced i -> fit_pair s i (mirror_style s) i'.
Proof.
  intros Os Bl Re. split; [reflexivity|]. split; [unfold kind_of; rewrite Re; reflexivity|]. split; [reflexivity|]. split; [unfold own_height; cbn [mirror_style st_height]; destruct (st_height s); cbn; [exact I|intros ?; reflexivity]|].
  intros kd Dn K. assert (kd = Block) as ->.
  { destruct Bl as [Bl|Bl]; [contradiction|]. unfold block_level in Bl. unfold kind_of in K. destruct (st_display s) as [[]|]; try discriminate; destruct (st_float s), (st_position s), (s_replaced i); congruence. }
  split; [reflexivity|]. split; [reflexivity|]. intros a a' (Fw & Fh & Fd & Fs). split; [|split; [|split]].
  - unfold edges_ok. cbn [forallb mirror_style st_margin_left st_margin_right st_margin_top st_margin_bottom st_border_top st_border_bottom st_border_left st_border_right st_padding_top st_padding_bottom st_padding_left st_padding_right].
    rewrite Fw, Fh, !andb_true_r. rewrite (andb_comm (measurable_or_auto _ (st_margin_right s))), (andb_comm (measurable_border _ (st_border_right s))), (andb_comm (measurable _ (st_padding_right s))). reflexivity.
  - unfold width_ok. rewrite Fw. reflexivity.
  - intros last. unfold height_ok. rewrite Fh. cbn [mirror_style st_height st_max_height st_min_height]. destruct (st_height s); [reflexivity|]. destruct (spec_h a), (spec_h a'); cbn in Fs; try contradiction; rewrite ?Fs; reflexivity.
  - intros Rl. assert (Pr : st_position s = PRelative) by (unfold relative in Rl; destruct (st_position s); try discriminate; reflexivity). destruct (Os Pr) as (O & Nl & Nr).
    rewrite Fw, Fh. cbn [mirror_style st_left st_right st_top st_bottom]. split.
    + destruct (st_left s), (st_right s), O; try congruence; reflexivity.
    + destruct (st_top s), (st_bottom s); cbn [offsets_ok]; rewrite ?Fd; reflexivity.
Qed.

Section T.
Context {S : Type} (sty : S -> style).
Notation node := (node S).
(** C144. *)
Theorem C144_zoom : forall k d d' h5 (n m n' m' : node), 0 < k -> history sty n -> history sty m -> zoomed_display k d d' -> zoomed k d d' sty n m ->
  layout sty d h5 n = (n', Ok tt) -> layout sty d' h5 m = (m', Ok tt) ->
  exists t t', shows n' t /\ shows m' t' /\ zoomed_tree k t t'.
Proof.
  intros k d d' h5 n m n' m' Hk Hn Hm Zd Z Ln Lm. exists (page sty d h5 n), (page sty d' h5 m).
  split; [apply (C122_any_history sty); assumption|]. split; [apply (C122_any_history sty); assumption|].
  rewrite !page_draft. unfold draft. pose proof (format_zoomed k Hk sty d d' Zd n m Z (mkArea (Some (nval (disp_width d))) (Some (nval (disp_height d))) 0 0 None) (mkArea (Some (nval (disp_width d'))) (Some (nval (disp_height d'))) 0 0 None)) as F.
  assert (Za : z_area k (mkArea (Some (nval (disp_width d))) (Some (nval (disp_height d))) 0 0 None) (mkArea (Some (nval (disp_width d'))) (Some (nval (disp_height d'))) 0 0 None)).
  { destruct Zd as (E1 & E2 & _). unfold z_area. cbn [a_w a_h a_left a_top times option_map]. rewrite E1, E2. repeat split; ring. }
  specialize (F Za). destruct F as [u v us vs Hu Hs| |]; [|constructor..]. cbn [finished]. constructor; [|exact Hs]. destruct Hu as (H1 & H2 & H3 & H4 & H5 & H6), Zd as (_ & E2 & _).
  destruct u as [a1 a2 a3 a4 a5 a6 a7 a8 a9 a10 a11 a12 a13 a14 a15 a16 a17 a18], v as [b1 b2 b3 b4 b5 b6 b7 b8 b9 b10 b11 b12 b13 b14 b15 b16 b17 b18].
  unfold zoomed_used, completed in *. cbn [u_mt u_mr u_mb u_ml u_bt u_br u_bb u_bl u_pt u_pr u_pb u_pl u_w u_h u_left u_top u_ct u_cb] in *.
  split; [exact H1|]. split; [exact H2|]. split; [exact H3|]. split; [|split; assumption]. rewrite E2, H5, H6. injection H4 as -> -> -> ->.
  replace (k * nval (disp_height d) - k * Z2Qc a17 - k * Z2Qc a18) with (k * (nval (disp_height d) - Z2Qc a17 - Z2Qc a18)) by ring.
  replace (k * a16 + k * Z2Qc a17) with (k * (a16 + Z2Qc a17)) by ring. destruct h5; reflexivity.
Qed.
(** C145. *)
Theorem C145_mirror : forall d h5 (n m n' m' : node), history sty n -> history sty m -> mirrored sty n m ->
  layout sty d h5 n = (n', Ok tt) -> layout sty d h5 m = (m', Ok tt) ->
  exists t t', shows n' t /\ shows m' t' /\ mirrored_tree (nval (disp_width d)) t t'.
Proof.
  intros d h5 n m n' m' Hn Hm Z Ln Lm. exists (page sty d h5 n), (page sty d h5 m).
  split; [apply (C122_any_history sty); assumption|]. split; [apply (C122_any_history sty); assumption|].
  rewrite !page_draft. unfold draft. set (a := mkArea (Some (nval (disp_width d))) (Some (nval (disp_height d))) 0 0 None).
  pose proof (format_mirrored sty d n m Z a a) as F. assert (Ma : m_area a a) by (repeat split). specialize (F Ma). change (or0 (a_w a)) with (nval (disp_width d)) in F.
  destruct F as [u v us vs Hu Hs| |]; [|constructor..]. cbn [finished]. constructor; [|destruct u; exact Hs]. destruct Hu as (H1 & H2 & H3 & H4 & H5).
  destruct u as [a1 a2 a3 a4 a5 a6 a7 a8 a9 a10 a11 a12 a13 a14 a15 a16 a17 a18], v as [b1 b2 b3 b4 b5 b6 b7 b8 b9 b10 b11 b12 b13 b14 b15 b16 b17 b18].
  unfold mirrored_used, completed in *. cbn [u_mt u_mr u_mb u_ml u_bt u_br u_bb u_bl u_pt u_pr u_pb u_pl u_w u_h u_left u_top u_ct u_cb] in *.
  injection H4 as -> -> -> -> ->. repeat (split; [assumption || reflexivity|]). exact H5.
Qed.
(** Enlarging or mirroring a document changes nothing about whether it can be laid out. *)
Theorem C144_succeeds : forall k d d' h5 h5' (n m : node), boxed n -> boxed m -> history sty n -> history sty m -> zoomed k d d' sty n m ->
  ((exists n', layout sty d h5 n = (n', Ok tt)) <-> (exists m', layout sty d' h5' m = (m', Ok tt))).
Proof.
  intros k d d' h5 h5' n m Bn Bm Hn Hm Z. rewrite (C123_exactly_when sty d h5 n Hn), (C123_exactly_when sty d' h5' m Hm).
  rewrite (can_lay_out_fit sty (zoomed k d d' sty) ltac:(intros x y [s s' i i' b b' ks ks' Zs Nc Zi F]; split; [apply (zoomed_fit k d d'); assumption|exact F]) n m Z Bn Bm). reflexivity.
Qed.
Theorem C145_succeeds : forall d d' h5 h5' (n m : node), boxed n -> boxed m -> history sty n -> history sty m -> mirrored sty n m ->
  ((exists n', layout sty d h5 n = (n', Ok tt)) <-> (exists m', layout sty d' h5' m = (m', Ok tt))).
Proof.
  intros d d' h5 h5' n m Bn Bm Hn Hm Z. rewrite (C123_exactly_when sty d h5 n Hn), (C123_exactly_when sty d' h5' m Hm).
  rewrite (can_lay_out_fit sty (mirrored sty) ltac:(intros x y [s s' i i' b b' ks ks' Es Os Bl Nc Re F]; split; [cbn [n_style n_intr]; rewrite Es; apply mirrored_fit; assumption|exact F]) n m Z Bn Bm). reflexivity.
Qed.
End T.
Print Assumptions C144_zoom.
Print Assumptions C144_succeeds.
Print Assumptions C145_succeeds.
Print Assumptions C145_mirror.

(** ** Examples *)
Open Scope Z_scope.
(** One half larger: a relatively positioned box with borders and paddings and a list of blocks. *)
Definition zdoc (k : Z) : doc :=
  let p z := pxu (z * k)%Z in
  el (s_margin (Len (p 4)) (Len (p 5)) (Len (p 6)) (Len (p 7)) block_style)
    [el (s_size (Len (p 101)) (Len (p 20)) (s_margin (Len (p 9)) Auto (Len (p 8)) (Len (p 3)) block_style)) [];
     el (s_border (BKw Thin) (BLen (p 2)) (BKw Thick) (BLen (p 1)) (s_padding (p 3) (p 4) (p 5) (p 6) (s_offsets (OLen (p 2)) OAuto OAuto (OLen (p 11)) (s_position PRelative block_style))))
       [el (s_limits (Len (p 30)) Auto (Some (p 60)) None (s_size (Len (p 70)) (Len (p 10)) (s_margin (Len (p 2)) (Len (p 1)) (Len (p 3)) (Len (p 0)) block_style))) []]].
Definition screen_at (w h : Z) (f : bkw -> num) : display_t := mkDisp (NI 96) (NI w) (NI h) f.
Definition screen_2 := screen_at 1000 600 (fun k => match k with Thin => NI 2 | Medium => NI 6 | Thick => NI 10 end).
Definition screen_3 := screen_at 1500 900 (fun k => match k with Thin => NI 3 | Medium => NI 9 | Thick => NI 15 end).
Lemma px_on_grid z : on_grid (amount (PI z)).
Proof. exists (64 * z)%Z. cbn [amount]. apply Qc_is_canon. rewrite this_Z2Qc, this_qfrac. unfold Qeq, inject_Z. cbn [Qnum Qden]. lia. Qed.
Lemma px_zoomed z : zoomed_len (qfrac 3 2) screen_2 screen_3 (pxu (z * 2)) (pxu (z * 3)).
Proof.
  split; [discriminate|]. split; [discriminate|]. split; [apply px_on_grid|]. split; [apply px_on_grid|]. split; [|reflexivity]. cbn [exact_len u_kind amount pxu u_val]. apply Qc_is_canon.
  rewrite this_mul, !this_Z2Qc, this_qfrac. unfold Qeq, inject_Z, Qmult. cbn [Qnum Qden]. lia.
Qed.
Lemma px_zoomed_0 : zoomed_len (qfrac 3 2) screen_2 screen_3 zero_px zero_px.
Proof. exact (px_zoomed 0). Qed.
Ltac zoom_style :=
  unfold zoomed_style; cbn [s_margin s_size s_border s_padding s_offsets s_position s_limits block_style idsty st_display st_position st_direction st_width st_height st_min_width st_min_height st_max_width st_max_height
    st_margin_top st_margin_right st_margin_bottom st_margin_left st_padding_top st_padding_right st_padding_bottom st_padding_left st_border_top st_border_right st_border_bottom st_border_left st_top st_right st_bottom st_left st_float
    zoomed_auto zoomed_opt zoomed_border zoomed_offset whole_amount];
  repeat match goal with |- _ /\ _ => split end; try reflexivity; try exact I; try apply px_zoomed; try apply px_zoomed_0; eexists; reflexivity.
Ltac zoom_size := split; [exact I|]; split; [exact I|]; split; [reflexivity|]; split; [reflexivity|]; discriminate.
Ltac zoom_doc := apply zoomed_node; [zoom_style| |zoom_size|].
Example C144_example : (0 < qfrac 3 2)%Qc /\ boxed (zdoc 2) /\ boxed (zdoc 3) /\ history idsty (zdoc 2) /\ history idsty (zdoc 3) /\ zoomed_display (qfrac 3 2) screen_2 screen_3 /\ zoomed (qfrac 3 2) screen_2 screen_3 idsty (zdoc 2) (zdoc 3)
  /\ (exists n' m', layout idsty screen_2 true (zdoc 2) = (n', Ok tt) /\ layout idsty screen_3 true (zdoc 3) = (m', Ok tt)
      /\ tops n' = [0; 76]%Q /\ tops m' = [0; 114]%Q /\ lq (content_width (bx (kid 1 n'))) = Some 950%Q /\ lq (content_width (bx (kid 1 m'))) = Some 1425%Q).
Proof.
  split; [reflexivity|]. split; [solve_boxed|]. split; [solve_boxed|]. split; [apply history_new; solve_new|]. split; [apply history_new; solve_new|]. split.
  { split; [apply Qc_is_canon; reflexivity|]. split; [apply Qc_is_canon; reflexivity|]. intros []; apply Qc_is_canon; reflexivity. }
  split.
  { zoom_doc; [left; reflexivity|]. constructor; [|constructor; [|constructor]].
    - zoom_doc; [right; left; discriminate|constructor].
    - zoom_doc; [left; reflexivity|]. constructor; [|constructor]. zoom_doc; [right; left; discriminate|constructor]. }
  do 2 eexists. split; [vm_compute; reflexivity|]. split; [vm_compute; reflexivity|]. repeat (split; [vm_compute; reflexivity|]). vm_compute. reflexivity.
Qed.
(** Left and right exchanged; the first block is too wide, the second shifted from the left. *)
Definition mdoc (f : style -> style) : doc :=
  let e s := el (f s) in
  e (s_margin (Len (pxu 4)) (Len (pxu 5)) (Len (pxu 6)) (Len (pxu 7)) block_style)
    [e (s_size (Len (pctu 110)) (Len (pxu 20)) (s_margin (Len (pxu 9)) Auto (Len (pxu 8)) (Len (pxu 3)) block_style)) [];
     e (s_padding (pxu 3) (pxu 4) (pxu 5) (pxu 60) (s_offsets (OLen (pxu 2)) OAuto OAuto (OLen (pxu 11)) (s_position PRelative block_style)))
       [e (s_size (Len (pxu 70)) (Len (pxu 10)) (s_margin (Len (pxu 2)) Auto (Len (pxu 3)) (Len (pxu 1)) block_style)) []]].
Definition lefts_of (n : doc) : list Q := map (fun k => this (nval (content_left (bx k)))) (n_kids n).
Example C145_example : boxed (mdoc (fun s => s)) /\ boxed (mdoc mirror_style) /\ history idsty (mdoc (fun s => s)) /\ history idsty (mdoc mirror_style) /\ mirrored idsty (mdoc (fun s => s)) (mdoc mirror_style)
  /\ layout idsty screen false (mdoc (fun s => s)) = (out false (mdoc (fun s => s)), Ok tt) /\ layout idsty screen false (mdoc mirror_style) = (out false (mdoc mirror_style), Ok tt)
  /\ lefts_of (out false (mdoc (fun s => s))) = [3; 71]%Q /\ lefts_of (out false (mdoc mirror_style)) = [-6515 # 64; -7]%Q
  /\ lefts_of (kid 1 (out false (mdoc (fun s => s)))) = [1]%Q /\ lefts_of (kid 1 (out false (mdoc mirror_style))) = [853]%Q.
Proof.
  split; [solve_boxed|]. split; [solve_boxed|]. split; [apply history_new; solve_new|]. split; [apply history_new; solve_new|]. split.
  { unfold mdoc, el. apply mirrored_node; [reflexivity|intros H; discriminate|right; reflexivity|left; reflexivity|reflexivity|]. constructor; [|constructor; [|constructor]].
    - apply mirrored_node; [reflexivity|intros H; discriminate|right; reflexivity|right; left; discriminate|reflexivity|constructor].
    - apply mirrored_node; [reflexivity|intros _; split; [right; reflexivity|split; discriminate]|right; reflexivity|left; reflexivity|reflexivity|]. constructor; [|constructor].
      apply mirrored_node; [reflexivity|intros H; discriminate|right; reflexivity|right; left; discriminate|reflexivity|constructor]. }
  split; [apply ok_layout; vm_compute; reflexivity|]. split; [apply ok_layout; vm_compute; reflexivity|]. repeat (split; [vm_compute; reflexivity|]). vm_compute. reflexivity.
Qed.
