(** * Replacing lengths by the pixels they convert to does not change the layout *)
From Coq Require Import ZArith QArith Qcanon Qabs Qround Lqa Lia Bool List.
From Verif Require Import PyNum NumFacts Float64 Units UnitsSpec UnitsFacts FloatUnits BoxModel BoxSpec BoxFacts Engine EngineSpec EngineInv EngineArith EngineArithFacts PixelSpec.
Import ListNotations.
Open Scope Z_scope.

(** ** Pixel lengths *)
Lemma pixels_exact c x : exact_px c (pixels x) (nval x).
Proof. unfold pixels. apply exact_pixel. destruct x; constructor. Qed.
Lemma px_pixels_ok c x : exists y, px c (pixels x) = Ok y.
Proof. eexists. apply px_exact, pixels_exact. Qed.
Lemma px_pixels c k : px c (pixels (lu_to_px k)) = Ok (lu_to_px k).
Proof.
  rewrite (px_exact _ _ _ (pixels_exact c _)), lu_to_px_val. do 2 f_equal.
  assert (E : (this (Z2Qc 64 * qfrac k 64)%Qc == inject_Z k)%Q).
  { rewrite this_mul, this_Z2Qc, this_qfrac. unfold Qeq, inject_Z, Qmult. cbn [Qnum Qden]. rewrite Pos.mul_1_l. lia. }
  rewrite (rhe_comp _ _ E). apply rhe_Z.
Qed.
Lemma in_px_pixels P c u : exists x, in_px P c u = pixels x.
Proof. unfold in_px. destruct (P c u) as [x|e]; eexists; reflexivity. Qed.

(** ** Success of one run gives the same success of another *)
Definition rr {X} (r1 r2 : res X) : Prop := forall a, r1 = Ok a -> r2 = Ok a.
Lemma rr_refl {X} (r : res X) : rr r r.
Proof. intros a H. exact H. Qed.
Lemma rr_err {X} e (r : res X) : rr (Err e) r.
Proof. intros a H. discriminate. Qed.
Lemma rr_bind {X Y} (r1 r2 : res X) (f1 f2 : X -> res Y) : rr r1 r2 -> (forall a, rr (f1 a) (f2 a)) -> rr (bindr r1 f1) (bindr r2 f2).
Proof. intros H F b E. destruct r1 as [a|e]; [|discriminate]. rewrite (H a eq_refl). exact (F a b E). Qed.
Definition rb {X} (m1 m2 : BM X) : Prop := forall b b' a, m1 b = (b', Ok a) -> m2 b = (b', Ok a).
Lemma rb_refl {X} (m : BM X) : rb m m.
Proof. intros b b' a H. exact H. Qed.
Lemma rb_fail {X} e (m : BM X) : rb (bfail e) m.
Proof. intros b b' a H. discriminate. Qed.
Lemma rb_bind {X Y} (m1 m2 : BM X) (f1 f2 : X -> BM Y) : rb m1 m2 -> (forall a, rb (f1 a) (f2 a)) -> rb (bbind m1 f1) (bbind m2 f2).
Proof.
  intros H F b b' a E. unfold bbind in *. destruct (m1 b) as [b1 [x|e]] eqn:E1; [|discriminate].
  rewrite (H b b1 x E1). exact (F x b1 b' a E).
Qed.
Lemma rb_lift {X} (r1 r2 : res X) : rr r1 r2 -> rb (blift r1) (blift r2).
Proof. intros H b b' a E. unfold blift in *. injection E as <- E. rewrite (H a E). reflexivity. Qed.
Lemma rb_if {X} (c : bool) (m1 m2 k1 k2 : BM X) : rb m1 m2 -> rb k1 k2 -> rb (if c then m1 else k1) (if c then m2 else k2).
Proof. destruct c; auto. Qed.

(** [A] only raises where exact arithmetic differs; its conversions are those of [P]. *)
Record sub_exact (A : arith) (P : conversion) : Prop := mkSubExact {
  se_add : forall x y r, a_add A x y = Ok r -> r = nadd x y;
  se_sub : forall x y r, a_sub A x y = Ok r -> r = nsub x y;
  se_mul : forall x y r, a_mul A x y = Ok r -> r = nmul x y;
  se_half : forall x r, a_half A x = Ok r -> r = nhalf x;
  se_px : forall c u x, a_px A c u = Ok x -> P c u = Ok x /\ exists k, x = lu_to_px k;
  se_zero : forall c u, u_eq_int u 0 = true -> P c u = Ok (NI 0) \/ exists e, P c u = Err e }.

Section Res.
Variables (A : arith) (P : conversion).
Hypothesis SE : sub_exact A P.
Notation E := exact_arith.
Lemma r_add x y : rr (a_add A x y) (a_add E x y).
Proof. intros r H. rewrite (se_add _ _ SE _ _ _ H). reflexivity. Qed.
Lemma r_sub x y : rr (a_sub A x y) (a_sub E x y).
Proof. intros r H. rewrite (se_sub _ _ SE _ _ _ H). reflexivity. Qed.
Lemma r_mul x y : rr (a_mul A x y) (a_mul E x y).
Proof. intros r H. rewrite (se_mul _ _ SE _ _ _ H). reflexivity. Qed.
Lemma r_half x : rr (a_half A x) (a_half E x).
Proof. intros r H. rewrite (se_half _ _ SE _ _ H). reflexivity. Qed.
Lemma r_px c c' u : rr (a_px A c u) (a_px E c' (in_px P c u)).
Proof.
  intros x H. destruct (se_px _ _ SE _ _ _ H) as (Hp & k & ->). unfold in_px. rewrite Hp. apply px_pixels.
Qed.
Lemma px_in_px_ok c c' u : exists y, px c' (in_px P c u) = Ok y.
Proof. destruct (in_px_pixels P c u) as [x ->]. apply px_pixels_ok. Qed.
Lemma r_sum ys : forall x, rr (a_sum A x ys) (a_sum E x ys).
Proof. induction ys as [|y ys IH]; intros x; [apply rr_refl|]. cbn [a_sum]. apply rr_bind; [apply r_add|exact IH]. Qed.
Lemma r_diff ys : forall x, rr (a_diff A x ys) (a_diff E x ys).
Proof. induction ys as [|y ys IH]; intros x; [apply rr_refl|]. cbn [a_diff]. apply rr_bind; [apply r_sub|exact IH]. Qed.
Lemma u_eq_pixels x : u_eq_int (pixels x) 0 = neqb x (NI 0).
Proof.
  unfold u_eq_int, pixels. cbn [u_kind u_val]. destruct x as [z|q]; cbn [py_of_num].
  - unfold py_num_eqb. cbn. unfold neqb. cbn. destruct (Z.eqb_spec z 0) as [->|N].
    + reflexivity.
    + symmetry. destruct (qc_eqb_spec (Z2Qc z) (Z2Qc 0)) as [H|H]; [|reflexivity]. exfalso. apply N. apply Z2Qc_inj. exact H.
  - reflexivity.
Qed.
Lemma r_calc_len c c' u : rr (calc_lenA A c u) (calc_lenA E c' (in_px P c u)).
Proof.
  intros x H. unfold calc_lenA in *. destruct (u_eq_int u 0) eqn:Z.
  - apply Ok_inj in H. subst x. unfold in_px. destruct (se_zero _ _ SE c u Z) as [-> |[e ->]]; rewrite u_eq_pixels; reflexivity.
  - destruct (se_px _ _ SE _ _ _ H) as (Hp & k & Hk). rewrite (r_px c c' u x H).
    unfold in_px. rewrite Hp, u_eq_pixels. destruct (neqb_spec x (NI 0)) as [V|V]; [|reflexivity].
    f_equal. subst x. rewrite lu_to_px_val in V. assert (k = 0) as ->; [|reflexivity].
    apply (f_equal this) in V. cbn [nval] in V. assert (Q : (this (qfrac k 64) == 0)%Q) by (rewrite V; reflexivity).
    rewrite this_qfrac in Q. unfold Qeq in Q. cbn in Q. lia.
Qed.
Lemma r_calc_margin c v : rr (calc_marginA A c v) (calc_marginA E c (in_lenauto P c v)).
Proof. destruct v as [|u]; cbn [calc_marginA in_lenauto]; [apply rr_refl|]. apply rr_bind; [apply r_calc_len|intros a; apply rr_refl]. Qed.
Lemma r_calc_border c v : rr (calc_borderA A c v) (calc_borderA E c (in_border P c v)).
Proof. destruct v as [k|u]; cbn [calc_borderA in_border]; [apply rr_refl|]. apply r_calc_len. Qed.

Ltac rstep := first [apply rb_refl | apply rb_lift; first [apply rr_refl | apply r_sum | apply r_diff | apply r_add | apply r_half | apply r_mul | apply r_px | apply r_calc_margin | apply r_calc_border | apply r_calc_len]].
Ltac rgo := repeat (apply rb_bind; [rstep|intros ?]); try rstep.
Section Style.
Variables (hz vt hh : ctx).
Notation pxs s := (style_in_px P hz vt hh s).
Lemma r_copy_edges s : rb (copy_edgesA A s hz vt) (copy_edgesA E (pxs s) hz vt).
Proof.
  unfold copy_edgesA. cbn [style_in_px st_margin_top st_margin_right st_margin_bottom st_margin_left st_border_top st_border_right st_border_bottom st_border_left st_padding_top st_padding_right st_padding_bottom st_padding_left].
  repeat (apply rb_bind; [apply rb_bind; [rstep|intros ?; apply rb_refl]|intros ?]). apply rb_bind; [rstep|intros ?; apply rb_refl].
Qed.
Lemma r_left_edge : rb (left_edgeA A) (left_edgeA E).
Proof. unfold left_edgeA. rgo. Qed.
Lemma r_top_edge : rb (top_edgeA A) (top_edgeA E).
Proof. unfold top_edgeA. rgo. Qed.
Lemma r_avail c : rb (avail_widthA A c) (avail_widthA E c).
Proof. unfold avail_widthA. rgo. Qed.
Lemma r_solve_right cw c : rb (solve_rightA A cw c) (solve_rightA E cw c).
Proof. unfold solve_rightA. rgo. Qed.
Lemma r_solve_left cw c : rb (solve_leftA A cw c) (solve_leftA E cw c).
Proof. unfold solve_leftA. rgo. Qed.
Lemma r_split cw c : rb (split_marginsA A cw c) (split_marginsA E cw c).
Proof. unfold split_marginsA. rgo. Qed.
Lemma r_add_unless acc f : rb (add_unless_autoA A acc f) (add_unless_autoA E acc f).
Proof.
  intros b b' a H. unfold add_unless_autoA in *. destruct is_auto; [exact H|]. injection H as <- H.
  f_equal. revert H. apply rr_bind; [apply rr_refl|]. intros m. apply r_add.
Qed.
Lemma r_drop cw c : rb (drop_auto_marginsA A cw c) (drop_auto_marginsA E cw c).
Proof. unfold drop_auto_marginsA. rgo. apply rb_bind; [apply r_add_unless|intros ?]. apply rb_bind; [apply r_add_unless|intros ?]. rgo. Qed.
Lemma r_clamped s u : rr (clamped_widthA A s u hz) (clamped_widthA E (pxs s) (in_px P hz u) hz).
Proof.
  unfold clamped_widthA. cbn [style_in_px st_max_width st_min_width]. apply rr_bind; [apply r_px|intros w]. apply rr_bind.
  - destruct (st_max_width s) as [m|]; cbn [in_option option_map]; [|apply rr_refl]. apply rr_bind; [apply r_px|intros ?; apply rr_refl].
  - intros w1. destruct (st_min_width s) as [|m]; cbn [in_lenauto]; [apply rr_refl|]. apply rr_bind; [apply r_px|intros ?; apply rr_refl].
Qed.
Lemma r_block_width s : rb (block_non_replaced_widthA A s hz) (block_non_replaced_widthA E (pxs s) hz).
Proof.
  unfold block_non_replaced_widthA. cbn [style_in_px st_width st_direction]. apply rb_bind.
  - destruct (st_width s) as [|u]; cbn [in_lenauto]; [apply rb_refl|]. apply rb_bind; [apply rb_lift, r_clamped|intros cw].
    apply rb_bind; [apply r_drop|intros ?; apply rb_refl].
  - intros ocw. apply rb_bind; [apply rb_refl|intros la]. apply rb_bind; [apply rb_refl|intros ra]. apply rb_bind.
    + destruct ocw as [cw|], la, ra; try (apply rb_bind; [|intros ?; apply rb_refl]).
      * apply r_split.
      * apply r_solve_left.
      * apply r_solve_right.
      * destruct (st_direction s); [apply r_solve_right|apply r_solve_left].
      * apply rb_bind; [apply rb_refl|intros ?]. apply rb_bind; [apply rb_refl|intros ?]. apply r_avail.
      * apply rb_bind; [apply rb_refl|intros ?]. apply rb_bind; [apply rb_refl|intros ?]. apply r_avail.
      * apply rb_bind; [apply rb_refl|intros ?]. apply rb_bind; [apply rb_refl|intros ?]. apply r_avail.
      * apply r_avail.
    + intros cw. apply rb_bind; [apply rb_refl|intros ?]. apply rb_bind; [apply r_left_edge|intros ?; apply rb_refl].
Qed.
Lemma r_replaced_width s i : rb (inline_replaced_widthA A s i hz) (inline_replaced_widthA E (pxs s) i hz).
Proof.
  unfold inline_replaced_widthA. cbn [style_in_px st_width st_height].
  apply rb_bind; [apply rb_refl|intros ?]. apply rb_bind; [apply rb_refl|intros ?]. apply rb_bind.
  - destruct (st_width s) as [|u]; cbn [in_lenauto]; [|rgo].
    destruct (st_height s) as [|u]; cbn [in_lenauto]; destruct (BoxModel.s_width i), (BoxModel.s_height i), (s_ratio i); try apply rb_refl; try apply r_avail; rgo.
  - intros cw. apply rb_bind; [apply rb_refl|intros ?]. apply rb_bind; [apply r_left_edge|intros ?; apply rb_refl].
Qed.
Lemma r_width s i : rb (calculate_widthA A s i hz) (calculate_widthA E (pxs s) i hz).
Proof.
  unfold calculate_widthA. change (is_float (pxs s)) with (is_float s). change (is_abspos (pxs s)) with (is_abspos s).
  change (is_inline (pxs s)) with (is_inline s). change (is_block_level (pxs s)) with (is_block_level s). change (is_inline_block (pxs s)) with (is_inline_block s).
  repeat first [apply rb_if | apply rb_refl | apply r_replaced_width | apply r_block_width].
Qed.
Lemma r_half150 : rb (half_width_heightA A) (half_width_heightA E).
Proof. unfold half_width_heightA. rgo. Qed.
Lemma r_replaced_height s i : is_block_level s = false -> hh = vt -> rb (inline_replaced_heightA A s i vt) (inline_replaced_heightA E (pxs s) i vt).
Proof.
  intros _ Hh. unfold inline_replaced_heightA. cbn [style_in_px st_width st_height].
  apply rb_bind; [apply rb_refl|intros ?]. apply rb_bind; [apply rb_refl|intros ?]. apply rb_bind.
  - destruct (st_height s) as [|u]; cbn [in_lenauto]; [|rewrite Hh; rgo].
    assert (R : rb (match s_ratio i with
                | Some r => if truthy (s_ratio i) then bbind (bnum content_width) (fun w => blift (a_mul A w r))
                    else match BoxModel.s_height i with Some h => if truthy (BoxModel.s_height i) then bret h else half_width_heightA A | None => half_width_heightA A end
                | None => match BoxModel.s_height i with Some h => if truthy (BoxModel.s_height i) then bret h else half_width_heightA A | None => half_width_heightA A end
                end)
               (match s_ratio i with
                | Some r => if truthy (s_ratio i) then bbind (bnum content_width) (fun w => blift (a_mul E w r))
                    else match BoxModel.s_height i with Some h => if truthy (BoxModel.s_height i) then bret h else half_width_heightA E | None => half_width_heightA E end
                | None => match BoxModel.s_height i with Some h => if truthy (BoxModel.s_height i) then bret h else half_width_heightA E | None => half_width_heightA E end
                end)).
    { destruct (s_ratio i) as [r|], (BoxModel.s_height i) as [h|]; repeat first [apply rb_if | apply r_half150 | apply rb_refl]; rgo. }
    destruct (st_width s), (BoxModel.s_height i); cbn [in_lenauto]; first [apply rb_refl | exact R].
  - intros ch. apply rb_bind; [apply rb_refl|intros ?]. apply r_top_edge.
Qed.
Lemma r_bbb b : rr (border_box_bottomA A b) (border_box_bottomA E b).
Proof. unfold border_box_bottomA. apply rr_bind; [apply rr_refl|intros ?]. apply r_sum. Qed.
Lemma r_bbh b : rr (border_box_heightA A b) (border_box_heightA E b).
Proof. unfold border_box_heightA. apply rr_bind; [apply rr_refl|intros ?]. apply r_sum. Qed.
End Style.
(** ** Heights *)
Lemma r_block_content_height hz vt hh s ph c0 last :
  (ph = None -> hh = vt) -> (forall pu p, ph = Some pu -> P vt pu = Ok p -> hh = mkCtx (c_disp vt) (c_font vt) (LNum p)) ->
  rb (block_content_heightA A s ph last vt)
     (block_content_heightA E (style_in_px P hz vt hh s) (option_map (in_px P c0) ph) last vt).
Proof.
  intros H0 H1. unfold block_content_heightA. cbn [style_in_px st_height st_min_height st_max_height].
  destruct (st_height s) as [|u]; cbn [in_lenauto].
  - destruct last as [[lb|]|]; [|apply rb_refl|].
    + apply rb_bind; [apply rb_lift, r_bbb|intros h]. apply rb_refl.
    + destruct (st_min_height s) as [|mu]; cbn [in_lenauto]; [apply rb_refl|apply rb_lift, r_px].
  - apply rb_bind.
    + destruct ph as [pu|]; cbn [option_map].
      * intros b b' a Hr. unfold bbind, blift in *.
        destruct (a_px A vt pu) as [p|e] eqn:Hp; [|discriminate].
        destruct (se_px _ _ SE _ _ _ Hp) as (HP & _).
        destruct (px_in_px_ok c0 vt pu) as [y Hy]. change (a_px E vt (in_px P c0 pu)) with (px vt (in_px P c0 pu)). rewrite Hy.
        injection Hr as <- Hr. rewrite (H1 pu p eq_refl HP).
        rewrite (r_px _ (mkCtx (c_disp vt) (c_font vt) (LNum y)) _ _ Hr). reflexivity.
      * rewrite (H0 eq_refl). apply rb_lift, r_px.
    + intros h. destruct (st_max_height s) as [m|]; cbn [in_option option_map]; [|apply rb_refl].
      apply rb_bind; [apply rb_lift, r_px|intros ?; apply rb_refl].
Qed.
Lemma r_height d w h s i ph c0 last :
  rb (calculate_heightA A s i ph last (mkCtx d dummy_font h))
     (calculate_heightA E (style_in_px P (mkCtx d dummy_font w) (mkCtx d dummy_font h) (mkCtx d dummy_font (height_base P d ph h s)) s) i
        (option_map (in_px P c0) ph) last (mkCtx d dummy_font h)).
Proof.
  remember (mkCtx d dummy_font w) as hz eqn:Hz. remember (mkCtx d dummy_font (height_base P d ph h s)) as hh eqn:Hh.
  remember (mkCtx d dummy_font h) as vt eqn:Hv.
  unfold calculate_heightA. set (s' := style_in_px P hz vt hh s).
  change (is_float s') with (is_float s). change (is_abspos s') with (is_abspos s). change (is_inline s') with (is_inline s).
  change (is_block_level s') with (is_block_level s). change (is_inline_block s') with (is_inline_block s).
  apply rb_if; [apply rb_refl|]. apply rb_if; [apply rb_refl|]. destruct (is_inline s) eqn:I.
  - apply rb_if.
    + assert (B : is_block_level s = false). { unfold is_inline in I. unfold is_block_level. destruct (st_display s) as [[]|]; try discriminate; reflexivity. }
      apply r_replaced_height; [exact B|]. rewrite Hh, Hv. unfold height_base. rewrite B. reflexivity.
    + unfold inline_non_replaced_heightA. apply rb_bind; [apply rb_refl|intros ?; apply r_top_edge].
  - destruct (is_block_level s) eqn:B; [|apply rb_refl]. apply rb_if; [apply rb_refl|].
    unfold block_non_replaced_heightA. apply rb_bind; [apply rb_refl|intros ?]. apply rb_bind; [apply rb_refl|intros ?]. apply rb_bind.
    + apply r_block_content_height; rewrite Hh, Hv; unfold height_base; rewrite B.
      * intros ->. reflexivity.
      * intros pu p -> HP. rewrite HP. reflexivity.
    + intros x. rgo.
Qed.
Lemma r_rel c st en cs1 cs2 ce1 ce2 : rr cs1 cs2 -> rr ce1 ce2 -> rr (rel_offsetA A c st en cs1 ce1) (rel_offsetA E c (in_offset P c st) (in_offset P c en) cs2 ce2).
Proof.
  intros X Y. destruct st, en; cbn [rel_offsetA in_offset]; try apply rr_refl; try apply r_px; try exact X.
  - apply rr_bind; [exact Y|intros ?; apply rr_refl].
  - apply rr_bind; [apply r_px|intros ?; apply rr_refl].
Qed.

(** ** Trees *)
(** The styles and the content sizes of a tree. *)
Definition box_size (b : option box) : lval * lval := match b with Some b => (content_width b, content_height b) | None => (LNone, LNone) end.
Fixpoint sizes {X} (n : node X) : node (X * (lval * lval)) :=
  let 'Node s _ b ks := n in Node (s, box_size b) size0 None (map sizes ks).
Lemma forget_box {X Y} (n : node X) (m : node Y) : forget n = forget m -> n_box n = n_box m.
Proof. destruct n, m. intros H. injection H. auto. Qed.
Lemma forget_intr {X Y} (n : node X) (m : node Y) : forget n = forget m -> n_intr n = n_intr m.
Proof. destruct n, m. intros H. injection H. auto. Qed.
Lemma forget_kids {X Y} (n : node X) (m : node Y) : forget n = forget m -> map forget (n_kids n) = map forget (n_kids m).
Proof. destruct n, m. intros H. injection H. auto. Qed.
Lemma forget_origin_top {X} (n : node X) : forall v, forget (set_origin_top v n) = set_origin_top v (forget n).
Proof.
  induction n as [s i bx ks IH] using node_ind'. intros v. destruct bx as [b|]; [|reflexivity]. cbn [set_origin_top forget].
  destruct neqb; [reflexivity|]. cbn [forget]. rewrite !map_map. f_equal. apply map_ext_in. intros k K. apply IH, K.
Qed.
Lemma forget_origin_left {X} (n : node X) : forall v, forget (set_origin_left v n) = set_origin_left v (forget n).
Proof.
  induction n as [s i bx ks IH] using node_ind'. intros v. destruct bx as [b|]; [|reflexivity]. cbn [set_origin_left forget].
  destruct neqb; [reflexivity|]. cbn [forget]. rewrite !map_map. f_equal. apply map_ext_in. intros k K. apply IH, K.
Qed.
Lemma forget_content_top {X} v (n : node X) : forget (set_content_top v n) = set_content_top v (forget n).
Proof.
  destruct n as [s i [b|] ks]; [|reflexivity]. cbn [set_content_top forget].
  destruct neqb; [reflexivity|]. cbn [forget]. rewrite !map_map. f_equal. apply map_ext. intros k. apply forget_origin_top.
Qed.
Lemma forget_content_left {X} v (n : node X) : forget (set_content_left v n) = set_content_left v (forget n).
Proof.
  destruct n as [s i [b|] ks]; [|reflexivity]. cbn [set_content_left forget].
  destruct neqb; [reflexivity|]. cbn [forget]. rewrite !map_map. f_equal. apply map_ext. intros k. apply forget_origin_left.
Qed.
Lemma forget_reset_self {X} (n : node X) : forget (reset_self n) = reset_self (forget n).
Proof.
  destruct n as [s i bx ks]. cbn [reset_self forget]. rewrite !map_map. f_equal. apply map_ext. intros k.
  rewrite forget_origin_left, forget_origin_top. reflexivity.
Qed.
Lemma forget_reset {X} (n : node X) : forget (reset n) = reset (forget n).
Proof.
  induction n as [s i bx ks IH] using node_ind'. destruct bx as [b|]; [|reflexivity]. cbn [reset forget]. rewrite !map_map. f_equal.
  apply map_ext_in. intros k K. apply IH, K.
Qed.
Lemma forget_height {X} (n : node X) : height (forget n) = height n.
Proof.
  induction n as [s i bx ks IH] using node_ind'. cbn [height forget]. rewrite map_map. do 2 f_equal. apply map_ext_in. exact IH.
Qed.
Lemma forget_last {X Y} (n : node X) (m : node Y) : forget n = forget m -> last_layout n = last_layout m.
Proof.
  intros H. apply forget_kids in H. unfold last_layout. apply (f_equal (@rev _)) in H. rewrite <- !map_rev in H.
  destruct (rev (n_kids n)) as [|k l], (rev (n_kids m)) as [|k' l']; try discriminate; [reflexivity|]. injection H as H _.
  rewrite (forget_box _ _ H). reflexivity.
Qed.
Lemma sizes_origin_top {X} (n : node X) : forall v, sizes (set_origin_top v n) = sizes n.
Proof.
  induction n as [s i bx ks IH] using node_ind'. intros v. destruct bx as [b|]; [|reflexivity]. cbn [set_origin_top].
  destruct neqb; [reflexivity|]. cbn [sizes]. rewrite !map_map. f_equal; [destruct b; reflexivity|]. apply map_ext_in. intros k K. apply IH, K.
Qed.
Lemma sizes_content_top {X} v (n : node X) : sizes (set_content_top v n) = sizes n.
Proof.
  destruct n as [s i [b|] ks]; [|reflexivity]. cbn [set_content_top].
  destruct neqb; [reflexivity|]. cbn [sizes]. rewrite !map_map. f_equal; [destruct b; reflexivity|]. apply map_ext. intros k. apply sizes_origin_top.
Qed.
Lemma sizes_origin_left {X} (n : node X) : forall v, sizes (set_origin_left v n) = sizes n.
Proof.
  induction n as [s i bx ks IH] using node_ind'. intros v. destruct bx as [b|]; [|reflexivity]. cbn [set_origin_left].
  destruct neqb; [reflexivity|]. cbn [sizes]. rewrite !map_map. f_equal; [destruct b; reflexivity|]. apply map_ext_in. intros k K. apply IH, K.
Qed.
Lemma sizes_content_left {X} v (n : node X) : sizes (set_content_left v n) = sizes n.
Proof.
  destruct n as [s i [b|] ks]; [|reflexivity]. cbn [set_content_left].
  destruct neqb; [reflexivity|]. cbn [sizes]. rewrite !map_map. f_equal; [destruct b; reflexivity|]. apply map_ext. intros k. apply sizes_origin_left.
Qed.
Lemma sizes_box {X} (n n' : node X) : sizes n = sizes n' -> box_size (n_box n) = box_size (n_box n').
Proof. destruct n, n'. intros H. injection H. auto. Qed.
Lemma sizes_style {X} (n n' : node X) : sizes n = sizes n' -> n_style n = n_style n'.
Proof. destruct n, n'. intros H. injection H. auto. Qed.
Lemma kids_sizes {X} (n n' : node X) : sizes n = sizes n' -> map sizes (n_kids n) = map sizes (n_kids n').
Proof. destruct n, n'. intros H. injection H. auto. Qed.
(** What an assignment over [A] that succeeds does is what exact arithmetic does. *)
Lemma rmap_inv {X} (f : X -> res X) (g : X -> X) l : forall l', (forall x y, In x l -> f x = Ok y -> y = g x) -> rmap f l = Ok l' -> l' = map g l.
Proof.
  induction l as [|x l IH]; intros l' F H; [apply Ok_inj in H; subst; reflexivity|].
  change (rmap f (x :: l)) with (y <-r f x ;; r <-r rmap f l ;; Ok (y :: r)) in H.
  destruct (f x) as [y|e] eqn:Fx; [|discriminate]. cbn [bindr] in H. destruct (rmap f l) as [r|e] eqn:R; [|discriminate].
  cbn [bindr] in H. apply Ok_inj in H. subst l'. cbn [map]. f_equal; [apply F; [left; reflexivity|exact Fx]|].
  apply IH; [|reflexivity]. intros z w I. apply F. right. exact I.
Qed.
Lemma i_origin_top {X} (n : node X) : forall v n', set_origin_topA A v n = Ok n' -> n' = set_origin_top v n.
Proof.
  induction n as [s i bx ks IH] using node_ind'; intros v n'. destruct bx as [b|]; cbn [set_origin_topA set_origin_top]; [|intros H; apply Ok_inj in H; auto].
  destruct neqb; [intros H; apply Ok_inj in H; auto|]. destruct rmap as [ks'|e] eqn:R; [|discriminate]. cbn [bindr]. intros H. apply Ok_inj in H. subst n'. f_equal.
  revert R. apply rmap_inv. intros k y K. destruct k as [s' i' [b'|] ks''] eqn:Ek; cbn [n_box]; [|intros H; apply Ok_inj in H; subst; reflexivity].
  rewrite <- Ek in *. destruct (a_add A v (content_top b)) as [w|e] eqn:W; [|discriminate]. cbn [bindr]. intros H.
  rewrite (IH k K _ _ H), (se_add _ _ SE _ _ _ W). destruct b; reflexivity.
Qed.
Lemma i_origin_left {X} (n : node X) : forall v n', set_origin_leftA A v n = Ok n' -> n' = set_origin_left v n.
Proof.
  induction n as [s i bx ks IH] using node_ind'; intros v n'. destruct bx as [b|]; cbn [set_origin_leftA set_origin_left]; [|intros H; apply Ok_inj in H; auto].
  destruct neqb; [intros H; apply Ok_inj in H; auto|]. destruct rmap as [ks'|e] eqn:R; [|discriminate]. cbn [bindr]. intros H. apply Ok_inj in H. subst n'. f_equal.
  revert R. apply rmap_inv. intros k y K. destruct k as [s' i' [b'|] ks''] eqn:Ek; cbn [n_box]; [|intros H; apply Ok_inj in H; subst; reflexivity].
  rewrite <- Ek in *. destruct (a_add A v (content_left b)) as [w|e] eqn:W; [|discriminate]. cbn [bindr]. intros H.
  rewrite (IH k K _ _ H), (se_add _ _ SE _ _ _ W). destruct b; reflexivity.
Qed.
Lemma i_content_top {X} v (n : node X) n' : set_content_topA A v n = Ok n' -> n' = set_content_top v n.
Proof.
  destruct n as [s i [b|] ks]; cbn [set_content_topA set_content_top]; [|intros H; apply Ok_inj in H; auto].
  destruct neqb; [intros H; apply Ok_inj in H; auto|]. destruct rmap as [ks'|e] eqn:R; [|discriminate]. cbn [bindr]. intros H. apply Ok_inj in H. subst n'. f_equal.
  revert R. apply rmap_inv. intros k y K. destruct k as [s' i' [b'|] ks''] eqn:Ek; cbn [n_box]; [|intros H; apply Ok_inj in H; subst; reflexivity].
  rewrite <- Ek in *. destruct (a_add A (origin_top b) v) as [w|e] eqn:W; [|discriminate]. cbn [bindr]. intros H.
  rewrite (i_origin_top k _ _ H), (se_add _ _ SE _ _ _ W). destruct b; reflexivity.
Qed.
Lemma i_content_left {X} v (n : node X) n' : set_content_leftA A v n = Ok n' -> n' = set_content_left v n.
Proof.
  destruct n as [s i [b|] ks]; cbn [set_content_leftA set_content_left]; [|intros H; apply Ok_inj in H; auto].
  destruct neqb; [intros H; apply Ok_inj in H; auto|]. destruct rmap as [ks'|e] eqn:R; [|discriminate]. cbn [bindr]. intros H. apply Ok_inj in H. subst n'. f_equal.
  revert R. apply rmap_inv. intros k y K. destruct k as [s' i' [b'|] ks''] eqn:Ek; cbn [n_box]; [|intros H; apply Ok_inj in H; subst; reflexivity].
  rewrite <- Ek in *. destruct (a_add A (origin_left b) v) as [w|e] eqn:W; [|discriminate]. cbn [bindr]. intros H.
  rewrite (i_origin_left k _ _ H), (se_add _ _ SE _ _ _ W). destruct b; reflexivity.
Qed.
Lemma i_reset_self {X} (n : node X) n' : reset_selfA A n = Ok n' -> n' = reset_self n.
Proof.
  destruct n as [s i bx ks]. cbn [reset_selfA reset_self]. destruct rmap as [ks'|e] eqn:R; [|discriminate]. cbn [bindr]. intros H. apply Ok_inj in H. subst n'. f_equal.
  revert R. apply rmap_inv. intros k y K. destruct k as [s' i' [b'|] ks''] eqn:Ek; cbn [n_box]; [|intros H; apply Ok_inj in H; subst; reflexivity].
  rewrite <- Ek in *. destruct (a_add A n0 n0) as [w|e] eqn:W; [|discriminate]. cbn [bindr].
  destruct (set_origin_topA A w k) as [k1|e] eqn:K1; [|discriminate]. cbn [bindr]. intros H.
  apply (se_add _ _ SE) in W. subst w. apply i_origin_top in K1. apply i_origin_left in H. subst. reflexivity.
Qed.
Lemma i_ensure {X} (n : node X) n' : ensure_boxA A n = Ok n' -> n' = ensure_box n.
Proof. unfold ensure_boxA, ensure_box. destruct (n_box n); [intros H; apply Ok_inj in H; auto|apply i_reset_self]. Qed.
Lemma forget_ensure {X} (n : node X) : forget (ensure_box n) = ensure_box (forget n).
Proof. unfold ensure_box. destruct n as [s i [b|] ks]; [reflexivity|]. apply forget_reset_self. Qed.

(** ** Documents in pixels *)
Context {S : Type} (sty : S -> style) (d : display_t).
Notation node := (node S).
Notation pnode := (BoxModel.node style).
Definition pst (w h : lval) (ph : option unit_) (s : style) : style :=
  style_in_px P (mkCtx d dummy_font w) (mkCtx d dummy_font h) (mkCtx d dummy_font (height_base P d ph h s)) s.
(** [in_pixels] in terms of the sizes that lengths refer to. *)
Inductive ip : lval -> lval -> option unit_ -> node -> node -> pnode -> Prop :=
| Ip : forall w h ph s i b ks out b' ks',
    all3 (ip (containing_width d (Some out)) (height_ref sty d (Some out)) (parent_height sty (Some out))) ks (n_kids out) ks' ->
    ip w h ph (Node s i b ks) out (Node (pst w h ph (sty s)) i b' ks').
Lemma ip_in_pixels (n : node) : forall op out T, ip (containing_width d op) (height_ref sty d op) (parent_height sty op) n out T -> in_pixels P d sty op n out T.
Proof.
  induction n as [s i bx ks IH] using node_ind'. intros op out T H. inversion H; subst. apply InPixels.
  match goal with X : all3 _ _ _ _ |- _ => revert X IH end. generalize (n_kids out). clear. intros os X. induction X as [|k o T ks os Ts Hr Hs IHs]; intros IH; constructor.
  - apply IH; [left; reflexivity|exact Hr].
  - apply IHs. intros k' K. apply IH. right. exact K.
Qed.
Lemma all3_ext (R R' : node -> node -> pnode -> Prop) ks ks' os os' Ts :
  (forall k k' o o' T, In k ks -> inputs k = inputs k' -> sizes o = sizes o' -> R k o T -> R' k' o' T) ->
  map inputs ks = map inputs ks' -> map sizes os = map sizes os' -> all3 R ks os Ts -> all3 R' ks' os' Ts.
Proof.
  intros H Ei Ew X. revert ks' os' Ei Ew H. induction X as [|k o T ks os Ts Hr Hs IH]; intros [|k' ks'] [|o' os'] Ei Ew H; try discriminate.
  - constructor.
  - cbn [map] in Ei, Ew. injection Ei as Ei1 Ei2. injection Ew as Ew1 Ew2. constructor.
    + eapply H; try eassumption. left. reflexivity.
    + apply IH; [assumption|assumption|]. intros. eapply H; try eassumption. right. assumption.
Qed.
Lemma inputs_inv s i b ks (n' : node) : inputs (Node s i b ks) = inputs n' -> exists b' ks', n' = Node s i b' ks' /\ map inputs ks = map inputs ks'.
Proof. destruct n' as [s' i' b' ks']. intros H. injection H as -> -> H. eauto. Qed.
Lemma sizes_containing (o o' : node) : sizes o = sizes o' -> containing_width d (Some o) = containing_width d (Some o').
Proof. intros H. apply sizes_box in H. cbn [containing_width]. destruct (n_box o), (n_box o'); cbn in H; congruence. Qed.
Lemma sizes_height_ref (o o' : node) : sizes o = sizes o' -> height_ref sty d (Some o) = height_ref sty d (Some o').
Proof.
  intros H. cbn [height_ref]. rewrite (sizes_style _ _ H). apply sizes_box in H. destruct (is_relative (sty (n_style o'))); [|reflexivity].
  destruct (is_block_level (sty (n_style o'))), (st_height (sty (n_style o'))), (n_box o), (n_box o'); cbn in H; congruence.
Qed.
Lemma sizes_parent_height (o o' : node) : sizes o = sizes o' -> parent_height sty (Some o) = parent_height sty (Some o').
Proof. intros H. cbn [parent_height]. rewrite (sizes_style _ _ H). reflexivity. Qed.
Lemma ip_ext (n : node) : forall w h ph n' out out' T, inputs n = inputs n' -> sizes out = sizes out' -> ip w h ph n out T -> ip w h ph n' out' T.
Proof.
  induction n as [s i bx ks IH] using node_ind'. intros w h ph n' out out' T Ei Ew H.
  apply inputs_inv in Ei. destruct Ei as (b' & ks' & -> & Ei). inversion H; subst. constructor.
  rewrite <- (sizes_containing _ _ Ew), <- (sizes_height_ref _ _ Ew), <- (sizes_parent_height _ _ Ew). eapply all3_ext; [|exact Ei|apply kids_sizes, Ew|eassumption].
  intros k k' o o' T K Ik Wk X. eapply IH; eassumption.
Qed.
Lemma ip_any (n : node) : forall w h ph, exists T, ip w h ph n n T.
Proof.
  induction n as [s i bx ks IH] using node_ind'. intros w h ph.
  assert (X : forall w h ph, exists Ts, all3 (ip w h ph) ks ks Ts).
  { clear w h ph. intros w h ph. induction ks as [|k ks IHk]; [eexists; constructor|].
    destruct (IH k (or_introl eq_refl) w h ph) as [T HT].
    destruct IHk as [Ts HTs]; [intros k' K; apply IH; right; exact K|]. exists (T :: Ts). constructor; assumption. }
  edestruct X as [Ts HTs]. eexists. apply (Ip w h ph s i bx ks _ None Ts). exact HTs.
Qed.
Lemma ip_hidden (n : node) w h ph : exists T, ip w h ph n (with_box None n) T.
Proof.
  destruct n as [s i bx ks].
  assert (X : forall w h ph, exists Ts, all3 (ip w h ph) ks ks Ts).
  { clear w h ph. intros w h ph. induction ks as [|k ks IHk]; [eexists; constructor|].
    destruct (ip_any k w h ph) as [T HT]. destruct IHk as [Ts HTs]. exists (T :: Ts). constructor; assumption. }
  edestruct X as [Ts HTs]. eexists. apply (Ip w h ph s i bx ks _ None Ts). exact HTs.
Qed.
Lemma ip_style (n : node) w h ph out (T : pnode) : ip w h ph n out T ->
  st_display (n_style T) = st_display (sty (n_style n)).
Proof. intros H. inversion H; subst. reflexivity. Qed.
(** The boxes of [T] can be chosen. *)
Lemma ip_dress (n : node) : forall w h ph out T, ip w h ph n out T -> exists m, ip w h ph n out m /\ inputs m = inputs T /\ forget m = forget n.
Proof.
  induction n as [s i bx ks IH] using node_ind'. intros w h ph out T H. inversion H; subst.
  assert (X : exists ms, all3 (ip (containing_width d (Some out)) (height_ref sty d (Some out)) (parent_height sty (Some out))) ks (n_kids out) ms
    /\ map inputs ms = map inputs ks' /\ map (@forget style) ms = map (@forget S) ks).
  { match goal with Y : all3 _ _ _ _ |- _ => revert Y IH end. generalize (n_kids out). clear. intros os Y.
    induction Y as [|k o T ks os Ts Hr Hs IHs]; intros IH; [exists []; repeat split; constructor|].
    destruct (IH k (or_introl eq_refl) _ _ _ _ _ Hr) as (m & A1 & A2 & A3). destruct IHs as (ms & B1 & B2 & B3); [intros k' K; apply IH; right; exact K|].
    exists (m :: ms). split; [constructor; assumption|]. cbn [map]. split; congruence. }
  destruct X as (ms & X1 & X2 & X3). exists (Node (pst w h ph (sty s)) i bx ms). split; [constructor; exact X1|].
  cbn [inputs forget]. rewrite X2, X3. split; reflexivity.
Qed.
Lemma inputs_sty {X} (n m : BoxModel.node X) : inputs n = inputs m -> n_style n = n_style m.
Proof. destruct n, m. intros H. injection H. auto. Qed.
Lemma blk_display s s' : st_display s = st_display s' -> is_block_level s = is_block_level s'.
Proof. unfold is_block_level. intros ->. reflexivity. Qed.
Notation self := (fun s : style => s).
(** [m2] does to every tree with style [s'] and the boxes of [n] what took [n] to [n']. *)
Definition step {X} (s' : style) (n n' : node) (x : X) (m2 : M (S := style) X) : Prop :=
  inputs n' = inputs n /\ forall m : pnode, n_style m = s' -> forget m = forget n ->
    exists m', m2 m = (m', Ok x) /\ forget m' = forget n' /\ inputs m' = inputs m.
Lemma step_bind {X Y} s' n n1 n2 (x : X) (y : Y) m2 f : step s' n n1 x m2 -> step s' n1 n2 y (f x) -> step s' n n2 y (mbind m2 f).
Proof.
  intros [I1 H1] [I2 H2]. split; [congruence|]. intros m Hs Hf. destruct (H1 m Hs Hf) as (m1 & E1 & F1 & J1).
  destruct (H2 m1) as (m2' & E2 & F2 & J2); [rewrite (inputs_sty _ _ J1); exact Hs|exact F1|].
  exists m2'. unfold mbind. rewrite E1. split; [exact E2|split; [exact F2|congruence]].
Qed.
Lemma mbind_inv {X Y} (m1 : M (S := S) X) (f : X -> M Y) n n' y : mbind m1 f n = (n', Ok y) -> exists n1 x, m1 n = (n1, Ok x) /\ f x n1 = (n', Ok y).
Proof. unfold mbind. destruct (m1 n) as [n1 [x|e]]; [eauto|discriminate]. Qed.
Lemma step_on_box {X} s' (b1 b2 : BM X) n n' x : rb b1 b2 -> on_box b1 n = (n', Ok x) -> step s' n n' x (on_box b2).
Proof.
  intros R H. destruct n as [s i [b|] ks]; [|discriminate]. cbn [on_box] in H. destruct (b1 b) as [b' r] eqn:B. injection H as <- ->.
  split; [reflexivity|]. intros [t j bx ls] Hs Hf. injection Hf as -> -> Hk. cbn [on_box]. rewrite (R _ _ _ B).
  eexists. split; [reflexivity|]. split; [cbn [forget]; rewrite Hk; reflexivity|reflexivity].
Qed.
Lemma step_lift {X} s' (r1 r2 : res X) n n' x : rr r1 r2 -> mlift r1 n = (n', Ok x) -> n' = n /\ step s' n n' x (mlift r2).
Proof.
  intros R H. unfold mlift in H. injection H as <- H. split; [reflexivity|]. split; [reflexivity|]. intros m Hs Hf. exists m. unfold mlift. rewrite (R _ H). auto.
Qed.
Lemma step_ret s' n : step s' n n tt (mret tt).
Proof. split; [reflexivity|]. intros m Hs Hf. exists m. auto. Qed.
Lemma step_add_top s' v n n' u : add_content_topA A v n = (n', Ok u) -> sizes n' = sizes n /\ step s' n n' u (add_content_top v).
Proof.
  intros H. unfold add_content_topA, mset in H. destruct (n_box n) as [b|] eqn:B; [|discriminate].
  destruct (a_add A (content_top b) v) as [w|e] eqn:W; [|discriminate]. cbn [bindr] in H. destruct (set_content_topA A w n) as [n2|e] eqn:C; [|discriminate].
  injection H as <- <-. apply (se_add _ _ SE) in W. subst w. apply i_content_top in C. subst n2.
  split; [apply sizes_content_top|]. split; [apply inputs_content_top|]. intros m Hs Hf. unfold add_content_top.
  rewrite (forget_box _ _ Hf), B. eexists. split; [reflexivity|]. split; [|apply inputs_content_top].
  rewrite !forget_content_top, Hf. reflexivity.
Qed.
Lemma step_add_left s' v n n' u : add_content_leftA A v n = (n', Ok u) -> sizes n' = sizes n /\ step s' n n' u (add_content_left v).
Proof.
  intros H. unfold add_content_leftA, mset in H. destruct (n_box n) as [b|] eqn:B; [|discriminate].
  destruct (a_add A (content_left b) v) as [w|e] eqn:W; [|discriminate]. cbn [bindr] in H. destruct (set_content_leftA A w n) as [n2|e] eqn:C; [|discriminate].
  injection H as <- <-. apply (se_add _ _ SE) in W. subst w. apply i_content_left in C. subst n2.
  split; [apply sizes_content_left|]. split; [apply inputs_content_left|]. intros m Hs Hf. unfold add_content_left.
  rewrite (forget_box _ _ Hf), B. eexists. split; [reflexivity|]. split; [|apply inputs_content_left].
  rewrite !forget_content_left, Hf. reflexivity.
Qed.
Lemma step_ensure s' n n' u : mset (ensure_boxA A) n = (n', Ok u) -> step s' n n' u (mmod ensure_box).
Proof.
  unfold mset. destruct (ensure_boxA A n) as [n2|e] eqn:H; [|discriminate]. intros X. injection X as <- <-. apply i_ensure in H. subst n2.
  split; [apply inputs_ensure|]. intros m Hs Hf. eexists. split; [reflexivity|]. split; [|apply inputs_ensure]. rewrite !forget_ensure, Hf. reflexivity.
Qed.
Lemma step_width vt hh w n n' u : calculate_width_and_marginsA A sty (mkCtx d dummy_font w) n = (n', Ok u) ->
  step (style_in_px P (mkCtx d dummy_font w) vt hh (sty (n_style n))) n n' u (calculate_width_and_margins self (mkCtx d dummy_font w)).
Proof.
  set (s' := style_in_px P _ vt hh _). intros H. unfold calculate_width_and_marginsA in H. apply mbind_inv in H. destruct H as (n1 & ol & H1 & H2).
  assert (X : step s' n n' u (mbind (on_box (calculate_width s' (n_intr n) (mkCtx d dummy_font w)))
     (fun ol => match ol with Some l => mmod (set_content_left l) | None => mret tt end))).
  { eapply step_bind; [eapply step_on_box; [|exact H1]|].
    - intros b b' a Hb. rewrite <- ex_width. revert Hb. apply r_width.
    - destruct ol as [l|].
      + unfold mset in H2. destruct (set_content_leftA A l n1) as [n2|e] eqn:C; [|discriminate]. injection H2 as <- <-. apply i_content_left in C. subst n2.
        split; [apply inputs_content_left|]. intros m Hs Hf. eexists. split; [reflexivity|]. split; [|apply inputs_content_left].
        rewrite !forget_content_left, Hf. reflexivity.
      + injection H2 as <- <-. apply step_ret. }
  destruct X as [I X]. split; [exact I|]. intros m Hs Hf. destruct (X m Hs Hf) as (m' & E' & F' & J'). exists m'. split; [|auto].
  unfold calculate_width_and_margins. rewrite Hs, (forget_intr _ _ Hf). exact E'.
Qed.
(** The containing blocks of the two runs. *)
Definition cbrel (cb : cblock (S := S)) (cb' : cblock (S := style)) : Prop :=
  match cb, cb' with
  | CBView, CBView => True
  | CBNode s b, CBNode s' b' => b' = b /\ exists c, st_height s' = in_lenauto P c (st_height (sty s))
  | _, _ => False
  end.
Lemma cbrel_ph cb cb' : cbrel cb cb' -> exists c, cb_style_height self cb' = option_map (in_px P c) (cb_style_height sty cb).
Proof.
  destruct cb as [|s b], cb' as [|s' b']; cbn [cbrel]; try contradiction; [exists (mkCtx d dummy_font LNone); reflexivity|].
  intros (_ & c & H). exists c. cbn [cb_style_height]. rewrite H. destruct (st_height (sty s)); reflexivity.
Qed.
Lemma cbrel_w cb cb' : cbrel cb cb' -> cb_width d cb' = cb_width d cb.
Proof. destruct cb, cb'; cbn [cbrel]; try contradiction; [reflexivity|]. intros (-> & _). reflexivity. Qed.
Lemma cbrel_h cb cb' : cbrel cb cb' -> cb_height d cb' = cb_height d cb.
Proof. destruct cb, cb'; cbn [cbrel]; try contradiction; [reflexivity|]. intros (-> & _). reflexivity. Qed.
Notation pstyle cb s := (pst (cb_width d cb) (cb_height d cb) (cb_style_height sty cb) s).
(** The height stage leaves the width alone. *)
Definition kw {X} (m : BM X) : Prop := forall b, content_width (fst (m b)) = content_width b.
Lemma kw_bind {X Y} (m : BM X) (f : X -> BM Y) : kw m -> (forall x, kw (f x)) -> kw (bbind m f).
Proof. intros H F b. unfold bbind. specialize (H b). destruct (m b) as [b' [x|e]]; cbn [fst] in H; [rewrite F|]; exact H. Qed.
Lemma kw_mod (f : box -> box) : (forall b, content_width (f b) = content_width b) -> kw (bmod f).
Proof. intros H b. apply H. Qed.
Lemma cw_mt v b : content_width (set_margin_top v b) = content_width b.
Proof. unfold set_margin_top. destruct leqb; [reflexivity|]. destruct b; reflexivity. Qed.
Lemma cw_mb v b : content_width (set_margin_bottom v b) = content_width b.
Proof. unfold set_margin_bottom. destruct leqb; [reflexivity|]. destruct b; reflexivity. Qed.
Ltac kwt := repeat first [apply kw_bind; [|intros ?] | intros ?; reflexivity | apply kw_mod; let b := fresh in intros b; repeat (match goal with |- context [if ?c then _ else _] => destruct c end); first [apply cw_mt | apply cw_mb | destruct b; reflexivity] | match goal with |- kw (match ?x with _ => _ end) => destruct x end].
Lemma kw_height s i ph last c : kw (calculate_heightA A s i ph last c).
Proof.
  unfold calculate_heightA, inline_replaced_heightA, inline_non_replaced_heightA, block_non_replaced_heightA, block_content_heightA, half_width_heightA, top_edgeA, auto_top0, auto_bottom0. kwt.
Qed.
(** What the height stage leaves alone: the children's sizes and the width. *)
Definition frame (n n' : node) : Prop := map sizes (n_kids n') = map sizes (n_kids n) /\ containing_width d (Some n') = containing_width d (Some n) /\ inputs n' = inputs n.
Lemma frame_on_box {X} (m : BM X) (n n' : node) (x : X) : kw m -> on_box m n = (n', Ok x) -> frame n n'.
Proof.
  intros W H. destruct n as [t j [b|] ks]; [|discriminate]. cbn [on_box] in H. specialize (W b). destruct (m b) as [b' r]. injection H as <- ->.
  split; [reflexivity|]. split; [exact W|reflexivity].
Qed.
Lemma step_height cb cb' n n' u : cbrel cb cb' ->
  calculate_height_and_marginsA A sty (mkCtx d dummy_font (cb_height d cb)) cb n = (n', Ok u) ->
  step (pstyle cb (sty (n_style n))) n n' u (calculate_height_and_margins self (mkCtx d dummy_font (cb_height d cb)) cb').
Proof.
  set (s' := pstyle cb (sty (n_style n))). intros C H. destruct (cbrel_ph cb cb' C) as [c0 Hph].
  unfold calculate_height_and_marginsA in H. apply mbind_inv in H. destruct H as (n1 & dl & H1 & H2).
  assert (X : step s' n n' u (mbind (on_box (calculate_height s' (n_intr n) (cb_style_height self cb') (last_layout n) (mkCtx d dummy_font (cb_height d cb))))
     add_content_top)).
  { eapply step_bind; [eapply step_on_box; [|exact H1]|apply step_add_top, H2].
    intros b b' a Hb. rewrite <- ex_height, Hph. revert Hb. apply r_height. }
  destruct X as [I X]. split; [exact I|]. intros m Hs Hf. destruct (X m Hs Hf) as (m' & E' & F' & J'). exists m'. split; [|auto].
  unfold calculate_height_and_margins. rewrite Hs, (forget_intr _ _ Hf), (forget_last _ _ Hf). exact E'.
Qed.
Lemma frame_height c cb n n' u : calculate_height_and_marginsA A sty c cb n = (n', Ok u) -> frame n n'.
Proof.
  unfold calculate_height_and_marginsA. intros H. apply mbind_inv in H. destruct H as (n1 & dl & H1 & H2).
  destruct (step_add_top (sty (n_style n)) _ _ _ _ H2) as [W [I _]]. destruct (frame_on_box _ _ _ _ (kw_height _ _ _ _ _) H1) as (F1 & F2 & F3).
  split; [rewrite (kids_sizes _ _ W); exact F1|]. split; [rewrite (sizes_containing _ _ W); exact F2|congruence].
Qed.
Lemma r_content_right cb cb' : cbrel cb cb' -> rr (cb_attr (content_rightA A) cb) (cb_attr content_right cb').
Proof.
  destruct cb, cb'; cbn [cbrel]; try contradiction; [intros _; apply rr_err|]. intros (-> & _). cbn [cb_attr]. unfold content_rightA, content_right.
  apply rr_bind; [apply rr_refl|]. intros x. apply r_add.
Qed.
Lemma r_content_bottom cb cb' : cbrel cb cb' -> rr (cb_attr (content_bottomA A) cb) (cb_attr content_bottom cb').
Proof.
  destruct cb, cb'; cbn [cbrel]; try contradiction; [intros _; apply rr_err|]. intros (-> & _). cbn [cb_attr]. unfold content_bottomA, content_bottom.
  apply rr_bind; [apply rr_refl|]. intros x. apply r_add.
Qed.
Lemma r_attr (f : box -> num) cb cb' : cbrel cb cb' -> rr (cb_attr (fun b => Ok (f b)) cb) (cb_attr (fun b => Ok (f b)) cb').
Proof. destruct cb, cb'; cbn [cbrel]; try contradiction; [intros _; apply rr_err|]. intros (-> & _). apply rr_refl. Qed.
Lemma ex_rel c st en cs ce : rel_offsetA E c st en cs ce = rel_offset c st en cs ce.
Proof. destruct st, en; reflexivity. Qed.
Lemma step_shift cb cb' n n' u : cbrel cb cb' -> relative_shiftA A sty d dummy_font cb n = (n', Ok u) ->
  sizes n' = sizes n /\ step (pstyle cb (sty (n_style n))) n n' u (relative_shift self d dummy_font cb').
Proof.
  set (s' := pstyle cb (sty (n_style n))). intros C H. unfold relative_shiftA in H.
  destruct (is_relative (sty (n_style n))) eqn:Rel.
  - apply mbind_inv in H. destruct H as (n1 & vl & H1 & H). apply mbind_inv in H. destruct H as (n2 & u2 & H2 & H).
    apply mbind_inv in H. destruct H as (n3 & vt & H3 & H4).
    destruct (step_lift s' _ (rel_offset (hctx d dummy_font cb') (st_left s') (st_right s') (cb_attr (fun b => Ok (content_left b)) cb') (cb_attr content_right cb')) _ _ _
       (fun a Ha => eq_trans (eq_sym (ex_rel _ _ _ _ _)) (eq_trans (f_equal (fun w => rel_offsetA E (mkCtx d dummy_font w) _ _ _ _) (cbrel_w cb cb' C)) (r_rel _ _ _ _ _ _ _ (r_attr content_left cb cb' C) (r_content_right cb cb' C) a Ha))) H1) as [N1 S1].
    destruct (step_lift s' _ (rel_offset (vctx d dummy_font cb') (st_top s') (st_bottom s') (cb_attr (fun b => Ok (content_top b)) cb') (cb_attr content_bottom cb')) _ _ _
       (fun a Ha => eq_trans (eq_sym (ex_rel _ _ _ _ _)) (eq_trans (f_equal (fun w => rel_offsetA E (mkCtx d dummy_font w) _ _ _ _) (cbrel_h cb cb' C)) (r_rel _ _ _ _ _ _ _ (r_attr content_top cb cb' C) (r_content_bottom cb cb' C) a Ha))) H3) as [N3 S3].
    destruct (step_add_left s' _ _ _ _ H2) as [W2 S2]. destruct (step_add_top s' _ _ _ _ H4) as [W4 S4].
    split; [congruence|].
    assert (X := step_bind s' n n1 n' vl u _ (fun v => mbind (add_content_left v) (fun _ => mbind (mlift (rel_offset (vctx d dummy_font cb') (st_top s') (st_bottom s') (cb_attr (fun b => Ok (content_top b)) cb') (cb_attr content_bottom cb'))) add_content_top)) S1
      (step_bind s' n1 n2 n' u2 u _ (fun _ => mbind (mlift (rel_offset (vctx d dummy_font cb') (st_top s') (st_bottom s') (cb_attr (fun b => Ok (content_top b)) cb') (cb_attr content_bottom cb'))) add_content_top) S2 (step_bind s' n2 n3 n' vt u _ add_content_top S3 S4))).
    destruct X as [I X]. split; [exact I|]. intros m Hs Hf. destruct (X m Hs Hf) as (m' & E' & F' & J'). exists m'. split; [|auto].
    unfold relative_shift. rewrite Hs. change (is_relative s') with (is_relative (sty (n_style n))). rewrite Rel. exact E'.
  - injection H as <- <-. split; [reflexivity|]. split; [reflexivity|]. intros m Hs Hf. exists m. split; [|auto].
    unfold relative_shift. rewrite Hs. change (is_relative s') with (is_relative (sty (n_style n))). rewrite Rel. reflexivity.
Qed.
(** ** Boxes before layout *)
(** A box that reset has just cleared, up to its position. *)
Definition zbox (b : box) : Prop := content_height b = l0 /\ content_top b = n0 /\ padding_bottom b = n0 /\ border_bottom_width b = n0.
Inductive zeroed : node -> Prop :=
| zeroed_node : forall s i bx ks, (forall b, bx = Some b -> zbox b) -> (bx = None -> st_display (sty s) = None) ->
    (st_display (sty s) <> None -> forall k, In k ks -> zeroed k) -> zeroed (Node s i bx ks).
Lemma zeroed_origin_top (n : node) : forall v, zeroed n -> zeroed (set_origin_top v n).
Proof.
  induction n as [s i bx ks IH] using node_ind'. intros v H. destruct bx as [b|]; [|exact H]. cbn [set_origin_top]. destruct neqb; [exact H|].
  inversion H as [s' i' bx' ks' Hb Hn Hk]; subst. constructor; [|discriminate|].
  - intros b' E'. injection E' as <-. specialize (Hb b eq_refl). destruct b; exact Hb.
  - intros D k K. apply in_map_iff in K. destruct K as (k0 & <- & K). apply IH; [exact K|exact (Hk D k0 K)].
Qed.
Lemma zeroed_origin_left (n : node) : forall v, zeroed n -> zeroed (set_origin_left v n).
Proof.
  induction n as [s i bx ks IH] using node_ind'. intros v H. destruct bx as [b|]; [|exact H]. cbn [set_origin_left]. destruct neqb; [exact H|].
  inversion H as [s' i' bx' ks' Hb Hn Hk]; subst. constructor; [|discriminate|].
  - intros b' E'. injection E' as <-. specialize (Hb b eq_refl). destruct b; exact Hb.
  - intros D k K. apply in_map_iff in K. destruct K as (k0 & <- & K). apply IH; [exact K|exact (Hk D k0 K)].
Qed.
Definition kz (n : node) : Prop := forall k, In k (n_kids n) -> zeroed k.
Lemma kz_content_left v (n : node) : kz n -> kz (set_content_left v n).
Proof.
  destruct n as [s i [b|] ks]; cbn [set_content_left]; [|auto]. destruct neqb; [auto|]. intros H k K. apply in_map_iff in K. destruct K as (k0 & <- & K).
  apply zeroed_origin_left, H, K.
Qed.
Lemma kz_content_top v (n : node) : kz n -> kz (set_content_top v n).
Proof.
  destruct n as [s i [b|] ks]; cbn [set_content_top]; [|auto]. destruct neqb; [auto|]. intros H k K. apply in_map_iff in K. destruct K as (k0 & <- & K).
  apply zeroed_origin_top, H, K.
Qed.
Lemma kz_on_box {X} (m : BM X) (n n' : node) x : on_box m n = (n', x) -> kz n -> kz n'.
Proof. destruct n as [s i [b|] ks]; cbn [on_box]; [destruct (m b)|]; intros H; injection H as <- _; auto. Qed.
Lemma kz_add_top v n n' u : add_content_topA A v n = (n', Ok u) -> kz n -> kz n'.
Proof.
  intros H. unfold add_content_topA, mset in H. destruct (n_box n) as [b|]; [|discriminate].
  destruct (a_add A (content_top b) v) as [w|e]; [|discriminate]. cbn [bindr] in H. destruct (set_content_topA A w n) as [n2|e] eqn:C; [|discriminate].
  injection H as <- <-. apply i_content_top in C. subst n2. apply kz_content_top.
Qed.
Lemma kz_height c cb n n' u : calculate_height_and_marginsA A sty c cb n = (n', Ok u) -> kz n -> kz n'.
Proof.
  unfold calculate_height_and_marginsA. intros H K. apply mbind_inv in H. destruct H as (n1 & dl & H1 & H2).
  eapply kz_add_top; [exact H2|]. eapply kz_on_box; [exact H1|exact K].
Qed.
Lemma kz_width c n n' u : calculate_width_and_marginsA A sty c n = (n', Ok u) -> kz n -> kz n'.
Proof.
  unfold calculate_width_and_marginsA. intros H K. apply mbind_inv in H. destruct H as (n1 & ol & H1 & H2).
  assert (K1 : kz n1) by (eapply kz_on_box; [exact H1|exact K]). destruct ol as [l|].
  - unfold mset in H2. destruct (set_content_leftA A l n1) as [n2|e] eqn:C; [|discriminate]. injection H2 as <- <-. apply i_content_left in C. subst n2. apply kz_content_left, K1.
  - injection H2 as <- <-. exact K1.
Qed.
Lemma zeroed_reset (n : node) : ready sty n -> zeroed (reset n).
Proof.
  assert (Z0 : zbox box0) by (repeat split).
  assert (H0 : forall n : node, st_display (sty (n_style n)) = None -> zeroed (reset n)).
  { intros [s i [b|] ks] D; cbn [reset n_style] in *; constructor; try discriminate; congruence. }
  induction n as [s i bx ks IH] using node_ind'. intros R. inversion R as [n0 D|s' i' b ks' Hk]; subst; [apply H0, D|].
  cbn [reset]. constructor; [intros b' E'; injection E' as <-; exact Z0|discriminate|].
  intros _ k K. apply in_map_iff in K. destruct K as (k0 & <- & K). apply IH; [exact K|exact (Hk k0 K)].
Qed.

(** ** The height the children refer to *)
(** The stages before the height leave the height alone. *)
Definition kh {X} (m : BM X) : Prop := forall b, content_height (fst (m b)) = content_height b.
Lemma kh_bind {X Y} (m : BM X) (f : X -> BM Y) : kh m -> (forall x, kh (f x)) -> kh (bbind m f).
Proof. intros H F b. unfold bbind. specialize (H b). destruct (m b) as [b' [x|e]]; cbn [fst] in H; [rewrite F|]; exact H. Qed.
Lemma ch_mt v b : content_height (set_margin_top v b) = content_height b.
Proof. unfold set_margin_top. destruct leqb; [reflexivity|]. destruct b; reflexivity. Qed.
Lemma ch_mb v b : content_height (set_margin_bottom v b) = content_height b.
Proof. unfold set_margin_bottom. destruct leqb; [reflexivity|]. destruct b; reflexivity. Qed.
Lemma ch_ml v b : content_height (set_margin_left v b) = content_height b.
Proof. unfold set_margin_left. destruct leqb; [reflexivity|]. destruct b; reflexivity. Qed.
Lemma ch_mr v b : content_height (set_margin_right v b) = content_height b.
Proof. unfold set_margin_right. destruct leqb; [reflexivity|]. destruct b; reflexivity. Qed.
Lemma kh_mod (f : box -> box) : (forall b, content_height (f b) = content_height b) -> kh (bmod f).
Proof. intros H b. apply H. Qed.
Ltac kht := repeat first [apply kh_bind; [|intros ?] | intros ?; reflexivity
  | apply kh_mod; let b := fresh in intros b; repeat (match goal with |- context [if ?c then _ else _] => destruct c end); first [apply ch_mt | apply ch_mb | apply ch_ml | apply ch_mr | destruct b; reflexivity]
  | match goal with |- kh (match ?x with _ => _ end) => destruct x end].
Lemma kh_copy s hz vt : kh (copy_edgesA A s hz vt).
Proof. unfold copy_edgesA. kht. Qed.
Lemma kh_unless acc f : kh (add_unless_autoA A acc f).
Proof. intros b. unfold add_unless_autoA. destruct is_auto; reflexivity. Qed.
Lemma kh_width s i c : kh (calculate_widthA A s i c).
Proof.
  unfold calculate_widthA, inline_replaced_widthA, inline_non_replaced_width, block_non_replaced_widthA, drop_auto_marginsA, solve_rightA, solve_leftA, split_marginsA, avail_widthA, left_edgeA, auto_left0, auto_right0.
  repeat first [apply kh_unless | kht].
Qed.
Definition ch_of (n : node) : option lval := option_map content_height (n_box n).
Lemma ch_on_box {X} (m : BM X) (n n' : node) x : kh m -> on_box m n = (n', x) -> ch_of n' = ch_of n.
Proof. intros W H. destruct n as [s i [b|] ks]; cbn [on_box] in H; [specialize (W b); destruct (m b)|]; injection H as <- _; [|reflexivity]. unfold ch_of. cbn in *. rewrite W. reflexivity. Qed.
Lemma sizes_ch (n n' : node) : sizes n = sizes n' -> n_box n <> None -> n_box n' <> None -> ch_of n = ch_of n'.
Proof. intros H X Y. apply sizes_box in H. unfold ch_of. destruct (n_box n), (n_box n'); try congruence. cbn in *. congruence. Qed.
Lemma ch_content_left v (n : node) : ch_of (set_content_left v n) = ch_of n.
Proof. destruct n as [s i [b|] ks]; [|reflexivity]. cbn [set_content_left]. destruct neqb; [reflexivity|]. destruct b; reflexivity. Qed.
Lemma ch_content_top v (n : node) : ch_of (set_content_top v n) = ch_of n.
Proof. destruct n as [s i [b|] ks]; [|reflexivity]. cbn [set_content_top]. destruct neqb; [reflexivity|]. destruct b; reflexivity. Qed.
Lemma ch_width c n n' u : calculate_width_and_marginsA A sty c n = (n', Ok u) -> ch_of n' = ch_of n.
Proof.
  unfold calculate_width_and_marginsA. intros H. apply mbind_inv in H. destruct H as (n1 & ol & H1 & H2).
  rewrite <- (ch_on_box _ _ _ _ (kh_width _ _ _) H1). destruct ol as [l|].
  - unfold mset in H2. destruct (set_content_leftA A l n1) as [n2|e] eqn:C; [|discriminate]. injection H2 as <- <-. apply i_content_left in C. subst n2. apply ch_content_left.
  - injection H2 as <- <-. reflexivity.
Qed.
Lemma ch_add_top v n n' u : add_content_topA A v n = (n', Ok u) -> ch_of n' = ch_of n.
Proof.
  intros H. unfold add_content_topA, mset in H. destruct (n_box n) as [b|]; [|discriminate].
  destruct (a_add A (content_top b) v) as [w|e]; [|discriminate]. cbn [bindr] in H. destruct (set_content_topA A w n) as [n2|e] eqn:C; [|discriminate].
  injection H as <- <-. apply i_content_top in C. subst n2. apply ch_content_top.
Qed.
Lemma ch_add_left v n n' u : add_content_leftA A v n = (n', Ok u) -> ch_of n' = ch_of n.
Proof.
  intros H. unfold add_content_leftA, mset in H. destruct (n_box n) as [b|]; [|discriminate].
  destruct (a_add A (content_left b) v) as [w|e]; [|discriminate]. cbn [bindr] in H. destruct (set_content_leftA A w n) as [n2|e] eqn:C; [|discriminate].
  injection H as <- <-. apply i_content_left in C. subst n2. apply ch_content_left.
Qed.
Lemma ch_shift cb n n' u : relative_shiftA A sty d dummy_font cb n = (n', Ok u) -> ch_of n' = ch_of n.
Proof.
  unfold relative_shiftA. destruct (is_relative (sty (n_style n))).
  - intros H. apply mbind_inv in H. destruct H as (n1 & vl & H1 & H). apply mbind_inv in H. destruct H as (n2 & u2 & H2 & H).
    apply mbind_inv in H. destruct H as (n3 & vt & H3 & H4). injection H1 as <- _. injection H3 as <- _.
    rewrite (ch_add_top _ _ _ _ H4). exact (ch_add_left _ _ _ _ H2).
  - intros H. injection H as <- _. reflexivity.
Qed.
(** Two runs of the height stage with the same width leave the same height. *)
Definition same_height {X} (m1 m2 : BM X) : Prop := forall b1 b2 b1' b2' x1 x2, content_width b1 = content_width b2 ->
  m1 b1 = (b1', Ok x1) -> m2 b2 = (b2', Ok x2) -> content_height b1' = content_height b2'.
(** [m1] and [m2] read only the width and return the same value. *)
Definition same_value (m1 m2 : BM num) : Prop := forall b1 b2 b1' b2' x1 x2, content_width b1 = content_width b2 ->
  m1 b1 = (b1', Ok x1) -> m2 b2 = (b2', Ok x2) -> x1 = x2.
Lemma sh_seq (p1 p2 : BM unit) {X} (m1 m2 : BM X) : kw p1 -> kw p2 -> same_height m1 m2 -> same_height (bbind p1 (fun _ => m1)) (bbind p2 (fun _ => m2)).
Proof.
  intros K1 K2 H b1 b2 b1' b2' x1 x2 W E1 E2. unfold bbind in *. specialize (K1 b1). specialize (K2 b2).
  destruct (p1 b1) as [c1 [u1|e1]]; [|discriminate]. destruct (p2 b2) as [c2 [u2|e2]]; [|discriminate]. cbn [fst] in *.
  eapply H; [|exact E1|exact E2]. congruence.
Qed.
Lemma sh_set (p1 p2 : BM num) {X} (m : BM X) : same_value p1 p2 -> kh m ->
  same_height (bbind p1 (fun h => bbind (bmod (upd_content_height (LNum h))) (fun _ => m))) (bbind p2 (fun h => bbind (bmod (upd_content_height (LNum h))) (fun _ => m))).
Proof.
  intros V K b1 b2 b1' b2' x1 x2 W E1 E2. unfold bbind, bmod in *.
  destruct (p1 b1) as [c1 [u1|e1]] eqn:P1; [|discriminate]. destruct (p2 b2) as [c2 [u2|e2]] eqn:P2; [|discriminate].
  rewrite (V _ _ _ _ _ _ W P1 P2) in E1. assert (H1 := K (upd_content_height (LNum u2) c1)). assert (H2 := K (upd_content_height (LNum u2) c2)).
  rewrite E1 in H1. rewrite E2 in H2. cbn [fst] in *. rewrite H1, H2. destruct c1, c2; reflexivity.
Qed.
Lemma sv_lift (r : res num) : same_value (blift r) (blift r).
Proof. intros b1 b2 b1' b2' x1 x2 W E1 E2. unfold blift in *. injection E1 as _ E1. injection E2 as _ E2. congruence. Qed.
Lemma sv_ret x : same_value (bret x) (bret x).
Proof. apply (sv_lift (Ok x)). Qed.
Lemma sv_width (f : num -> res num) : same_value (bbind (bnum content_width) (fun w => blift (f w))) (bbind (bnum content_width) (fun w => blift (f w))).
Proof.
  intros b1 b2 b1' b2' x1 x2 W E1 E2. unfold bbind, bnum, blift in *. rewrite W in E1. destruct (as_num (content_width b2)) as [w|e]; [|discriminate].
  injection E1 as _ E1. injection E2 as _ E2. congruence.
Qed.
Lemma sv_half : same_value (half_width_heightA A) (half_width_heightA A).
Proof.
  unfold half_width_heightA. intros b1 b2 b1' b2' x1 x2 W E1 E2. unfold bbind, bnum, blift, bret in *. rewrite W in E1. destruct (as_num (content_width b2)) as [w|e]; [|discriminate].
  destruct (a_half A w) as [h|e]; [|discriminate]. congruence.
Qed.
Lemma kh_top_edge : kh (top_edgeA A).
Proof. unfold top_edgeA. kht. Qed.
Lemma kw_auto0 : kw auto_top0 /\ kw auto_bottom0.
Proof. unfold auto_top0, auto_bottom0. split; kwt. Qed.
Lemma same_height_twice s i ph last1 last2 c : (is_block_level s = true -> st_height s <> Auto) ->
  same_height (calculate_heightA A s i ph last1 c) (calculate_heightA A s i ph last2 c).
Proof.
  intros NA. unfold calculate_heightA. destruct (is_float s); [discriminate|]. destruct (is_abspos s); [discriminate|]. destruct kw_auto0 as [K1 K2].
  assert (D : forall e, same_height (X := num) (bfail e) (bfail e)) by (intros e b1 b2 b1' b2' x1 x2 _ H; discriminate).
  destruct (is_inline s).
  - destruct (s_replaced i).
    + unfold inline_replaced_heightA. apply sh_seq; [assumption|assumption|]. apply sh_seq; [assumption|assumption|]. apply sh_set; [|apply kh_top_edge].
      destruct (st_height s); [|apply sv_lift]. destruct (st_width s), (BoxModel.s_height i) as [h|], (s_ratio i) as [r|];
        repeat (match goal with |- same_value (if ?c then _ else _) _ => destruct c end); first [apply sv_ret | apply sv_half | apply (sv_width (fun w => a_mul A w _))].
    + unfold inline_non_replaced_heightA. intros b1 b2 b1' b2' x1 x2 W E1 E2. unfold bbind, bmod in *.
      assert (H1 := kh_top_edge (upd_content_height (lopt (BoxModel.s_height i)) b1)). assert (H2 := kh_top_edge (upd_content_height (lopt (BoxModel.s_height i)) b2)).
      rewrite E1 in H1. rewrite E2 in H2. cbn [fst] in *. rewrite H1, H2. destruct b1, b2; reflexivity.
  - destruct (is_block_level s); [|destruct (is_inline_block s); apply D]. destruct (s_replaced i); [apply D|].
    specialize (NA eq_refl). unfold block_non_replaced_heightA. apply sh_seq; [assumption|assumption|]. apply sh_seq; [assumption|assumption|]. apply sh_set.
    + unfold block_content_heightA. destruct (st_height s) as [|u]; [congruence|].
      intros b1 b2 b1' b2' x1 x2 W E1 E2. unfold bbind, blift, bret in *. destruct ph as [pu|].
      * destruct (a_px A c pu) as [p|e]; [|discriminate]. destruct (a_px A _ u) as [v|e]; [|discriminate].
        destruct (st_max_height s) as [m|]; [|congruence]. destruct (a_px A c m) as [mx|e]; [|discriminate]. congruence.
      * destruct (a_px A c u) as [v|e]; [|discriminate].
        destruct (st_max_height s) as [m|]; [|congruence]. destruct (a_px A c m) as [mx|e]; [|discriminate]. congruence.
    + kht.
Qed.
Lemma auto_height_zero s i ph lb c b b' x : is_block_level s = true -> st_height s = Auto -> zbox lb ->
  calculate_heightA A s i ph (Some (Some lb)) c b = (b', Ok x) -> content_height b' = l0.
Proof.
  intros Hb Ha (Z1 & Z2 & Z3 & Z4) H. unfold calculate_heightA in H. destruct (is_float s); [discriminate|]. destruct (is_abspos s); [discriminate|].
  assert (N : is_inline s = false). { unfold is_block_level in Hb. unfold is_inline. destruct (st_display s) as [[]|]; try discriminate; reflexivity. }
  rewrite N, Hb in H. destruct (s_replaced i); [discriminate|]. unfold block_non_replaced_heightA, block_content_heightA in H. rewrite Ha in H.
  unfold bbind, auto_top0, auto_bottom0, bmod, blift, bret, bget in H. destruct (border_box_bottomA A lb) as [v|e] eqn:V; [|discriminate].
  assert (v = n0) as ->.
  { apply r_bbb in V. unfold border_box_bottomA in V. rewrite Z1, Z2, Z3, Z4 in V. cbn in V. apply Ok_inj in V. symmetry. exact V. }
  injection H as <- H. match goal with |- content_height (upd_content_height _ ?y) = _ => destruct y end. reflexivity.
Qed.
(** ** Children *)
Lemma step_place (k : node) b off bm (k2 : node) b2 o bm' : place_childA A k b off bm = (k2, b2, Ok (o, bm')) ->
  sizes k2 = sizes k /\ content_width b2 = content_width b /\ content_height b2 = content_height b /\
  forall m : pnode, forget m = forget k -> exists m2, place_child m b off bm = (m2, b2, Ok (o, bm')) /\ forget m2 = forget k2 /\ inputs m2 = inputs m.
Proof.
  unfold place_childA. intros H. destruct (n_box k) as [kb|] eqn:B; [|discriminate].
  assert (X : exists b1 o1, (content_width b1 = content_width b /\ content_height b1 = content_height b) /\
     match bm with None => (set_collapse_top (LNum (NI (collapse_top kb))) b, Ok off) | Some m => (b, mt <-r as_num (margin_top kb) ;; Ok (nadd off (nmax (NI m) mt))) end = (b1, Ok o1) /\
     match (w <-r a_add A (content_top kb) o1 ;; set_content_topA A w k) with
          | Err e => (k, b1, Err e)
          | Ok k' => (k', b1, h <-r border_box_heightA A kb ;; o' <-r a_add A o1 h ;; Ok (o', Some (collapse_bottom kb)))
          end = (k2, b2, Ok (o, bm'))).
  { destruct bm as [m|].
    - destruct (as_num (margin_top kb)) as [mt|e]; [|discriminate]. cbn [bindr] in H |- *. destruct (a_add A off (nmax (NI m) mt)) as [z|e] eqn:Z; [|discriminate].
      apply (se_add _ _ SE) in Z. subst z. exists b, (nadd off (nmax (NI m) mt)). split; [split; reflexivity|]. split; [reflexivity|exact H].
    - eexists _, _. split; [|split; [reflexivity|exact H]]. destruct b; split; reflexivity. }
  destruct X as (b1 & o1 & (Cw & Ch) & E1 & X). clear H. destruct (a_add A (content_top kb) o1) as [w|e] eqn:W; [|discriminate]. cbn [bindr] in X.
  destruct (set_content_topA A w k) as [k'|e] eqn:K; [|discriminate]. apply (se_add _ _ SE) in W. subst w. apply i_content_top in K. subst k'.
  injection X as <- <- Ho. split; [apply sizes_content_top|]. split; [exact Cw|]. split; [exact Ch|]. intros m Hf.
  unfold place_child. rewrite (forget_box _ _ Hf), B, E1. eexists. split; [|split; [|apply inputs_content_top]].
  - f_equal. destruct (border_box_heightA A kb) as [h|e] eqn:Hh; [|discriminate]. cbn [bindr] in Ho.
    destruct (a_add A o1 h) as [o'|e] eqn:Ho'; [|discriminate]. cbn [bindr] in Ho. apply Ok_inj in Ho. injection Ho as <- <-.
    apply r_bbh in Hh. assert (Hh' : border_box_height kb = Ok h). { rewrite <- Hh. unfold border_box_height, border_box_heightA. destruct (as_num _); reflexivity. }
    rewrite Hh'. cbn [bindr]. rewrite (se_add _ _ SE _ _ _ Ho'). reflexivity.
  - rewrite !forget_content_top, Hf. reflexivity.
Qed.
(** The two runs on a child, [w] being the width it refers to and [ph] the height its parent declares. *)
Definition run2 (w h : lval) (ph : option unit_) (k k1 : node) (lay : cblock (S := style) -> pnode -> pnode * res unit) (s : S) (b : box) : Prop :=
  exists T, ip w h ph k k1 T /\ forall s' c m, st_height s' = in_lenauto P c (st_height (sty s)) -> inputs m = inputs T -> forget m = forget k ->
    exists m1, lay (CBNode s' b) m = (m1, Ok tt) /\ inputs m1 = inputs T /\ forget m1 = forget k1.
Lemma map_inputs_cons (m : pnode) ms T Ts : map inputs (m :: ms) = map inputs (T :: Ts) -> inputs m = inputs T /\ map inputs ms = map inputs Ts.
Proof. intros H. injection H. auto. Qed.
Lemma map_forget_cons (m : pnode) ms (k : node) ks : map (@forget style) (m :: ms) = map (@forget S) (k :: ks) -> forget m = forget k /\ map (@forget style) ms = map (@forget S) ks.
Proof. intros H. injection H. auto. Qed.
Definition declared_height (s : S) : option unit_ := match st_height (sty s) with Auto => None | Len u => Some u end.
Section Kids.
Variables (layA : cblock (S := S) -> node -> node * res unit) (layE : cblock (S := style) -> pnode -> pnode * res unit).
Variables (s : S) (w h : lval) (ph : option unit_).
Hypothesis L : forall b k k1, content_width b = w -> content_height b = h -> zeroed k -> layA (CBNode s b) k = (k1, Ok tt) -> run2 w h ph k k1 layE s b.
Lemma step_flow ks : forall pend b off bm ks2 b2, content_width b = w -> content_height b = h -> (forall k, In k ks -> zeroed k) ->
  flowA A sty (fun b0 => layA (CBNode s b0)) ks pend b off bm = (ks2, b2, Ok tt) ->
  content_width b2 = w /\ content_height b2 = h /\ exists Ts, all3 (ip w h ph) ks ks2 Ts /\
  forall s' c (ms : list pnode), st_height s' = in_lenauto P c (st_height (sty s)) -> map inputs ms = map inputs Ts -> map (@forget style) ms = map (@forget S) ks ->
  exists ms2, flow self (fun b0 => layE (CBNode s' b0)) ms pend b off bm = (ms2, b2, Ok tt) /\ map inputs ms2 = map inputs Ts /\ map (@forget style) ms2 = map (@forget S) ks2.
Proof.
  induction ks as [|k ks IH]; intros pend b off bm ks2 b2 Cw Ch Z H; cbn [flowA] in H.
  - injection H as <- <-. split; [exact Cw|]. split; [exact Ch|]. exists []. split; [constructor|]. intros s' c [|m ms] Hs Hi Hf; [|discriminate]. exists []. auto.
  - destruct (is_block_level (sty (n_style k))) eqn:Bl.
    + destruct pend; [discriminate|]. destruct (layA (CBNode s b) k) as [k1 [[]|e]] eqn:Hl; [|discriminate].
      destruct (place_childA A k1 b off bm) as [[k2 b1] [[o' bm']|e]] eqn:Hp; [|discriminate].
      destruct (flowA A sty _ ks false b1 o' bm') as [[ks3 b3] r] eqn:Hfl. injection H as <- <- ->.
      destruct (L b k k1 Cw Ch (Z k (or_introl eq_refl)) Hl) as (T & HT & HL). destruct (step_place _ _ _ _ _ _ _ _ Hp) as (Wk & Cb & Chb & Hpl).
      destruct (IH false b1 o' bm' ks3 b3 (eq_trans Cb Cw) (eq_trans Chb Ch) (fun x X => Z x (or_intror X)) Hfl) as (C3 & H3 & Ts & HTs & HF).
      split; [exact C3|]. split; [exact H3|]. exists (T :: Ts). split.
      { constructor; [|exact HTs]. eapply ip_ext; [reflexivity|symmetry; exact Wk|exact HT]. }
      intros s' c [|m ms] Hs Hi Hf; [discriminate|]. apply map_inputs_cons in Hi. destruct Hi as [Hi Hi']. apply map_forget_cons in Hf. destruct Hf as [Hf Hf'].
      destruct (HL s' c m Hs Hi Hf) as (m1 & E1 & J1 & F1). destruct (Hpl m1 F1) as (m2 & E2 & F2 & J2).
      destruct (HF s' c ms Hs Hi' Hf') as (ms3 & E3 & J3 & F3).
      exists (m2 :: ms3). cbn [flow].
      assert (Bl' : is_block_level (n_style m) = true). { rewrite <- Bl. apply blk_display. rewrite (inputs_sty _ _ Hi). eapply ip_style, HT. }
      rewrite Bl', E1, E2, E3. split; [reflexivity|]. cbn [map]. split; congruence.
    + destruct (flowA A sty _ ks true b off bm) as [[ks3 b3] r] eqn:Hfl. injection H as <- <- ->.
      destruct (IH true b off bm ks3 b3 Cw Ch (fun x X => Z x (or_intror X)) Hfl) as (C3 & H3 & Ts & HTs & HF).
      destruct (ip_any k w h ph) as [T HT]. split; [exact C3|]. split; [exact H3|]. exists (T :: Ts). split; [constructor; assumption|].
      intros s' c [|m ms] Hs Hi Hf; [discriminate|]. apply map_inputs_cons in Hi. destruct Hi as [Hi Hi']. apply map_forget_cons in Hf. destruct Hf as [Hf Hf'].
      destruct (HF s' c ms Hs Hi' Hf') as (ms3 & E3 & J3 & F3).
      exists (m :: ms3). cbn [flow].
      assert (Bl' : is_block_level (n_style m) = false). { rewrite <- Bl. apply blk_display. rewrite (inputs_sty _ _ Hi). eapply ip_style, HT. }
      rewrite Bl', E3. split; [reflexivity|]. cbn [map]. split; congruence.
Qed.
Lemma step_lay_all b ks : forall ks2, content_width b = w -> content_height b = h -> (forall k, In k ks -> zeroed k) -> lay_all (layA (CBNode s b)) ks = (ks2, Ok tt) ->
  exists Ts, all3 (ip w h ph) ks ks2 Ts /\
  forall s' c (ms : list pnode), st_height s' = in_lenauto P c (st_height (sty s)) -> map inputs ms = map inputs Ts -> map (@forget style) ms = map (@forget S) ks ->
  exists ms2, lay_all (layE (CBNode s' b)) ms = (ms2, Ok tt) /\ map inputs ms2 = map inputs Ts /\ map (@forget style) ms2 = map (@forget S) ks2.
Proof.
  induction ks as [|k ks IH]; intros ks2 Cw Ch Z H; cbn [lay_all] in H.
  - injection H as <-. exists []. split; [constructor|]. intros s' c [|m ms] Hs Hi Hf; [|discriminate]. exists []. auto.
  - destruct (layA (CBNode s b) k) as [k1 [[]|e]] eqn:Hl; [|discriminate].
    destruct (lay_all (layA (CBNode s b)) ks) as [ks3 r] eqn:Ha. injection H as <- ->.
    destruct (L b k k1 Cw Ch (Z k (or_introl eq_refl)) Hl) as (T & HT & HL). destruct (IH ks3 Cw Ch (fun x X => Z x (or_intror X)) eq_refl) as (Ts & HTs & HF).
    exists (T :: Ts). split; [constructor; assumption|].
    intros s' c [|m ms] Hs Hi Hf; [discriminate|]. apply map_inputs_cons in Hi. destruct Hi as [Hi Hi']. apply map_forget_cons in Hf. destruct Hf as [Hf Hf'].
    destruct (HL s' c m Hs Hi Hf) as (m1 & E1 & J1 & F1). destruct (HF s' c ms Hs Hi' Hf') as (ms3 & E3 & J3 & F3).
    exists (m1 :: ms3). cbn [lay_all]. rewrite E1, E3. split; [reflexivity|]. cbn [map]. split; congruence.
Qed.
End Kids.
Lemma block_kids w h ph ks os Ts ms : all3 (ip w h ph) ks os Ts -> map inputs ms = map inputs Ts ->
  existsb (fun k : pnode => is_block_level (n_style k)) ms = existsb (fun k => is_block_level (sty (n_style k))) ks.
Proof.
  intros H. revert ms. induction H as [|k o T ks os Ts Hr Hs IH]; intros [|m ms] Hi; try discriminate; [reflexivity|].
  apply map_inputs_cons in Hi. destruct Hi as [Hi Hi']. cbn [existsb]. rewrite (IH ms Hi'). f_equal. apply blk_display. rewrite (inputs_sty _ _ Hi). eapply ip_style, Hr.
Qed.
(** The stage of the children: [Ts] are the children in pixels. *)
Lemma step_children layA layE s i b ks n' :
  (forall b0 k k1, content_width b0 = content_width b -> content_height b0 = content_height b -> zeroed k -> layA (CBNode s b0) k = (k1, Ok tt) ->
     run2 (content_width b) (content_height b) (declared_height s) k k1 layE s b0) ->
  (forall k, In k ks -> zeroed k) ->
  layout_childrenA A sty layA (Node s i (Some b) ks) = (n', Ok tt) ->
  exists b2 ks2 Ts, n' = Node s i (Some b2) ks2 /\ content_width b2 = content_width b /\ content_height b2 = content_height b /\
  all3 (ip (content_width b) (content_height b) (declared_height s)) ks ks2 Ts /\
  forall s' c (ms : list pnode), st_height s' = in_lenauto P c (st_height (sty s)) -> st_display s' = st_display (sty s) -> map inputs ms = map inputs Ts -> map (@forget style) ms = map (@forget S) ks ->
    exists ms2, layout_children self layE (Node s' i (Some b) ms) = (Node s' i (Some b2) ms2, Ok tt) /\
      map inputs ms2 = map inputs Ts /\ map (@forget style) ms2 = map (@forget S) ks2.
Proof.
  intros L Z H. cbn [layout_childrenA] in H.
  assert (EI : forall os Ts s' (ms : list pnode), st_display s' = st_display (sty s) -> all3 (ip (content_width b) (content_height b) (declared_height s)) ks os Ts -> map inputs ms = map inputs Ts ->
    establishes_inline self (Node s' i (Some b) ms) = establishes_inline sty (Node s i (Some b) ks)).
  { intros os Ts s' ms Hd H3 Hi. unfold establishes_inline. cbn [n_style n_intr n_kids].
    replace (is_block_container s' i) with (is_block_container (sty s) i) by (unfold is_block_container; rewrite Hd; reflexivity).
    destruct is_block_container; [|reflexivity]. f_equal. eapply block_kids; eassumption. }
  destruct (establishes_inline sty (Node s i (Some b) ks)) eqn:En.
  - destruct (lay_all (layA (CBNode s b)) ks) as [ks2 r] eqn:Ha. injection H as <- ->.
    destruct (step_lay_all layA layE s _ _ _ L b ks ks2 eq_refl eq_refl Z Ha) as (Ts & HTs & HF).
    exists b, ks2, Ts. split; [reflexivity|]. split; [reflexivity|]. split; [reflexivity|]. split; [exact HTs|]. intros s' c ms Hs Hd Hi Hf.
    destruct (HF s' c ms Hs Hi Hf) as (ms2 & E2 & J2 & F2). exists ms2. split; [|auto].
    cbn [layout_children]. rewrite (EI _ _ s' ms Hd HTs Hi), E2. reflexivity.
  - destruct (flowA A sty (fun b0 => layA (CBNode s b0)) ks false b n0 None) as [[ks2 b2] r] eqn:Ha. injection H as <- ->.
    destruct (step_flow layA layE s _ _ _ L ks false b n0 None ks2 b2 eq_refl eq_refl Z Ha) as (C2 & H2 & Ts & HTs & HF).
    exists b2, ks2, Ts. split; [reflexivity|]. split; [exact C2|]. split; [exact H2|]. split; [exact HTs|]. intros s' c ms Hs Hd Hi Hf.
    destruct (HF s' c ms Hs Hi Hf) as (ms2 & E2 & J2 & F2). exists ms2. split; [|auto].
    cbn [layout_children]. rewrite (EI _ _ s' ms Hd HTs Hi), E2. reflexivity.
Qed.

(** ** layout_box *)
Lemma in_pixels_box fuel : forall cb (n n1 : node), zeroed n -> layout_boxA A sty fuel d dummy_font cb n = (n1, Ok tt) ->
  n_style n1 = n_style n /\ exists T, ip (cb_width d cb) (cb_height d cb) (cb_style_height sty cb) n n1 T /\ forall cb' m, cbrel cb cb' -> inputs m = inputs T -> forget m = forget n ->
    exists m1, layout_box self fuel d dummy_font cb' m = (m1, Ok tt) /\ inputs m1 = inputs T /\ forget m1 = forget n1.
Proof.
  induction fuel as [|fuel IH]; intros cb n n1 Zn H; [discriminate|]. cbn [layout_boxA] in H.
  destruct (st_display (sty (n_style n))) as [dk|] eqn:Ds.
  - apply mbind_inv in H. destruct H as (na & ua & Ha & H). apply mbind_inv in H. destruct H as (nb & ub & Hb & H).
    apply mbind_inv in H. destruct H as (nc & uc & Hc & H). apply mbind_inv in H. destruct H as (nd & ud & Hd & H).
    apply mbind_inv in H. destruct H as (ne & ue & He & H). apply mbind_inv in H. destruct H as (nf & uf & Hf & Hg).
    set (s' := pstyle cb (sty (n_style n))).
    assert (Sa := step_ensure s' _ _ _ Ha).
    assert (Ia := proj1 Sa). assert (Na := inputs_sty _ _ Ia).
    assert (Sb := step_on_box s' _ _ _ _ _ (r_copy_edges (mkCtx d dummy_font (cb_width d cb)) (mkCtx d dummy_font (cb_height d cb)) (mkCtx d dummy_font (height_base P d (cb_style_height sty cb) (cb_height d cb) (sty (n_style n)))) (sty (n_style n))) Hb).
    assert (Ib := proj1 Sb). assert (Nb := inputs_sty _ _ Ib).
    assert (Sc := step_width (mkCtx d dummy_font (cb_height d cb)) (mkCtx d dummy_font (height_base P d (cb_style_height sty cb) (cb_height d cb) (sty (n_style n)))) _ _ _ _ Hc).
    rewrite Nb, Na in Sc. change (style_in_px P _ _ _ (sty (n_style n))) with s' in Sc. assert (Ic := proj1 Sc). assert (Nc := inputs_sty _ _ Ic).
    assert (Sd : forall cb', cbrel cb cb' -> step s' nc nd ud (if is_relative s' then calculate_height_and_margins self (vctx d dummy_font cb) cb' else mret tt)).
    { intros cb' C. change (is_relative s') with (is_relative (sty (n_style n))). destruct (is_relative (sty (n_style n))).
      - assert (X := step_height cb cb' _ _ _ C Hd). rewrite Nc, Nb, Na in X. exact X.
      - injection Hd as <- <-. apply step_ret. }
    assert (Id : inputs nd = inputs nc). { destruct (is_relative (sty (n_style n))); [exact (proj2 (proj2 (frame_height _ _ _ _ _ Hd)))|injection Hd as <- <-; reflexivity]. }
    assert (Nd := inputs_sty _ _ Id).
    destruct (is_abspos (sty (n_style n))) eqn:Ab; [discriminate|]. destruct (is_float (sty (n_style n))) eqn:Fl; [discriminate|].
    assert (Zk : kz nd).
    { assert (Za : kz na).
      { unfold mset in Ha. destruct (ensure_boxA A n) as [x|e] eqn:En; [|discriminate]. injection Ha as <- _. apply i_ensure in En. subst x.
        inversion Zn as [s0 i0 bx0 ks0 Zb Zo Zs]; subst. cbn [n_style] in Ds. unfold ensure_box. cbn [n_box]. destruct bx0 as [b0|]; [|rewrite (Zo eq_refl) in Ds; discriminate].
        intros k K. apply Zs; [congruence|exact K]. }
      assert (Zb : kz nb) by (eapply kz_on_box; [exact Hb|exact Za]). assert (Zc : kz nc) by (eapply kz_width; [exact Hc|exact Zb]).
      destruct (is_relative (sty (n_style n))); [eapply kz_height; [exact Hd|exact Zc]|injection Hd as <- _; exact Zc]. }
    assert (Hc0 : ch_of nc = Some l0).
    { rewrite (ch_width _ _ _ _ Hc), (ch_on_box _ _ _ _ (kh_copy _ _ _) Hb). unfold mset in Ha. destruct (ensure_boxA A n) as [x|e] eqn:En; [|discriminate]. injection Ha as <- _. apply i_ensure in En. subst x.
      inversion Zn as [s0 i0 bx0 ks0 Zb Zo Zs]; subst. cbn [n_style] in Ds. unfold ensure_box. cbn [n_box]. destruct bx0 as [b0|]; [|rewrite (Zo eq_refl) in Ds; discriminate].
      unfold ch_of. cbn [n_box option_map]. rewrite (proj1 (Zb b0 eq_refl)). reflexivity. }
    assert (Kd : frame nc nd). { destruct (is_relative (sty (n_style n))); [eapply frame_height, Hd|injection Hd as <- _; repeat split]. }
    assert (Zc : kz nc).
    { assert (Za : kz na).
      { unfold mset in Ha. destruct (ensure_boxA A n) as [x|e] eqn:En; [|discriminate]. injection Ha as <- _. apply i_ensure in En. subst x.
        inversion Zn as [s0 i0 bx0 ks0 Zb Zo Zs]; subst. cbn [n_style] in Ds. unfold ensure_box. cbn [n_box]. destruct bx0 as [b0|]; [|rewrite (Zo eq_refl) in Ds; discriminate].
        intros k K. apply Zs; [congruence|exact K]. }
      eapply kz_width; [exact Hc|]. eapply kz_on_box; [exact Hb|exact Za]. }
    destruct nd as [s i [b|] ks]; [|discriminate]. destruct ue.
    apply (step_children _ (layout_box self fuel d dummy_font)) in He; [|..|exact Zk].
    2:{ intros b0 k k1 W0 H0 Zk0 Hk. destruct (IH (CBNode s b0) k k1 Zk0 Hk) as (_ & T & HT & HR). exists T. split; [cbn [cb_width cb_height] in HT; rewrite W0, H0 in HT; exact HT|].
        intros s2 c m Hc2 Hi Hfo. apply (HR (CBNode s2 b0) m); [split; [reflexivity|]; exists c; exact Hc2|exact Hi|exact Hfo]. }
    destruct He as (b2 & ks2 & Ts & -> & Cw & Ch & HTs & HCh).
    assert (Hs : s = n_style n). { transitivity (n_style nc); [exact Nd|]. congruence. } subst s.
    destruct (frame_height _ _ _ _ _ Hf) as (Kf & Wf & If). assert (Nf := inputs_sty _ _ If).
    assert (Inn : inputs (Node (n_style n) i (Some b) ks) = inputs n) by congruence.
    assert (Sg : sizes n1 = sizes nf /\ inputs n1 = inputs nf).
    { destruct cb as [|cs cbb].
      - destruct (step_shift CBView CBView _ _ _ I Hg) as [X [Y _]]. auto.
      - destruct (step_shift (CBNode cs cbb) (CBNode (pst LNone LNone None (sty cs)) cbb) _ _ _ (conj eq_refl (ex_intro _ _ eq_refl)) Hg) as [X [Y _]]. auto. }
    destruct Sg as [Wg Ig]. assert (N1 : n_style n1 = n_style n). { rewrite (inputs_sty _ _ Ig). exact Nf. }
    assert (HR : ks <> [] -> height_ref sty d (Some n1) = content_height b).
    { intros Hne. cbn [height_ref]. rewrite N1. assert (C1 := ch_shift _ _ _ _ Hg).
      destruct (is_relative (sty (n_style n))) eqn:Rel; [|injection Hd as Hd _; subst nc; injection Hc0 as ->; reflexivity].
      unfold calculate_height_and_marginsA in Hd, Hf. apply mbind_inv in Hd. destruct Hd as (nd1 & vd & Hd1 & Hd2). apply mbind_inv in Hf. destruct Hf as (nf1 & vf & Hf1 & Hf2).
      apply ch_add_top in Hd2. apply ch_add_top in Hf2. rewrite Nc, Nb, Na in Hd1. cbn [n_style n_intr] in Hf1.
      destruct nc as [sc ic [bc|] kc]; [|discriminate]. cbn [on_box n_intr] in Hd1, Hf1.
      assert (ic = i) as -> by (injection Id as _ -> _; reflexivity).
      destruct (calculate_heightA A (sty (n_style n)) i (cb_style_height sty cb) (last_layout (Node sc i (Some bc) kc)) _ bc) as [bd' rd] eqn:Cd. injection Hd1 as <- ->.
      destruct (calculate_heightA A (sty (n_style n)) i (cb_style_height sty cb) (last_layout (Node (n_style n) i (Some b2) ks2)) _ b2) as [bf' rf] eqn:Cf. injection Hf1 as <- ->.
      unfold ch_of in Hd2, Hf2, C1. cbn [n_box option_map] in Hd2, Hf2. rewrite Hf2 in C1. injection Hd2 as Hd2.
      assert (X : (is_block_level (sty (n_style n)) = true -> st_height (sty (n_style n)) <> Auto) -> content_height bf' = content_height b).
      { intros NA. rewrite Hd2. eapply (same_height_twice _ _ _ _ _ _ NA); [|exact Cf|exact Cd].
        destruct Kd as (_ & Kd & _). cbn in Kd. congruence. }
      destruct (n_box n1) as [b1|]; [|discriminate]. injection C1 as C1.
      destruct (is_block_level (sty (n_style n))) eqn:Bl, (st_height (sty (n_style n))) as [|u] eqn:Hh; try (rewrite C1; apply X; congruence).
      symmetry. rewrite Hd2.
      assert (NK : kc <> []). { intros ->. destruct Kd as (Kd & _). cbn in Kd. destruct ks; [congruence|discriminate]. }
      assert (LZ : exists k, In k kc /\ last_layout (Node sc i (Some bc) kc) = Some (n_box k)).
      { unfold last_layout. cbn [n_kids]. destruct (rev kc) as [|k l] eqn:Rv; [apply (f_equal (@rev _)) in Rv; rewrite rev_involutive in Rv; contradiction|].
        exists k. split; [|reflexivity]. apply in_rev. rewrite Rv. left. reflexivity. }
      destruct LZ as (k & Kk & Ll). rewrite Ll in Cd. assert (Zkk := Zc k Kk). inversion Zkk as [s0 i0 bx0 ks0 Zb Zo Zs]; subst k. cbn [n_box] in Cd.
      destruct bx0 as [lb|].
      - eapply auto_height_zero; [exact Bl|exact Hh|exact (Zb lb eq_refl)|exact Cd].
      - clear -Cd Bl Hh. exfalso. unfold calculate_heightA in Cd. destruct (is_float _); [discriminate|]. destruct (is_abspos _); [discriminate|].
        assert (N : is_inline (sty (n_style n)) = false). { unfold is_block_level in Bl. unfold is_inline. destruct (st_display _) as [[]|]; try discriminate; reflexivity. }
        rewrite N, Bl in Cd. destruct (s_replaced i); [discriminate|]. unfold block_non_replaced_heightA, block_content_heightA in Cd. rewrite Hh in Cd. discriminate. }
    split; [exact N1|]. exists (Node s' i None Ts). split.
    + assert (Hks : exists b0 ks0, n = Node (n_style n) i b0 ks0 /\ map inputs ks = map inputs ks0).
      { apply inputs_inv in Inn. destruct Inn as (b0 & ks0 & E0 & Ek). exists b0, ks0. auto. }
      destruct Hks as (b0 & ks0 & E0 & Ek). rewrite E0. apply Ip.
      assert (K1 : map sizes ks2 = map sizes (n_kids n1)). { rewrite (kids_sizes _ _ Wg). symmetry. exact Kf. }
      assert (W1 : containing_width d (Some n1) = content_width b). { rewrite (sizes_containing _ _ Wg), Wf. exact Cw. }
      assert (P1 : parent_height sty (Some n1) = declared_height (n_style n)). { cbn [parent_height]. rewrite N1. reflexivity. }
      rewrite W1, P1. destruct ks as [|k ks].
      * inversion HTs; subst. destruct ks0; [|discriminate]. destruct (n_kids n1); [|discriminate]. constructor.
      * rewrite HR by discriminate. eapply all3_ext; [|exact Ek|exact K1|exact HTs].
        intros k1 k' o o' T _ Ik Wk X. eapply ip_ext; eassumption.
    + intros cb' m C Hi Hfo.
      assert (Ms : n_style m = s') by (exact (inputs_sty _ _ Hi)).
      destruct (step_bind _ _ _ _ _ _ _ (fun _ => _) Sa (step_bind _ _ _ _ _ _ _ (fun _ => _) Sb (step_bind _ _ _ _ _ _ _ (fun _ => _) Sc (Sd cb' C)))) as [I4 S4].
      destruct (S4 m Ms Hfo) as (m4 & E4 & F4 & J4).
      assert (M4 : exists ms, m4 = Node s' i (Some b) ms /\ map inputs ms = map inputs Ts /\ map (@forget style) ms = map (@forget S) ks).
      { destruct m4 as [t4 i4 b4 ms]. injection F4 as -> -> F4. rewrite Hi in J4. injection J4 as -> J4. exists ms. auto. }
      destruct M4 as (ms & -> & Ji & Fk).
      destruct (HCh s' (mkCtx d dummy_font (height_base P d (cb_style_height sty cb) (cb_height d cb) (sty (n_style n)))) ms eq_refl eq_refl Ji Fk) as (ms2 & E5 & J5 & F5).
      assert (S6 := step_height cb cb' _ _ _ C Hf). cbn [n_style] in S6. fold s' in S6.
      destruct (step_shift cb cb' _ _ _ C Hg) as [_ S7]. rewrite Nf in S7. cbn [n_style] in S7. fold s' in S7.
      destruct (step_bind _ _ _ _ _ _ _ (fun _ => _) S6 S7) as [I7 S67].
      destruct (S67 (Node s' i (Some b2) ms2) eq_refl) as (m7 & E7 & F7 & J7); [cbn [forget]; rewrite F5; reflexivity|].
      exists m7. split; [|split; [rewrite J7; cbn [inputs]; rewrite J5; reflexivity|exact F7]].
      cbn [layout_box]. rewrite Ms. change (st_display s') with (st_display (sty (n_style n))). rewrite Ds.
      change (is_abspos s') with (is_abspos (sty (n_style n))). change (is_float s') with (is_float (sty (n_style n))). rewrite Ab, Fl.
      unfold hctx, vctx. rewrite (cbrel_w _ _ C), (cbrel_h _ _ C).
      assert (Q : mbind (mmod ensure_box) (fun _ => mbind (on_box (copy_edges s' (mkCtx d dummy_font (cb_width d cb)) (mkCtx d dummy_font (cb_height d cb)))) (fun _ => mbind (calculate_width_and_margins self (mkCtx d dummy_font (cb_width d cb))) (fun _ => if is_relative s' then calculate_height_and_margins self (mkCtx d dummy_font (cb_height d cb)) cb' else mret tt))) m = (Node s' i (Some b) ms, Ok ud)) by exact E4.
      clear -Q E5 E7.
      unfold mbind in Q |- *. destruct (mmod ensure_box m) as [x1 [u1|e1]]; [|discriminate]. destruct (on_box _ x1) as [x2 [u2|e2]]; [|discriminate].
      destruct (calculate_width_and_margins self _ x2) as [x3 [u3|e3]]; [|discriminate]. rewrite Q, E5. exact E7.
  - injection H as <-. split; [destruct n; reflexivity|]. destruct (ip_hidden n (cb_width d cb) (cb_height d cb) (cb_style_height sty cb)) as [T HT]. exists T. split; [exact HT|].
    intros cb' m C Hi Hf. exists (with_box None m). cbn [layout_box]. rewrite (inputs_sty _ _ Hi), (ip_style _ _ _ _ _ _ HT), Ds. split; [reflexivity|].
    destruct m as [t j bx ls], n as [s i bx' ks]. split; [exact Hi|]. injection Hf as -> _ Hk. cbn [with_box forget]. rewrite Hk. reflexivity.
Qed.
(** ** layout *)
Lemma step_finish s' h5 (n n' : node) : finish_rootA A d h5 n = (n', Ok tt) -> step s' n n' tt (finish_root d h5).
Proof.
  intros H. unfold finish_rootA in H. destruct (n_box n) as [b|] eqn:B; [|discriminate].
  apply mbind_inv in H. destruct H as (n1 & u & H1 & H2).
  assert (S1 : step s' n n1 u (mmod (set_content_top (nadd (content_top b) (NI (collapse_top b)))))).
  { unfold mset in H1. destruct (a_add A (content_top b) (NI (collapse_top b))) as [w|e] eqn:W; [|discriminate]. cbn [bindr] in H1.
    destruct (set_content_topA A w n) as [x|e] eqn:C; [|discriminate]. injection H1 as <- <-. apply (se_add _ _ SE) in W. subst w. apply i_content_top in C. subst x.
    split; [apply inputs_content_top|]. intros m Hs Hf. eexists. split; [reflexivity|]. split; [|apply inputs_content_top]. rewrite !forget_content_top, Hf. reflexivity. }
  assert (S2 : step s' n1 n' tt (if h5 then on_box (bmod (upd_content_height (LNum (nsub (nsub (disp_height d) (NI (collapse_top b))) (NI (collapse_bottom b)))))) else mret tt)).
  { destruct h5; [|injection H2 as <-; apply step_ret].
    apply mbind_inv in H2. destruct H2 as (n2 & v & H2 & H3). injection H2 as <- Hv. unfold a_diff in Hv. cbn [fold_left] in Hv. 
    apply (step_on_box s' _ _ _ _ _ (rb_refl _)) in H3.
    replace v with (nsub (nsub (disp_height d) (NI (collapse_top b))) (NI (collapse_bottom b))) in H3; [exact H3|].
    cbn [bindr] in Hv. destruct (a_sub A (disp_height d) (NI (collapse_top b))) as [x|e] eqn:X; [|discriminate]. cbn [bindr] in Hv. destruct (a_sub A x (NI (collapse_bottom b))) as [y|e] eqn:Y; [|discriminate]. injection Hv as <-. rewrite (se_sub _ _ SE _ _ _ Y), (se_sub _ _ SE _ _ _ X). reflexivity. }
  destruct (step_bind _ _ _ _ _ _ _ (fun _ => _) S1 S2) as [I3 S3]. split; [exact I3|].
  intros m Hs Hf. unfold finish_root. rewrite (forget_box _ _ Hf), B. exact (S3 m Hs Hf).
Qed.
(** What completing the root leaves alone. *)
Lemma ip_finish h5 (n n1 n2 : node) w h ph T : (h5 = false \/ is_relative (sty (n_style n1)) = false) -> finish_rootA A d h5 n1 = (n2, Ok tt) -> ip w h ph n n1 T -> ip w h ph n n2 T.
Proof.
  intros R H HT. assert (I2 := proj1 (step_finish (sty (n_style n)) h5 _ _ H)). unfold finish_rootA in H. destruct (n_box n1) as [b|] eqn:B; [|discriminate].
  apply mbind_inv in H. destruct H as (n1' & u & H1 & H2).
  assert (S1 : sizes n1 = sizes n1').
  { unfold mset in H1. destruct (a_add A (content_top b) (NI (collapse_top b))) as [x|e] eqn:W; [|discriminate]. cbn [bindr] in H1.
    destruct (set_content_topA A x n1) as [y|e] eqn:C; [|discriminate]. injection H1 as <- <-. apply i_content_top in C. subst y. rewrite sizes_content_top. reflexivity. }
  assert (X := ip_ext n _ _ _ n n1 n1' T eq_refl S1 HT). destruct h5; [|injection H2 as <-; exact X].
  destruct R as [R|R]; [discriminate|].
  apply mbind_inv in H2. destruct H2 as (n3 & v & H2 & H3). injection H2 as <- Hv.
  assert (Rs : is_relative (sty (n_style n1')) = false). { destruct n1, n1'. injection S1 as -> _ _. exact R. }
  destruct n1' as [s' i' [b'|] ks']; [|discriminate]. injection H3 as <-. inversion X as [w0 h0 ph0 s0 i0 b0 ks0 out0 b0' ks0' Hk]; subst.
  constructor. cbn [n_kids] in *. cbn [n_style] in Rs. cbn [containing_width height_ref parent_height n_style n_box] in Hk |- *. rewrite Rs in Hk |- *.
  destruct b'; exact Hk.
Qed.
Lemma in_pixels_layout h5 (n out : node) : ready sty n -> (h5 = false \/ is_relative (sty (n_style n)) = false) -> layoutA A sty d h5 n = (out, Ok tt) ->
  exists m out', in_pixels P d sty None n out m /\ forget m = forget n /\ layout self d h5 m = (out', Ok tt) /\ forget out' = forget out.
Proof.
  intros Rd R H. unfold layoutA in H. destruct (n_box n) as [b|] eqn:B; [|discriminate].
  apply mbind_inv in H. destruct H as (na & ua & Ha & H). injection Ha as <- _.
  apply mbind_inv in H. destruct H as (nb & ub & Hb & Hc). destruct ub.
  destruct (in_pixels_box _ _ _ _ (zeroed_reset _ Rd) Hb) as (Ns & T & HT & HR).
  replace (n_style (reset n)) with (n_style n) in Ns by (destruct n as [s0 i0 [b0|] ks0]; reflexivity).
  rewrite <- Ns in R. assert (HT2 := ip_finish _ _ _ _ _ _ _ _ R Hc HT). 
  assert (HT3 := ip_ext (reset n) _ _ _ n out out T (inputs_reset n) eq_refl HT2).
  destruct (ip_dress _ _ _ _ _ _ HT3) as (m & Hm & Im & Fm).
  destruct (HR CBView (reset m) I) as (m1 & E1 & I1 & F1); [rewrite inputs_reset; exact Im|rewrite !forget_reset, Fm; reflexivity|].
  assert (S2 := step_finish (n_style m1) h5 _ _ Hc). destruct S2 as [_ S2]. destruct (S2 m1 eq_refl F1) as (m2 & E2 & F2 & _).
  exists m, m2. split; [apply ip_in_pixels, Hm|]. split; [exact Fm|]. split; [|exact F2].
  unfold layout. rewrite (forget_box _ _ Fm), B. unfold mbind, mmod. rewrite <- (forget_height m), Fm, forget_height, E1. exact E2.
Qed.
End Res.
