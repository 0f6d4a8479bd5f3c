(** * The engine over an arithmetic: the exact instance is Engine.v, and every arithmetic that agrees with the checked one runs in step with it *)
From Coq Require Import ZArith QArith Qcanon Qabs Qround Lqa Lia Bool List.
From Verif Require Import PyNum NumFacts Float64 Units UnitsSpec UnitsFacts UnitsProps FloatUnits BoxModel BoxSpec BoxFacts Engine EngineGrid EngineArith.
Import ListNotations.
Open Scope Z_scope.

(** ** The exact instance *)
Lemma rmap_ok {X} (f : X -> res X) (g : X -> X) l : (forall x, In x l -> f x = Ok (g x)) -> rmap f l = Ok (map g l).
Proof.
  induction l as [|x l IH]; intros H; [reflexivity|].
  change (rmap f (x :: l)) with (y <-r f x ;; r <-r rmap f l ;; Ok (y :: r)).
  rewrite (H x) by (left; reflexivity). cbn [bindr]. rewrite IH by (intros y Y; apply H; right; exact Y). reflexivity.
Qed.
Section Exact.
Context {S : Type} (sty : S -> style).
Notation node := (node S).
Notation E := exact_arith.
Lemma ex_origin_top (n : node) : forall v, set_origin_topA E v n = Ok (set_origin_top v n).
Proof.
  induction n as [s i bx ks IH] using node_ind'; intros v. destruct bx as [b|]; [|reflexivity]. cbn [set_origin_topA set_origin_top].
  destruct neqb; [reflexivity|]. rewrite (rmap_ok _ (set_origin_top (nadd v (content_top b)))); [destruct b; reflexivity|].
  intros k K. destruct k as [s' i' [b'|] ks']; cbn [n_box]; [|reflexivity]. cbn [a_add bindr exact_arith]. apply IH, K.
Qed.
Lemma ex_origin_left (n : node) : forall v, set_origin_leftA E v n = Ok (set_origin_left v n).
Proof.
  induction n as [s i bx ks IH] using node_ind'; intros v. destruct bx as [b|]; [|reflexivity]. cbn [set_origin_leftA set_origin_left].
  destruct neqb; [reflexivity|]. rewrite (rmap_ok _ (set_origin_left (nadd v (content_left b)))); [destruct b; reflexivity|].
  intros k K. destruct k as [s' i' [b'|] ks']; cbn [n_box]; [|reflexivity]. cbn [a_add bindr exact_arith]. apply IH, K.
Qed.
Lemma ex_content_top v (n : node) : set_content_topA E v n = Ok (set_content_top v n).
Proof.
  destruct n as [s i [b|] ks]; [|reflexivity]. cbn [set_content_topA set_content_top].
  destruct neqb; [reflexivity|]. rewrite (rmap_ok _ (set_origin_top (nadd (origin_top b) v))); [destruct b; reflexivity|].
  intros k K. destruct k as [s' i' [b'|] ks']; cbn [n_box]; [|reflexivity]. cbn [a_add bindr exact_arith]. apply ex_origin_top.
Qed.
Lemma ex_content_left v (n : node) : set_content_leftA E v n = Ok (set_content_left v n).
Proof.
  destruct n as [s i [b|] ks]; [|reflexivity]. cbn [set_content_leftA set_content_left].
  destruct neqb; [reflexivity|]. rewrite (rmap_ok _ (set_origin_left (nadd (origin_left b) v))); [destruct b; reflexivity|].
  intros k K. destruct k as [s' i' [b'|] ks']; cbn [n_box]; [|reflexivity]. cbn [a_add bindr exact_arith]. apply ex_origin_left.
Qed.
Lemma ex_reset_self (n : node) : reset_selfA E n = Ok (reset_self n).
Proof.
  destruct n as [s i bx ks]. cbn [reset_selfA reset_self]. rewrite (rmap_ok _ (fun k => set_origin_left n0 (set_origin_top n0 k))); [reflexivity|].
  intros k K. destruct k as [s' i' [b'|] ks'] eqn:Ek; cbn [n_box]; [|reflexivity]. rewrite <- Ek. cbn [a_add bindr exact_arith].
  change (nadd n0 n0) with n0. rewrite ex_origin_top. cbn [bindr]. apply ex_origin_left.
Qed.
Lemma ex_width s i c b : calculate_widthA E s i c b = calculate_width s i c b.
Proof.
  assert (AU : forall x f y, add_unless_autoA E x f y = add_unless_auto x f y) by reflexivity.
  unfold calculate_widthA, calculate_width. destruct is_float; [reflexivity|]. destruct is_abspos; [reflexivity|]. destruct is_inline.
  - destruct s_replaced; [|reflexivity]. unfold inline_replaced_widthA, inline_replaced_width.
    destruct (st_width s), (st_height s), (s_width i), (s_height i), (s_ratio i); reflexivity.
  - destruct is_block_level; [|reflexivity]. destruct s_replaced; reflexivity.
Qed.
Lemma ex_height s i ph last c b : calculate_heightA E s i ph last c b = calculate_height s i ph last c b.
Proof.
  unfold calculate_heightA, calculate_height. destruct is_float; [reflexivity|]. destruct is_abspos; [reflexivity|]. destruct is_inline.
  - destruct s_replaced; reflexivity.
  - destruct is_block_level; [|reflexivity]. destruct s_replaced; reflexivity.
Qed.
Lemma on_box_ext {X} (m m' : BM X) (n : node) : (forall b, m b = m' b) -> on_box m n = on_box m' n.
Proof. intros H. destruct n as [s i [b|] ks]; cbn; [rewrite H|]; reflexivity. Qed.
Lemma mbind_ext {X Y} (m m' : M (S := S) X) (f f' : X -> M Y) n :
  m n = m' n -> (forall x n', f x n' = f' x n') -> mbind m f n = mbind m' f' n.
Proof. intros H F. unfold mbind. rewrite H. destruct (m' n) as [n' [x|e]]; [apply F|reflexivity]. Qed.
Lemma ex_add_top v (n : node) : add_content_topA E v n = add_content_top v n.
Proof. unfold add_content_topA, add_content_top, mset. destruct (n_box n); [|reflexivity]. cbn [a_add bindr exact_arith]. rewrite ex_content_top. reflexivity. Qed.
Lemma ex_add_left v (n : node) : add_content_leftA E v n = add_content_left v n.
Proof. unfold add_content_leftA, add_content_left, mset. destruct (n_box n); [|reflexivity]. cbn [a_add bindr exact_arith]. rewrite ex_content_left. reflexivity. Qed.
Lemma ex_width_m c (n : node) : calculate_width_and_marginsA E sty c n = calculate_width_and_margins sty c n.
Proof.
  unfold calculate_width_and_marginsA, calculate_width_and_margins. apply mbind_ext; [apply on_box_ext; intros b; apply ex_width|].
  intros [l|] n'; [|reflexivity]. unfold mset. rewrite ex_content_left. reflexivity.
Qed.
Lemma ex_height_m c cb (n : node) : calculate_height_and_marginsA E sty c cb n = calculate_height_and_margins sty c cb n.
Proof.
  unfold calculate_height_and_marginsA, calculate_height_and_margins. apply mbind_ext; [apply on_box_ext; intros b; apply ex_height|].
  intros d n'. apply ex_add_top.
Qed.
Lemma ex_place (k : node) b off bm : place_childA E k b off bm = place_child k b off bm.
Proof.
  unfold place_childA, place_child. destruct (n_box k) as [kb|]; [|reflexivity].
  destruct bm as [m|].
  - destruct (as_num (margin_top kb)); [|reflexivity]. cbn [bindr a_add exact_arith]. rewrite ex_content_top.
    unfold border_box_heightA, border_box_height. destruct (as_num (content_height kb)); reflexivity.
  - cbn [bindr a_add exact_arith]. rewrite ex_content_top.
    unfold border_box_heightA, border_box_height. destruct (as_num (content_height kb)); reflexivity.
Qed.
Lemma ex_flow lay lay' ks : (forall b (k : node), lay b k = lay' b k) -> forall pend b off bm,
  flowA E sty lay ks pend b off bm = flow sty lay' ks pend b off bm.
Proof.
  intros L. induction ks as [|k ks IH]; intros pend b off bm; [reflexivity|]. cbn [flowA flow]. destruct is_block_level.
  - destruct pend; [reflexivity|]. rewrite L. destruct (lay' b k) as [k1 [u|e]]; [|reflexivity]. rewrite ex_place.
    destruct (place_child k1 b off bm) as [[k2 b2] [[o m]|e]]; [|reflexivity]. rewrite IH. reflexivity.
  - rewrite IH. reflexivity.
Qed.
Lemma lay_all_ext lay lay' (ks : list node) : (forall k, lay k = lay' k) -> lay_all lay ks = lay_all lay' ks.
Proof. intros L. induction ks as [|k ks IH]; [reflexivity|]. cbn [lay_all]. rewrite L, IH. reflexivity. Qed.
Lemma ex_children lay lay' (n : node) : (forall cb k, lay cb k = lay' cb k) -> layout_childrenA E sty lay n = layout_children sty lay' n.
Proof.
  intros L. destruct n as [s i [b|] ks]; [|reflexivity]. cbn [layout_childrenA layout_children]. destruct establishes_inline.
  - rewrite (lay_all_ext _ (lay' (CBNode s b))); [reflexivity|]. intros k. apply L.
  - rewrite (ex_flow _ (fun b0 => lay' (CBNode s b0))); [reflexivity|]. intros b' k. apply L.
Qed.
Lemma ex_shift d f cb (n : node) : relative_shiftA E sty d f cb n = relative_shift sty d f cb n.
Proof.
  unfold relative_shiftA, relative_shift. destruct is_relative; [|reflexivity].
  apply mbind_ext; [destruct (st_left (sty (n_style n))), (st_right (sty (n_style n))); reflexivity|].
  intros vl n1. apply mbind_ext; [apply ex_add_left|]. intros _ n2.
  apply mbind_ext; [destruct (st_top (sty (n_style n))), (st_bottom (sty (n_style n))); reflexivity|]. intros vt n3. apply ex_add_top.
Qed.
Lemma ex_layout_box fuel : forall d f cb (n : node), layout_boxA E sty fuel d f cb n = layout_box sty fuel d f cb n.
Proof.
  induction fuel as [|fuel IH]; intros d f cb n; [reflexivity|]. cbn [layout_boxA layout_box].
  destruct (st_display (sty (n_style n))); [|reflexivity].
  apply mbind_ext.
  { unfold mset, mmod, ensure_boxA, ensure_box. destruct (n_box n); [reflexivity|]. rewrite ex_reset_self. reflexivity. }
  intros _ n1. apply mbind_ext; [reflexivity|]. intros _ n2. apply mbind_ext; [apply ex_width_m|].
  intros _ n3. apply mbind_ext; [destruct is_relative; [apply ex_height_m|reflexivity]|].
  intros _ n4. apply mbind_ext.
  { destruct is_abspos; [reflexivity|]. destruct is_float; [reflexivity|]. apply ex_children. intros cb' k. apply IH. }
  intros _ n5. apply mbind_ext; [apply ex_height_m|]. intros _ n6. apply ex_shift.
Qed.
Lemma ex_layout d h5 (n : node) : layoutA E sty d h5 n = layout sty d h5 n.
Proof.
  unfold layoutA, layout. destruct (n_box n); [|reflexivity]. apply mbind_ext; [reflexivity|]. intros _ n1.
  apply mbind_ext; [apply ex_layout_box|]. intros _ n2. unfold finish_rootA, finish_root. destruct (n_box n2) as [b2|]; [|reflexivity].
  unfold mbind, mset. cbn [a_add bindr exact_arith]. rewrite ex_content_top. destruct h5; reflexivity.
Qed.
End Exact.

(** ** Arithmetics that agree with the checked one on multiples of 1/64 px *)
Record conforms (K A : arith) : Prop := mkConforms {
  cf_add : forall x y r, gn x -> gn y -> a_add K x y = Ok r -> a_add A x y = Ok r;
  cf_sub : forall x y r, gn x -> gn y -> a_sub K x y = Ok r -> a_sub A x y = Ok r;
  cf_mul : forall x y z r, gn x -> nval y = Z2Qc z -> a_mul K x y = Ok r -> a_mul A x y = Ok r;
  cf_half : forall x r, gn x -> a_half K x = Ok r -> a_half A x = Ok r;
  cf_px : forall c u, a_px K c u <> Err Unmodelled -> a_px A c u = a_px K c u }.
(** A checked arithmetic: the exact operations with a guard, and conversions to multiples of 1/64 px. *)
Record checks (K : arith) : Prop := mkChecks {
  ck_add : forall x y, a_add K x y = guarded (nadd x y) [x; y];
  ck_sub : forall x y, a_sub K x y = guarded (nsub x y) [x; y];
  ck_mul : forall x y, a_mul K x y = guarded (nmul x y) [x; y];
  ck_half : forall x, a_half K x = guarded (nhalf x) [x];
  ck_px : forall c u x, a_px K c u = Ok x -> gn x }.

Lemma guarded_ok r xs v : guarded r xs = Ok v -> v = r /\ forallb small xs = true /\ small r = true.
Proof.
  unfold guarded. cbn [forallb]. destruct (small r); cbn [andb]; [|discriminate]. destruct (forallb small xs); [|discriminate].
  intros H. apply Ok_inj in H. auto.
Qed.
Lemma guarded_cases r xs : guarded r xs = Ok r \/ guarded r xs = Err Unmodelled.
Proof. unfold guarded. destruct forallb; auto. Qed.

(** [r1] is the checked result, [r2] the other. *)
Definition sr {X} (P : X -> Prop) (r1 r2 : res X) : Prop := r1 = Err Unmodelled \/ (r1 = r2 /\ forall a, r1 = Ok a -> P a).
Lemma sr_ok {X} (P : X -> Prop) x : P x -> sr P (Ok x) (Ok x).
Proof. intros H. right. split; [reflexivity|]. intros a E. apply Ok_inj in E. subst. exact H. Qed.
Lemma sr_refl {X} (P : X -> Prop) r : (forall a, r = Ok a -> P a) -> sr P r r.
Proof. intros H. right. auto. Qed.
Lemma sr_err {X} (P : X -> Prop) e : sr P (Err e) (Err e).
Proof. right. split; [reflexivity|discriminate]. Qed.
Lemma sr_bind {X Y} (P : X -> Prop) (Q : Y -> Prop) r1 r2 f1 f2 :
  sr P r1 r2 -> (forall a, P a -> sr Q (f1 a) (f2 a)) -> sr Q (bindr r1 f1) (bindr r2 f2).
Proof.
  intros [-> |[<- H]] F; [left; reflexivity|]. destruct r1 as [a|e]; cbn; [apply F, H; reflexivity|apply sr_err].
Qed.
Lemma sr_weaken {X} (P Q : X -> Prop) r1 r2 : (forall a, P a -> Q a) -> sr P r1 r2 -> sr Q r1 r2.
Proof. intros W [H|[E H]]; [left; exact H|right]. split; [exact E|]. intros a X'. exact (W a (H a X')). Qed.

Section Sim.
Variables K A : arith.
Hypothesis CK : checks K.
Hypothesis CF : conforms K A.
Lemma s_add x y : gn x -> gn y -> sr gn (a_add K x y) (a_add A x y).
Proof.
  intros X Y. destruct (guarded_cases (nadd x y) [x; y]) as [E|E]; rewrite <- (ck_add K CK) in E; [|left; exact E].
  right. rewrite E. rewrite (cf_add K A CF x y (nadd x y) X Y E).
  split; [reflexivity|]. intros a H. apply Ok_inj in H. subst. apply gn_add; assumption.
Qed.
Lemma s_sub x y : gn x -> gn y -> sr gn (a_sub K x y) (a_sub A x y).
Proof.
  intros X Y. destruct (guarded_cases (nsub x y) [x; y]) as [E|E]; rewrite <- (ck_sub K CK) in E; [|left; exact E].
  right. rewrite E. rewrite (cf_sub K A CF x y (nsub x y) X Y E).
  split; [reflexivity|]. intros a H. apply Ok_inj in H. subst. apply gn_sub; assumption.
Qed.
Lemma s_mul x y z : gn x -> nval y = Z2Qc z -> sr gn (a_mul K x y) (a_mul A x y).
Proof.
  intros X Y. destruct (guarded_cases (nmul x y) [x; y]) as [E|E]; rewrite <- (ck_mul K CK) in E; [|left; exact E].
  right. rewrite E. rewrite (cf_mul K A CF x y z (nmul x y) X Y E).
  split; [reflexivity|]. intros a H. apply Ok_inj in H. subst. eapply gn_mul_whole; eassumption.
Qed.
Lemma s_half x : gn x -> sr gn (a_half K x) (a_half A x).
Proof.
  intros X. destruct (guarded_cases (nhalf x) [x]) as [E|E]; rewrite <- (ck_half K CK) in E; [|left; exact E].
  right. rewrite E. rewrite (cf_half K A CF x (nhalf x) X E).
  split; [reflexivity|]. intros a H. apply Ok_inj in H. subst. apply gn_half.
Qed.
Lemma s_px c u : sr gn (a_px K c u) (a_px A c u).
Proof.
  assert (D : a_px K c u = Err Unmodelled \/ a_px K c u <> Err Unmodelled).
  { destruct (a_px K c u) as [x|[]]; try (right; discriminate); left; reflexivity. }
  destruct D as [D|D]; [left; exact D|right]. rewrite (cf_px K A CF c u D). split; [reflexivity|]. apply ck_px, CK.
Qed.
Lemma s_sum ys : forall x, gn x -> (forall y, In y ys -> gn y) -> sr gn (a_sum K x ys) (a_sum A x ys).
Proof.
  induction ys as [|y ys IH]; intros x X Y; [apply sr_ok, X|]. cbn [a_sum]. eapply sr_bind; [apply s_add; [exact X|apply Y; left; reflexivity]|].
  intros z Z. apply IH; [exact Z|]. intros w W. apply Y. right. exact W.
Qed.
Lemma s_diff ys : forall x, gn x -> (forall y, In y ys -> gn y) -> sr gn (a_diff K x ys) (a_diff A x ys).
Proof.
  induction ys as [|y ys IH]; intros x X Y; [apply sr_ok, X|]. cbn [a_diff]. eapply sr_bind; [apply s_sub; [exact X|apply Y; left; reflexivity]|].
  intros z Z. apply IH; [exact Z|]. intros w W. apply Y. right. exact W.
Qed.
Ltac gin := let y := fresh in let H := fresh in intros y H; cbn [In] in H; repeat (destruct H as [<- |H]; [assumption|]); destruct H.

(** ** Boxes *)
Definition sb {X} (P : X -> Prop) (m1 m2 : BM X) : Prop :=
  forall b, gbox b -> snd (m1 b) = Err Unmodelled \/ (m1 b = m2 b /\ gbox (fst (m1 b)) /\ forall a, snd (m1 b) = Ok a -> P a).
Lemma sb_ret {X} (P : X -> Prop) a : P a -> sb P (bret a) (bret a).
Proof. intros H b G. right. split; [reflexivity|split; [exact G|]]. intros a' E. apply Ok_inj in E. subst. exact H. Qed.
Lemma sb_fail {X} (P : X -> Prop) e : sb P (bfail e) (bfail e).
Proof. intros b G. right. split; [reflexivity|split; [exact G|discriminate]]. Qed.
Lemma sb_same {X} (P : X -> Prop) m : gp m P -> sb P m m.
Proof. intros H b G. right. destruct (H b G) as [G1 R]. auto. Qed.
Lemma sb_bind {X Y} (P : X -> Prop) (Q : Y -> Prop) m1 m2 f1 f2 :
  sb P m1 m2 -> (forall a, P a -> sb Q (f1 a) (f2 a)) -> sb Q (bbind m1 f1) (bbind m2 f2).
Proof.
  intros H F b G. unfold bbind. destruct (H b G) as [E|(E & G1 & R)].
  - left. destruct (m1 b) as [b' r]. cbn in E. subst r. reflexivity.
  - rewrite <- E. destruct (m1 b) as [b' [a|e]]; cbn in *; [exact (F a (R a eq_refl) b' G1)|]. right. split; [reflexivity|split; [exact G1|discriminate]].
Qed.
Lemma sb_lift {X} (P : X -> Prop) r1 r2 : sr P r1 r2 -> sb P (blift r1) (blift r2).
Proof. intros [E|[E H]] b G; [left; exact E|right]. unfold blift. rewrite E in *. cbn. auto. Qed.
Lemma sb_if {X} (P : X -> Prop) (c : bool) m1 m2 k1 k2 : sb P m1 m2 -> sb P k1 k2 -> sb P (if c then m1 else k1) (if c then m2 else k2).
Proof. destruct c; auto. Qed.
Ltac sfld := intros ? HG; gdes HG; assumption.
Ltac sget := eapply sb_bind; [first [apply sb_same, gp_num; sfld | apply sb_same, (gp_get _ gn); sfld | apply sb_lift, sr_refl, gr_num; assumption]|intros ? ?].
Ltac smod := eapply sb_bind; [apply sb_same; first [apply gp_auto_left0 | apply gp_auto_right0 | apply gp_auto_top0 | apply gp_auto_bottom0]|intros _ _].

Lemma s_bbb b : gbox b -> sr gn (border_box_bottomA K b) (border_box_bottomA A b).
Proof. intros G. gdes G. unfold border_box_bottomA. eapply sr_bind; [apply sr_refl, gr_num; assumption|]. intros h H. apply s_sum; [assumption|gin]. Qed.
Lemma s_bbh b : gbox b -> sr gn (border_box_heightA K b) (border_box_heightA A b).
Proof. intros G. gdes G. unfold border_box_heightA. eapply sr_bind; [apply sr_refl, gr_num; assumption|]. intros h H. apply s_sum; [assumption|gin]. Qed.
Lemma s_calc_len c u : sr gn (calc_lenA K c u) (calc_lenA A c u).
Proof. unfold calc_lenA. destruct u_eq_int; [apply sr_ok, gn_int|apply s_px]. Qed.
Lemma s_calc_margin c v : sr gl (calc_marginA K c v) (calc_marginA A c v).
Proof. destruct v; cbn [calc_marginA]; [apply sr_ok; exact I|]. eapply sr_bind; [apply s_calc_len|]. intros n N. apply sr_ok. exact N. Qed.
Lemma s_calc_border d f l v : gdisp d -> sr gn (calc_borderA K (mkCtx d f l) v) (calc_borderA A (mkCtx d f l) v).
Proof. intros (_ & _ & F). destruct v; cbn; [apply sr_ok, F|apply s_calc_len]. Qed.
Lemma s_edge {X} (r1 r2 : res X) (P : X -> Prop) (f : X -> box -> box) :
  sr P r1 r2 -> (forall a b, P a -> gbox b -> gbox (f a b)) ->
  sb (fun _ => True) (bbind (blift r1) (fun v => bmod (f v))) (bbind (blift r2) (fun v => bmod (f v))).
Proof. intros R F. eapply sb_bind; [apply sb_lift, R|]. intros a Pa. apply sb_same, gp_mod. intros b. apply F, Pa. Qed.
Lemma s_copy_edges s d f l l' : gdisp d ->
  sb (fun _ => True) (copy_edgesA K s (mkCtx d f l) (mkCtx d f l')) (copy_edgesA A s (mkCtx d f l) (mkCtx d f l')).
Proof.
  intros D. unfold copy_edgesA.
  repeat (eapply sb_bind; [|intros _ _]).
  all: eapply s_edge;
    [first [apply s_calc_margin | apply s_calc_border; exact D | apply s_calc_len]|].
  all: intros a b X B; first [apply gb_mt | apply gb_mr | apply gb_mb | apply gb_ml | apply gb_bt | apply gb_br | apply gb_bb | apply gb_bl
    | apply gb_pt | apply gb_pr | apply gb_pb | apply gb_pl]; assumption.
Qed.
Lemma s_left_edge : sb gn (left_edgeA K) (left_edgeA A).
Proof. unfold left_edgeA. do 3 sget. apply sb_lift, s_sum; [assumption|gin]. Qed.
Lemma s_top_edge : sb gn (top_edgeA K) (top_edgeA A).
Proof. unfold top_edgeA. do 3 sget. apply sb_lift, s_sum; [assumption|gin]. Qed.
Lemma s_avail c : gl (c_size c) -> sb gn (avail_widthA K c) (avail_widthA A c).
Proof. intros C. unfold avail_widthA. do 7 sget. apply sb_lift, s_diff; [assumption|gin]. Qed.
Lemma s_solve_right cw c : gn cw -> gl (c_size c) -> sb (fun _ => True) (solve_rightA K cw c) (solve_rightA A cw c).
Proof.
  intros W C. unfold solve_rightA. do 6 sget. eapply sb_bind; [apply sb_lift, s_diff; [assumption|gin]|intros m M].
  apply sb_same, gp_mod. intros b. apply gb_mr. exact M.
Qed.
Lemma s_solve_left cw c : gn cw -> gl (c_size c) -> sb (fun _ => True) (solve_leftA K cw c) (solve_leftA A cw c).
Proof.
  intros W C. unfold solve_leftA. do 6 sget. eapply sb_bind; [apply sb_lift, s_diff; [assumption|gin]|intros m M].
  apply sb_same, gp_mod. intros b. apply gb_ml. exact M.
Qed.
Lemma s_split cw c : gn cw -> gl (c_size c) -> sb (fun _ => True) (split_marginsA K cw c) (split_marginsA A cw c).
Proof.
  intros W C. unfold split_marginsA. do 5 sget. eapply sb_bind; [apply sb_lift, s_diff; [assumption|gin]|intros m M].
  eapply sb_bind; [apply sb_lift, s_half, M|intros h Hh]. eapply sb_bind; [apply sb_same, gp_mod; intros b; apply gb_ml; exact Hh|intros _ _].
  eapply sb_bind; [apply sb_lift, s_half, M|intros h' Hh']. apply sb_same, gp_mod; intros b; apply gb_mr; exact Hh'.
Qed.
Lemma s_add_unless acc f : gn acc -> (forall b, gbox b -> gl (f b)) -> sb gn (add_unless_autoA K acc f) (add_unless_autoA A acc f).
Proof.
  intros X F b G. unfold add_unless_autoA. destruct is_auto.
  - right. cbn. split; [reflexivity|split; [exact G|]]. intros a E. apply Ok_inj in E. subst. exact X.
  - refine (sb_lift gn _ _ _ b G). eapply sr_bind; [apply sr_refl, gr_num, (F b G)|]. intros m M. apply s_add; assumption.
Qed.
Lemma s_drop cw c : gn cw -> gl (c_size c) -> sb (fun _ => True) (drop_auto_marginsA K cw c) (drop_auto_marginsA A cw c).
Proof.
  intros W C. unfold drop_auto_marginsA. do 4 sget. eapply sb_bind; [apply sb_lift, s_sum; [assumption|gin]|intros acc X].
  eapply sb_bind; [apply s_add_unless; [exact X|sfld]|intros z1 Z1]. eapply sb_bind; [apply s_add_unless; [exact Z1|sfld]|intros z2 Z2].
  sget. apply sb_if; [|apply sb_ret; exact I]. smod. apply sb_same, gp_auto_right0.
Qed.
Lemma s_clamped s u c : sr gn (clamped_widthA K s u c) (clamped_widthA A s u c).
Proof.
  unfold clamped_widthA. eapply sr_bind; [apply s_px|intros w W]. eapply sr_bind with (P := gn).
  - destruct (st_max_width s); [|apply sr_ok, W]. eapply sr_bind; [apply s_px|intros m M]. apply sr_ok. destruct nltb; assumption.
  - intros w1 W1. destruct (st_min_width s); [apply sr_ok, W1|]. eapply sr_bind; [apply s_px|intros m M]. apply sr_ok. destruct nltb; assumption.
Qed.
Lemma s_finish_left cw : gn cw ->
  sb go (bbind (bmod (upd_content_width (LNum cw))) (fun _ => bbind (left_edgeA K) (fun l => bret (Some l))))
        (bbind (bmod (upd_content_width (LNum cw))) (fun _ => bbind (left_edgeA A) (fun l => bret (Some l)))).
Proof.
  intros W. eapply sb_bind; [apply sb_same, gp_mod; intros b; apply gb_cw; exact W|intros _ _]. eapply sb_bind; [apply s_left_edge|intros l L].
  apply sb_ret. intros l' E. injection E as <-. exact L.
Qed.
Lemma s_block_width s c : gl (c_size c) -> sb go (block_non_replaced_widthA K s c) (block_non_replaced_widthA A s c).
Proof.
  intros C. unfold block_non_replaced_widthA. eapply sb_bind with (P := go).
  - destruct (st_width s); [apply sb_ret; discriminate|]. eapply sb_bind; [apply sb_lift, s_clamped|intros cw W].
    eapply sb_bind; [apply s_drop; assumption|intros _ _]. apply sb_ret. intros l E. injection E as <-. exact W.
  - intros ocw O. eapply sb_bind with (P := fun _ => True); [apply sb_same, gp_get; trivial|intros la _].
    eapply sb_bind with (P := fun _ => True); [apply sb_same, gp_get; trivial|intros ra _].
    eapply sb_bind with (P := gn); [|intros cw W; apply s_finish_left, W].
    destruct ocw as [cw|]; [assert (W : gn cw) by (apply O; reflexivity)|]; destruct la, ra.
    + eapply sb_bind; [apply s_split; assumption|intros _ _; apply sb_ret; exact W].
    + eapply sb_bind; [apply s_solve_left; assumption|intros _ _; apply sb_ret; exact W].
    + eapply sb_bind; [apply s_solve_right; assumption|intros _ _; apply sb_ret; exact W].
    + eapply sb_bind; [destruct (st_direction s); [apply s_solve_right|apply s_solve_left]; assumption|intros _ _; apply sb_ret; exact W].
    + do 2 smod. apply s_avail, C.
    + do 2 smod. apply s_avail, C.
    + do 2 smod. apply s_avail, C.
    + apply s_avail, C.
Qed.
Lemma s_replaced_width s i c : gl (c_size c) -> gsize i -> sb go (inline_replaced_widthA K s i c) (inline_replaced_widthA A s i c).
Proof.
  intros C (W & H & R). unfold inline_replaced_widthA. do 2 smod.
  eapply sb_bind with (P := gn); [|intros cw X; apply s_finish_left, X].
  destruct (st_width s); [|apply sb_lift, s_px].
  destruct (st_height s), (s_width i), (s_height i) as [h|], (s_ratio i) as [r|];
    first [apply s_avail, C | apply sb_ret; first [apply W; reflexivity|apply gn_int] | idtac].
  destruct (R r eq_refl) as [z Z]. eapply sb_bind; [apply sb_lift; eapply s_mul; [apply H; reflexivity|exact Z]|]. intros p P. apply sb_ret, gn_int.
Qed.
Lemma s_width s i c : gl (c_size c) -> gsize i -> sb go (calculate_widthA K s i c) (calculate_widthA A s i c).
Proof.
  intros C G. unfold calculate_widthA.
  repeat (apply sb_if; try apply sb_fail); [apply s_replaced_width|apply sb_same, gp_inline_width|apply s_block_width]; assumption.
Qed.
Lemma s_inline_height i : gsize i -> sb gn (inline_non_replaced_heightA K i) (inline_non_replaced_heightA A i).
Proof.
  intros (_ & H & _). unfold inline_non_replaced_heightA. eapply sb_bind; [|intros _ _; apply s_top_edge].
  apply sb_same, gp_mod. intros b; apply gb_ch; destruct (s_height i); cbn; [apply H; reflexivity|exact I].
Qed.
Lemma s_half150 : sb gn (half_width_heightA K) (half_width_heightA A).
Proof. unfold half_width_heightA. sget. eapply sb_bind; [apply sb_lift, s_half; assumption|intros h Hh]. apply sb_ret. apply gn_min; gauto. Qed.
Lemma s_replaced_height s i c : gsize i -> sb gn (inline_replaced_heightA K s i c) (inline_replaced_heightA A s i c).
Proof.
  intros (W & H & R). unfold inline_replaced_heightA. do 2 smod.
  eapply sb_bind with (P := gn); [|intros ch X; eapply sb_bind; [apply sb_same, gp_mod; intros b; apply gb_ch; exact X|intros _ _; apply s_top_edge]].
  destruct (st_height s); [|apply sb_lift, s_px].
  assert (HH : forall h, s_height i = Some h -> sb gn (bret h) (bret h)) by (intros h E; apply sb_ret, H, E).
  assert (RR : forall r, s_ratio i = Some r -> sb gn (bbind (bnum content_width) (fun w => blift (a_mul K w r))) (bbind (bnum content_width) (fun w => blift (a_mul A w r)))).
  { intros r E. destruct (R r E) as [z Z]. sget. apply sb_lift. eapply s_mul; eassumption. }
  destruct (st_width s), (s_height i) as [h|], (s_ratio i) as [r|];
    first [exact (HH _ eq_refl) | apply s_half150 | idtac].
  all: repeat (apply sb_if; try apply s_half150); first [exact (HH _ eq_refl) | exact (RR _ eq_refl) | apply s_half150].
Qed.
Lemma s_block_height s ph last c : (forall lb, last = Some (Some lb) -> gbox lb) ->
  sb gn (block_non_replaced_heightA K s ph last c) (block_non_replaced_heightA A s ph last c).
Proof.
  intros L. unfold block_non_replaced_heightA. do 2 smod.
  eapply sb_bind with (P := gn).
  - unfold block_content_heightA. destruct (st_height s).
    + destruct last as [[lb|]|]; [|apply sb_fail|destruct (st_min_height s); [apply sb_ret, gn_int|apply sb_lift, s_px]].
      eapply sb_bind; [apply sb_lift, s_bbb, L; reflexivity|intros h X]. eapply sb_bind; [apply sb_same, gp_mod; intros b; apply gb_kb|intros _ _]. apply sb_ret, X.
    + eapply sb_bind with (P := gn).
      * destruct ph; [|apply sb_lift, s_px]. eapply sb_bind; [apply sb_lift, s_px|intros p X]. apply sb_lift, s_px.
      * intros h X. destruct (st_max_height s); [|apply sb_ret, X]. eapply sb_bind; [apply sb_lift, s_px|intros m Y]. apply sb_ret. destruct nltb; assumption.
  - intros h X. eapply sb_bind; [apply sb_same, gp_mod; intros b; apply gb_ch; exact X|intros _ _]. do 2 sget. apply sb_lift, s_add; assumption.
Qed.
Lemma s_height s i ph last c : gsize i -> (forall lb, last = Some (Some lb) -> gbox lb) ->
  sb gn (calculate_heightA K s i ph last c) (calculate_heightA A s i ph last c).
Proof.
  intros G L. unfold calculate_heightA.
  repeat (apply sb_if; try apply sb_fail); [apply s_replaced_height|apply s_inline_height|apply s_block_height]; assumption.
Qed.
Lemma s_rel c st en cs1 cs2 ce1 ce2 : sr gn cs1 cs2 -> sr gn ce1 ce2 -> sr gn (rel_offsetA K c st en cs1 ce1) (rel_offsetA A c st en cs2 ce2).
Proof.
  intros X Y. destruct st, en; cbn [rel_offsetA]; try apply s_px; try apply sr_err; try exact X; try apply sr_ok, gn_int.
  - eapply sr_bind; [exact Y|]. intros a H. apply sr_ok, gn_neg, H.
  - eapply sr_bind; [apply s_px|]. intros a H. apply sr_ok, gn_neg, H.
Qed.

(** ** Trees *)
Context {S : Type} (sty : S -> style).
Notation node := (node S).
Lemma s_rmap (f1 f2 : node -> res node) l : (forall k, In k l -> sr gtree (f1 k) (f2 k)) ->
  sr (fun l' => forall k, In k l' -> gtree k) (rmap f1 l) (rmap f2 l).
Proof.
  induction l as [|x l IH]; intros H; [apply sr_ok; intros k []|].
  change (rmap f1 (x :: l)) with (y <-r f1 x ;; r <-r rmap f1 l ;; Ok (y :: r)).
  change (rmap f2 (x :: l)) with (y <-r f2 x ;; r <-r rmap f2 l ;; Ok (y :: r)).
  eapply sr_bind; [apply H; left; reflexivity|]. intros y Y. eapply sr_bind; [apply IH; intros k I; apply H; right; exact I|].
  intros r R. apply sr_ok. intros k [<- |I]; [exact Y|exact (R k I)].
Qed.
Lemma s_origin_top (n : node) : forall v, gn v -> gtree n -> sr gtree (set_origin_topA K v n) (set_origin_topA A v n).
Proof.
  induction n as [s i bx ks IH] using node_ind'; intros v V G. destruct bx as [b|]; cbn [set_origin_topA]; [|apply sr_ok, G].
  destruct neqb; [apply sr_ok, G|]. apply gtree_inv in G. destruct G as (Gi & Gb & Gk). assert (B := Gb b eq_refl).
  eapply sr_bind; [apply s_rmap|].
  - intros k I. destruct (n_box k); [|apply sr_ok, Gk, I]. eapply sr_bind; [apply s_add; [exact V|gdes B; assumption]|].
    intros w W. apply IH; [exact I|exact W|apply Gk, I].
  - intros ks' H. apply sr_ok. constructor; [exact Gi|intros b' E; injection E as <-; apply gb_ot; assumption|exact H].
Qed.
Lemma s_origin_left (n : node) : forall v, gn v -> gtree n -> sr gtree (set_origin_leftA K v n) (set_origin_leftA A v n).
Proof.
  induction n as [s i bx ks IH] using node_ind'; intros v V G. destruct bx as [b|]; cbn [set_origin_leftA]; [|apply sr_ok, G].
  destruct neqb; [apply sr_ok, G|]. apply gtree_inv in G. destruct G as (Gi & Gb & Gk). assert (B := Gb b eq_refl).
  eapply sr_bind; [apply s_rmap|].
  - intros k I. destruct (n_box k); [|apply sr_ok, Gk, I]. eapply sr_bind; [apply s_add; [exact V|gdes B; assumption]|].
    intros w W. apply IH; [exact I|exact W|apply Gk, I].
  - intros ks' H. apply sr_ok. constructor; [exact Gi|intros b' E; injection E as <-; apply gb_ol; assumption|exact H].
Qed.
Lemma s_content_top v (n : node) : gn v -> gtree n -> sr gtree (set_content_topA K v n) (set_content_topA A v n).
Proof.
  intros V G. destruct n as [s i [b|] ks]; cbn [set_content_topA]; [|apply sr_ok, G].
  destruct neqb; [apply sr_ok, G|]. apply gtree_inv in G. destruct G as (Gi & Gb & Gk). assert (B := Gb b eq_refl).
  eapply sr_bind; [apply s_rmap|].
  - intros k I. destruct (n_box k); [|apply sr_ok, Gk, I]. eapply sr_bind; [apply s_add; [gdes B; assumption|exact V]|].
    intros w W. apply s_origin_top; [exact W|apply Gk, I].
  - intros ks' H. apply sr_ok. constructor; [exact Gi|intros b' E; injection E as <-; apply gb_ct; assumption|exact H].
Qed.
Lemma s_content_left v (n : node) : gn v -> gtree n -> sr gtree (set_content_leftA K v n) (set_content_leftA A v n).
Proof.
  intros V G. destruct n as [s i [b|] ks]; cbn [set_content_leftA]; [|apply sr_ok, G].
  destruct neqb; [apply sr_ok, G|]. apply gtree_inv in G. destruct G as (Gi & Gb & Gk). assert (B := Gb b eq_refl).
  eapply sr_bind; [apply s_rmap|].
  - intros k I. destruct (n_box k); [|apply sr_ok, Gk, I]. eapply sr_bind; [apply s_add; [gdes B; assumption|exact V]|].
    intros w W. apply s_origin_left; [exact W|apply Gk, I].
  - intros ks' H. apply sr_ok. constructor; [exact Gi|intros b' E; injection E as <-; apply gb_cl; assumption|exact H].
Qed.
Lemma s_reset_self (n : node) : gtree n -> sr gtree (reset_selfA K n) (reset_selfA A n).
Proof.
  destruct n as [s i bx ks]. intros G. cbn [reset_selfA]. apply gtree_inv in G. destruct G as (Gi & Gb & Gk).
  eapply sr_bind; [apply s_rmap|].
  - intros k I. destruct (n_box k); [|apply sr_ok, Gk, I]. eapply sr_bind; [apply s_add; apply gn_int|]. intros w W.
    eapply sr_bind; [apply s_origin_top; [exact W|apply Gk, I]|]. intros k1 K1.
    eapply sr_bind; [apply s_add; apply gn_int|]. intros v V. apply s_origin_left; assumption.
  - intros ks' H. apply sr_ok. constructor; [exact Gi|intros b' E; injection E as <-; apply gbox0|exact H].
Qed.

Definition sm {X} (P : X -> Prop) (m1 m2 : M (S := S) X) : Prop :=
  forall n, gtree n -> snd (m1 n) = Err Unmodelled \/ (m1 n = m2 n /\ gtree (fst (m1 n)) /\ forall a, snd (m1 n) = Ok a -> P a).
Lemma sm_bind {X Y} (P : X -> Prop) (Q : Y -> Prop) m1 m2 f1 f2 :
  sm P m1 m2 -> (forall a, P a -> sm Q (f1 a) (f2 a)) -> sm Q (mbind m1 f1) (mbind m2 f2).
Proof.
  intros H F b G. unfold mbind. destruct (H b G) as [E|(E & G1 & R)].
  - left. destruct (m1 b) as [b' r]. cbn in E. subst r. reflexivity.
  - rewrite <- E. destruct (m1 b) as [b' [a|e]]; cbn in *; [exact (F a (R a eq_refl) b' G1)|]. right. split; [reflexivity|split; [exact G1|discriminate]].
Qed.
Lemma sm_same {X} (P : X -> Prop) m : gm m P -> sm P m m.
Proof. intros H b G. right. destruct (H b G) as [G1 R]. auto. Qed.
Lemma sm_lift {X} (P : X -> Prop) r1 r2 : sr P r1 r2 -> sm P (mlift r1) (mlift r2).
Proof. intros [E|[E H]] b G; [left; exact E|right]. unfold mlift. rewrite E in *. cbn. auto. Qed.
Lemma sm_set f1 f2 : (forall n, gtree n -> sr gtree (f1 n) (f2 n)) -> sm (fun _ => True) (mset f1) (mset f2).
Proof.
  intros H n G. unfold mset. destruct (H n G) as [E|[E R]].
  - left. rewrite E. reflexivity.
  - right. rewrite <- E. destruct (f1 n) as [n'|e]; cbn; (split; [reflexivity|split; [|trivial]]); [apply R; reflexivity|exact G].
Qed.
Lemma s_on_box {X} (P : X -> Prop) (m1 m2 : BM X) : sb P m1 m2 -> sm P (on_box m1) (on_box m2).
Proof.
  intros H n G. destruct n as [s i [b|] ks]; cbn.
  - apply gtree_inv in G. destruct G as (Gi & Gb & Gk). destruct (H b (Gb b eq_refl)) as [E|(E & G1 & R)].
    + left. destruct (m1 b) as [b' r]. cbn in *. exact E.
    + right. rewrite <- E. destruct (m1 b) as [b' r]. cbn in *. split; [reflexivity|split; [|exact R]].
      constructor; [exact Gi|intros x X'; injection X' as <-; exact G1|exact Gk].
  - right. split; [reflexivity|split; [exact G|discriminate]].
Qed.
Lemma s_add_top v : gn v -> sm (fun _ => True) (add_content_topA K v) (add_content_topA A v).
Proof.
  intros V n G. unfold add_content_topA. destruct (n_box n) as [b|] eqn:B; [|right; split; [reflexivity|split; [exact G|discriminate]]].
  refine (sm_set _ _ _ n G). intros n' G'. assert (Gb := gtree_box n b G B). eapply sr_bind; [apply s_add; [gdes Gb; assumption|exact V]|].
  intros w W. apply s_content_top; assumption.
Qed.
Lemma s_add_left v : gn v -> sm (fun _ => True) (add_content_leftA K v) (add_content_leftA A v).
Proof.
  intros V n G. unfold add_content_leftA. destruct (n_box n) as [b|] eqn:B; [|right; split; [reflexivity|split; [exact G|discriminate]]].
  refine (sm_set _ _ _ n G). intros n' G'. assert (Gb := gtree_box n b G B). eapply sr_bind; [apply s_add; [gdes Gb; assumption|exact V]|].
  intros w W. apply s_content_left; assumption.
Qed.
Lemma s_width_m c : gl (c_size c) -> sm (fun _ => True) (calculate_width_and_marginsA K sty c) (calculate_width_and_marginsA A sty c).
Proof.
  intros C n G. unfold calculate_width_and_marginsA. match goal with |- context [mbind ?m1 ?f1 n = mbind ?m2 ?f2 n] => assert (X : sm (fun _ => True) (mbind m1 f1) (mbind m2 f2)); [|exact (X n G)] end.
  eapply sm_bind; [apply s_on_box, s_width; [exact C|apply gtree_size, G]|]. intros [l|] O; [|apply sm_same, gm_ret; exact I].
  apply sm_set. intros x. apply s_content_left, O. reflexivity.
Qed.
Lemma s_height_m c cb : sm (fun _ => True) (calculate_height_and_marginsA K sty c cb) (calculate_height_and_marginsA A sty c cb).
Proof.
  intros n G. unfold calculate_height_and_marginsA. match goal with |- context [mbind ?m1 ?f1 n = mbind ?m2 ?f2 n] => assert (X : sm (fun _ => True) (mbind m1 f1) (mbind m2 f2)); [|exact (X n G)] end.
  eapply sm_bind; [apply s_on_box, s_height; [apply gtree_size, G|apply last_layout_g, G]|]. intros d D. apply s_add_top, D.
Qed.
(** [r = (k, b, x)] computed from a child and the parent's box *)
Definition spl {X Y} (PX : X -> Prop) (PY : Y -> Prop) (r1 r2 : X * box * res Y) : Prop :=
  snd r1 = Err Unmodelled \/ (r1 = r2 /\ PX (fst (fst r1)) /\ gbox (snd (fst r1)) /\ forall y, snd r1 = Ok y -> PY y).
Lemma s_place (k : node) b off bm : gtree k -> gbox b -> gn off ->
  spl gtree (fun y => gn (fst y)) (place_childA K k b off bm) (place_childA A k b off bm).
Proof.
  intros G B O. unfold place_childA. destruct (n_box k) as [kb|] eqn:KB; [|right; split; [reflexivity|split; [exact G|split; [exact B|discriminate]]]].
  assert (GK := gtree_box k kb G KB).
  assert (X : forall b1 o1 o2, gbox b1 -> sr gn o1 o2 ->
    spl gtree (fun y : num * option Z => gn (fst y))
      (match o1 with Err e => (k, b1, Err e) | Ok o =>
         match (w <-r a_add K (content_top kb) o ;; set_content_topA K w k) with
         | Err e => (k, b1, Err e)
         | Ok k' => (k', b1, h <-r border_box_heightA K kb ;; o' <-r a_add K o h ;; Ok (o', Some (collapse_bottom kb))) end end)
      (match o2 with Err e => (k, b1, Err e) | Ok o =>
         match (w <-r a_add A (content_top kb) o ;; set_content_topA A w k) with
         | Err e => (k, b1, Err e)
         | Ok k' => (k', b1, h <-r border_box_heightA A kb ;; o' <-r a_add A o h ;; Ok (o', Some (collapse_bottom kb))) end end)).
  { intros b1 o1 o2 B1 [-> |[<- P]]; [left; reflexivity|]. destruct o1 as [o|e]; [|right; split; [reflexivity|split; [exact G|split; [exact B1|discriminate]]]].
    assert (Go := P o eq_refl).
    assert (C : sr gtree (w <-r a_add K (content_top kb) o ;; set_content_topA K w k) (w <-r a_add A (content_top kb) o ;; set_content_topA A w k)).
    { eapply sr_bind; [apply s_add; [gdes GK; assumption|exact Go]|]. intros w W. apply s_content_top; assumption. }
    destruct C as [-> |[<- Q]]; [left; reflexivity|].
    destruct (w <-r a_add K (content_top kb) o ;; set_content_topA K w k) as [k'|e]; [|right; split; [reflexivity|split; [exact G|split; [exact B1|discriminate]]]].
    assert (T : sr (fun y : num * option Z => gn (fst y)) (h <-r border_box_heightA K kb ;; o' <-r a_add K o h ;; Ok (o', Some (collapse_bottom kb)))
                  (h <-r border_box_heightA A kb ;; o' <-r a_add A o h ;; Ok (o', Some (collapse_bottom kb)))).
    { eapply sr_bind; [apply s_bbh, GK|]. intros h H. eapply sr_bind; [apply s_add; [exact Go|exact H]|]. intros o' O'. apply sr_ok. exact O'. }
    destruct T as [T|[T R]]; [left; exact T|right]. rewrite <- T. split; [reflexivity|split; [apply Q; reflexivity|split; [exact B1|exact R]]]. }
  destruct bm as [m|].
  - apply X; [exact B|]. eapply sr_bind; [apply sr_refl, gr_num; gdes GK; assumption|]. intros mt M. apply s_add; [exact O|]. apply gn_max; [apply gn_int|exact M].
  - apply (X _ (Ok off) (Ok off)); [apply gb_kt, B|apply sr_ok, O].
Qed.
Definition sl (l1 l2 : node -> node * res unit) : Prop :=
  forall k, gtree k -> snd (l1 k) = Err Unmodelled \/ (l1 k = l2 k /\ gtree (fst (l1 k))).
Definition gts (ks : list node) : Prop := forall k, In k ks -> gtree k.
Lemma gts_cons k ks : gtree k -> gts ks -> gts (k :: ks).
Proof. intros H T x [<- |I]; [exact H|exact (T x I)]. Qed.
Lemma s_flow lay1 lay2 : (forall b, gbox b -> sl (lay1 b) (lay2 b)) -> forall ks pend b off bm,
  gts ks -> gbox b -> gn off -> spl gts (fun _ => True) (flowA K sty lay1 ks pend b off bm) (flowA A sty lay2 ks pend b off bm).
Proof.
  intros L. induction ks as [|k ks IH]; intros pend b off bm T B O; cbn [flowA].
  - right. split; [reflexivity|split; [intros x []|split; [exact B|trivial]]].
  - assert (Kk : gtree k) by (apply T; left; reflexivity). assert (Ks : gts ks) by (intros x X; apply T; right; exact X).
    destruct is_block_level.
    + destruct pend; [right; split; [reflexivity|split; [exact T|split; [exact B|trivial]]]|].
      destruct (L b B k Kk) as [E|[E G1]].
      * left. destruct (lay1 b k) as [k1 r]. cbn in E. subst r. reflexivity.
      * rewrite <- E. destruct (lay1 b k) as [k1 [u|e]]; cbn in G1; [|right; split; [reflexivity|split; [apply gts_cons; assumption|split; [exact B|trivial]]]].
        destruct (s_place k1 b off bm G1 B O) as [P|(P & G2 & B2 & R2)].
        -- left. destruct (place_childA K k1 b off bm) as [[k2 b2] r2]. cbn in P. subst r2. reflexivity.
        -- rewrite <- P. destruct (place_childA K k1 b off bm) as [[k2 b2] [[o' bm']|e]]; cbn in G2, B2, R2;
             [|right; split; [reflexivity|split; [apply gts_cons; assumption|split; [exact B2|trivial]]]].
           destruct (IH false b2 o' bm' Ks B2 (R2 _ eq_refl)) as [F|(F & G3 & B3 & _)].
           ++ left. destruct (flowA K sty lay1 ks false b2 o' bm') as [[ks2 b3] r]. cbn in *. exact F.
           ++ rewrite <- F. destruct (flowA K sty lay1 ks false b2 o' bm') as [[ks2 b3] r]. cbn in *.
              right. split; [reflexivity|split; [apply gts_cons; assumption|split; [exact B3|trivial]]].
    + destruct (IH true b off bm Ks B O) as [F|(F & G3 & B3 & _)].
      * left. destruct (flowA K sty lay1 ks true b off bm) as [[ks2 b3] r]. cbn in *. exact F.
      * rewrite <- F. destruct (flowA K sty lay1 ks true b off bm) as [[ks2 b3] r]. cbn in *.
        right. split; [reflexivity|split; [apply gts_cons; assumption|split; [exact B3|trivial]]].
Qed.
Lemma s_lay_all lay1 lay2 : sl lay1 lay2 -> forall ks, gts ks ->
  snd (lay_all lay1 ks) = Err Unmodelled \/ (lay_all lay1 ks = lay_all lay2 ks /\ gts (fst (lay_all lay1 ks))).
Proof.
  intros L. induction ks as [|k ks IH]; intros T; cbn [lay_all]; [right; split; [reflexivity|intros x []]|].
  assert (Kk : gtree k) by (apply T; left; reflexivity). assert (Ks : gts ks) by (intros x X; apply T; right; exact X).
  destruct (L k Kk) as [E|[E G1]].
  - left. destruct (lay1 k) as [k1 r]. cbn in E. subst r. reflexivity.
  - rewrite <- E. destruct (lay1 k) as [k1 [u|e]]; cbn in G1; [|right; split; [reflexivity|apply gts_cons; assumption]].
    destruct (IH Ks) as [F|[F G2]].
    + left. destruct (lay_all lay1 ks) as [ks2 r]. exact F.
    + rewrite <- F. destruct (lay_all lay1 ks) as [ks2 r]. right. split; [reflexivity|apply gts_cons; assumption].
Qed.
Lemma s_children lay1 lay2 : (forall s b, gbox b -> sl (lay1 (CBNode s b)) (lay2 (CBNode s b))) ->
  sm (fun _ => True) (layout_childrenA K sty lay1) (layout_childrenA A sty lay2).
Proof.
  intros L n G. destruct n as [s i [b|] ks]; cbn [layout_childrenA]; [|right; split; [reflexivity|split; [exact G|trivial]]].
  apply gtree_inv in G. destruct G as (Gi & Gb & Gk). assert (B := Gb b eq_refl). destruct establishes_inline.
  - destruct (s_lay_all _ _ (L s b B) ks Gk) as [E|[E T]].
    + left. destruct (lay_all (lay1 (CBNode s b)) ks) as [ks2 r]. exact E.
    + rewrite <- E. destruct (lay_all (lay1 (CBNode s b)) ks) as [ks2 r]. right. split; [reflexivity|split; [|trivial]]. constructor; assumption.
  - destruct (s_flow _ _ (fun b0 B0 => L s b0 B0) ks false b n0 None Gk B (gn_int 0)) as [E|(E & T & B2 & _)].
    + left. destruct (flowA K sty _ ks false b n0 None) as [[ks2 b2] r]. exact E.
    + rewrite <- E. destruct (flowA K sty _ ks false b n0 None) as [[ks2 b2] r]. right. split; [reflexivity|split; [|trivial]].
      constructor; [exact Gi|intros x X; injection X as <-; exact B2|exact T].
Qed.
Lemma s_shift d f cb : gdisp d -> gcb d cb -> sm (fun _ => True) (relative_shiftA K sty d f cb) (relative_shiftA A sty d f cb).
Proof.
  intros D C n G. unfold relative_shiftA. destruct (is_relative _); [|right; split; [reflexivity|split; [exact G|trivial]]].
  match goal with |- context [mbind ?m1 ?f1 n = mbind ?m2 ?f2 n] => assert (X : sm (fun _ => True) (mbind m1 f1) (mbind m2 f2)); [|exact (X n G)] end.
  assert (CR : sr gn (cb_attr (content_rightA K) cb) (cb_attr (content_rightA A) cb)).
  { destruct cb; [apply sr_err|]. cbn in *. gdes C. unfold content_rightA. eapply sr_bind; [apply sr_refl, gr_num; assumption|]. intros w W. apply s_add; assumption. }
  assert (CBt : sr gn (cb_attr (content_bottomA K) cb) (cb_attr (content_bottomA A) cb)).
  { destruct cb; [apply sr_err|]. cbn in *. gdes C. unfold content_bottomA. eapply sr_bind; [apply sr_refl, gr_num; assumption|]. intros w W. apply s_add; assumption. }
  eapply sm_bind; [apply sm_lift, s_rel; [destruct cb; [apply sr_err|cbn in *; gdes C; apply sr_ok; assumption]|exact CR]|intros vl V].
  eapply sm_bind; [apply s_add_left, V|intros _ _].
  eapply sm_bind; [apply sm_lift, s_rel; [destruct cb; [apply sr_err|cbn in *; gdes C; apply sr_ok; assumption]|exact CBt]|intros vt T].
  apply s_add_top, T.
Qed.
Lemma s_layout_box fuel : forall d f cb, gdisp d -> gcb d cb -> sm (fun _ => True) (layout_boxA K sty fuel d f cb) (layout_boxA A sty fuel d f cb).
Proof.
  induction fuel as [|fuel IH]; intros d f cb D C n G; cbn [layout_boxA]; [right; split; [reflexivity|split; [exact G|trivial]]|].
  destruct (st_display (sty (n_style n))).
  - match goal with |- context [mbind ?m1 ?f1 n = mbind ?m2 ?f2 n] => assert (X : sm (fun _ => True) (mbind m1 f1) (mbind m2 f2)); [|exact (X n G)] end.
    eapply sm_bind; [apply sm_set; intros x X; unfold ensure_boxA; destruct (n_box x); [apply sr_ok, X|apply s_reset_self, X]|intros _ _].
    eapply sm_bind; [apply s_on_box, s_copy_edges, D|intros _ _].
    eapply sm_bind; [apply s_width_m, gcb_w, C|intros _ _].
    eapply sm_bind with (P := fun _ => True); [destruct (is_relative _); [apply s_height_m|apply sm_same, gm_ret; exact I]|intros _ _].
    eapply sm_bind with (P := fun _ => True); [|intros _ _; eapply sm_bind; [apply s_height_m|intros _ _; apply s_shift; assumption]].
    destruct (is_abspos _); [apply sm_same, gm_lift; discriminate|]. destruct (is_float _); [apply sm_same, gm_lift; discriminate|].
    apply s_children. intros s' b' B' k Gk. assert (H := IH d f (CBNode s' b') D B' k Gk). clear -H. destruct H as [E|(E & G' & _)]; [left; exact E|right; split; [exact E|exact G']].
  - right. split; [reflexivity|split; [|trivial]]. destruct n as [s i bx ks]. cbn. apply gtree_inv in G. destruct G as (Gi & _ & Gk). constructor; [exact Gi|discriminate|exact Gk].
Qed.
Lemma s_layout d h5 (n : node) : gdisp d -> gtree n ->
  snd (layoutA K sty d h5 n) = Err Unmodelled \/ layoutA K sty d h5 n = layoutA A sty d h5 n.
Proof.
  intros D G. unfold layoutA. destruct (n_box n) as [bn|]; [|right; reflexivity].
  match goal with |- context [mbind ?m1 ?f1 n = mbind ?m2 ?f2 n] => assert (X : sm (fun _ => True) (mbind m1 f1) (mbind m2 f2)); [|destruct (X n G) as [E|[E _]]; [left; exact E|right; exact E]] end.
  eapply sm_bind; [apply sm_same, gm_mod, gt_reset|intros _ _].
  eapply sm_bind; [apply s_layout_box; assumption|intros _ _].
  intros x X. unfold finish_rootA. destruct (n_box x) as [b|] eqn:B; [|right; split; [reflexivity|split; [exact X|trivial]]].
  match goal with |- context [mbind ?m1 ?f1 x = mbind ?m2 ?f2 x] => assert (Y : sm (fun _ => True) (mbind m1 f1) (mbind m2 f2)); [|exact (Y x X)] end.
  assert (GB := gtree_box x b X B).
  eapply sm_bind.
  - apply sm_set. intros y Y. eapply sr_bind; [apply s_add; [gdes GB; assumption|apply gn_int]|]. intros w W. apply s_content_top; assumption.
  - intros _ _. destruct h5; [|apply sm_same, gm_ret; exact I].
    eapply sm_bind; [apply sm_lift, s_diff; [destruct D as (_ & H & _); exact H|intros y [<- |[<- |[]]]; apply gn_int]|].
    intros h H. apply s_on_box, sb_same, gp_mod. intros y GY. apply gb_ch; assumption.
Qed.
End Sim.

Notation K := checked_arith.
Lemma agreed_cases c u : a_px K c u = Err Unmodelled \/ a_px K c u = px c u.
Proof.
  cbn [a_px checked_arith]. unfold agreed_px. destruct (px c u) as [x|e], (px_f c u) as [y|e']; auto.
  - destruct same_num; auto.
  - destruct exn_eq_dec; auto.
Qed.
Lemma checked_checks : checks checked_arith.
Proof.
  constructor; try reflexivity. intros c u x H. destruct (agreed_cases c u) as [E|E]; [congruence|]. rewrite E in H. exact (gr_px c u x H).
Qed.
