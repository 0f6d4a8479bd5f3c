(** * C196: every arrangement of rectangles from top to bottom can be written down *)
From Coq Require Import ZArith QArith Qcanon Qround Lia Lqa Bool List.
From Verif Require Import PyNum NumFacts Units UnitsSpec BoxModel BoxSpec BoxFacts Engine EnginePure EngineSpec EngineFSpec EngineTree EngineExamples
  RefLayout RefFacts RefProps HistSpec HistProps OkSpec OkProps MoveSpec MoveProps LocalProps PushSpec PushProps PixelSpec SymSpec SymProps PinSpec PinProps DrawSpec.
Import ListNotations.
Open Scope Qc_scope.

Lemma block_of_eq from l t w h inside : block_of from (Plan l t w h inside) = el (rectangle (t - from) l w h) (blocks_of 0 inside).
Proof. reflexivity. Qed.
Lemma grid_sub x y : on_grid x -> on_grid y -> on_grid (x - y).
Proof. intros [a ->] [b ->]. exists (a - b)%Z. apply Qc_is_canon. unfold Qcminus. rewrite this_add, this_opp, !this_qfrac. unfold Qeq, Qplus, Qopp. cbn [Qnum Qden]. lia. Qed.
Lemma grid_add x y : on_grid x -> on_grid y -> on_grid (x + y).
Proof. intros [a ->] [b ->]. exists (a + b)%Z. apply Qc_is_canon. rewrite this_add, !this_qfrac. unfold Qeq, Qplus. cbn [Qnum Qden]. lia. Qed.
Lemma grid_0 : on_grid 0.
Proof. exists 0%Z. apply Qc_is_canon. reflexivity. Qed.
Section T.
Context (d : display_t).
Lemma len_pxs P q : on_grid q -> len d P (pxs q) = q.
Proof. intros G. apply (len_pixels d P (NF q)), G. Qed.
Lemma len_zero P : len d P zero_px = 0.
Proof. unfold len, zero_px, exact_len. cbn [u_kind pxu u_val amount]. apply to_grid_on, grid_0. Qed.
Inductive sketch : utree -> plan -> Prop :=
| sketch_box u us l t w h ps : u_left u = l -> u_top u = t -> u_w u = Some w -> u_h u = Some h -> u_ct u = 0%Z -> Forall2 sketch us ps -> sketch (UNode u us) (Plan l t w h ps).
(** One block before its position among its siblings is known. *)
Lemma format_rectangle a gap l w h ks : on_grid gap -> on_grid l -> on_grid w -> on_grid h ->
  exists r mb, format idsty d a (el (rectangle gap l w h) ks) =
    let st := stacks_ idsty DBlock ks in
    let kids := kids_of idsty d (inner_of d a DBlock (rectangle gap l w h) size0) st ks in
    UNode (mkUsed 0 r mb l 0 0 0 0 gap 0 0 0 (Some w) (Some h) l gap
             (Z.max 0 (if st then match kids with UNode u _ :: _ => u_ct u | _ => 0%Z end else 0%Z)) 0) kids.
Proof.
  intros Gg Gl Gw Gh. unfold el. rewrite format_split. cbn [idsty rectangle s_size s_margin s_padding block_style st_display]. unfold node_of. cbv zeta.
  set (s := mkStyle _ _ _ _ _ _ _ _ _ _ _ _ _ _ _ _ _ _ _ _ _ _ _ _ _ _ _ _ _ _).
  assert (E : exists r, wmargins d a DBlock s size0 = (Some w, l, r)).
  { unfold wmargins. cbn [isinl]. unfold widths, limited_width. subst s. cbn [st_width st_margin_left st_margin_right st_direction st_max_width st_min_width len0]. rewrite (len_pxs _ _ Gl), (len_pxs _ _ Gw).
    destruct (qc_ltb _ _); eexists; reflexivity. }
  destruct E as [r E]. rewrite !E. unfold hgt, lefts, edges, bottoms, used_block_height, spec_height. rewrite E. subst s. cbn [isinl isrel fst snd andb st_height st_max_height st_position st_margin_top st_margin_bottom st_padding_top st_padding_right st_padding_bottom st_padding_left st_border_top st_border_right st_border_bottom st_border_left len0 border_len or0].
  rewrite (len_pxs _ _ Gg), (len_pxs _ _ Gh), !len_zero. eexists r, _. repeat f_equal; ring.
Qed.
Lemma laid_blocks inner st ps : forall from, map (MoveProps.laid_kid idsty d inner st) (blocks_of from ps) = map (format idsty d inner) (blocks_of from ps).
Proof.
  induction ps as [|p ps IH]; intros from; [reflexivity|]. cbn [blocks_of map]. rewrite IH. f_equal. destruct p as [l t w h inside]. unfold MoveProps.laid_kid. destruct st; reflexivity.
Qed.
Lemma stacks_blocks from ps : stacks_ idsty DBlock (blocks_of from ps) = match ps with [] => false | _ => true end.
Proof. destruct ps as [|[l t w h inside] ps]; reflexivity. Qed.
Lemma kids_blocks inner ps : kids_of idsty d inner (stacks_ idsty DBlock (blocks_of 0 ps)) (blocks_of 0 ps) = stack 0 None (map (format idsty d inner) (blocks_of 0 ps)).
Proof. unfold kids_of. rewrite stacks_blocks, laid_blocks. destruct ps; reflexivity. Qed.
Lemma first_ct st us ps : Forall2 sketch us ps -> (if st : bool then match us with UNode u _ :: _ => u_ct u | _ => 0%Z end else 0%Z) = 0%Z.
Proof. intros F. destruct st; [|reflexivity]. destruct F as [|x p us ps H F]; [reflexivity|]. destruct H. assumption. Qed.
Lemma blocks_sketch from ps : drawable from ps -> on_grid from -> forall inner prev, prev = None \/ prev = Some 0%Z ->
  Forall2 sketch (stack from prev (map (format idsty d inner) (blocks_of from ps))) ps.
Proof.
  induction 1 as [|from l t w h inside rest Gl Gt Gw Gh Lt Lw Lh Hi IHi Hr IHr]; intros Gf inner prev Hp; [constructor|].
  cbn [blocks_of map]. rewrite block_of_eq. destruct (format_rectangle inner (t - from) l w h (blocks_of 0 inside) (grid_sub _ _ Gt Gf) Gl Gw Gh) as (r & mb & ->). cbv zeta. rewrite kids_blocks.
  specialize (IHi grid_0 (inner_of d inner DBlock (rectangle (t - from) l w h) size0) None (or_introl eq_refl)). rewrite (first_ct _ _ _ IHi). cbn [stack u_mt u_cb].
  assert (E : match prev with None => 0 | Some z => qc_maxi (Z2Qc z) 0 end = 0) by (destruct Hp as [-> | ->]; reflexivity). rewrite E. constructor.
  - unfold move_down. constructor; cbn [u_left u_top u_w u_h u_ct]; try reflexivity; [change (t - from + (from + 0) = t); ring|exact IHi].
  - unfold border_height. cbn [u_bt u_pt u_h u_pb u_bb or0]. replace (from + 0 + (0 + (t - from) + h + 0 + 0)) with (t + h) by ring. apply IHr; [apply grid_add; assumption|right; reflexivity].
Qed.
Lemma page_sketch h5 ps : drawable 0 ps -> exists u us, page idsty d h5 (page_of ps) = UNode u us /\ u_left u = 0 /\ u_top u = 0 /\ Forall2 sketch us ps.
Proof.
  intros D. rewrite page_draft. unfold draft, page_of, el. set (a := mkArea _ _ 0 0 None). rewrite format_split. cbn [idsty block_style st_display]. change (mkStyle _ _ _ _ _ _ _ _ _ _ _ _ _ _ _ _ _ _ _ _ _ _ _ _ _ _ _ _ _ _) with block_style.
  unfold node_of. cbv zeta. rewrite kids_blocks. pose proof (blocks_sketch 0 ps D grid_0 (inner_of d a DBlock block_style size0) None (or_introl eq_refl)) as F. rewrite (first_ct _ _ _ F).
  cbn [finished completed]. do 2 eexists. split; [reflexivity|]. cbn [u_left u_top]. split; [|split; [|exact F]].
  - unfold lefts, wmargins, widths, idsty. cbn [isinl andb fst snd isrel block_style st_width st_margin_left st_margin_right st_border_left st_padding_left st_position len0 border_len]. rewrite !len_zero. ring.
  - unfold edges, idsty. cbn [isinl isrel block_style st_margin_top st_border_top st_padding_top st_position len0 border_len]. rewrite !len_zero, whole_px_0. cbn [Z.max]. change (Z2Qc (Z.max 0 0)) with (Z2Qc 0). change (Z2Qc 0) with 0. ring.
Qed.
End T.
Lemma sketch_drawn {S} (n : node S) : forall t p, RefLayout.shows n t -> sketch t p -> drawn n p.
Proof.
  induction n as [s i bx ks IH] using node_ind'. intros t p H K. destruct K as [u us l t w h ps El Et Ew Eh _ F]. inversion H as [s0 i0 b ks0 u0 us0 Hu Hk| |]; subst.
  destruct Hu. rewrite Ew in hu_w. rewrite Eh in hu_h. cbn [is_size] in *. constructor; try assumption. clear -IH F Hk.
  revert ps F. induction Hk as [|k v ks us H1 Hk IHk]; intros ps F; inversion F; subst; constructor.
  - eapply IH; [left; reflexivity|exact H1|assumption].
  - apply IHk; [|assumption]. intros k0 H0. apply IH. right. exact H0.
Qed.
Lemma blocks_new ps : forall from, Forall (fun k => boxed k /\ brand_new k) (blocks_of from ps).
Proof.
  assert (P : forall p from, boxed (block_of from p) /\ brand_new (block_of from p)).
  { fix P 1. intros [l t w h inside] from. rewrite block_of_eq. assert (Q : forall f, Forall (fun k => boxed k /\ brand_new k) (blocks_of f inside)).
    { induction inside as [|q inside IH]; intros f; cbn [blocks_of]; constructor; [apply P|apply IH]. }
    specialize (Q 0). rewrite Forall_forall in Q. split; constructor; intros k Hk; apply (Q k Hk). }
  induction ps as [|p ps IH]; intros from; cbn [blocks_of]; constructor; [apply P|apply IH].
Qed.
Lemma page_new ps : boxed (page_of ps) /\ brand_new (page_of ps).
Proof. pose proof (blocks_new ps 0) as F. rewrite Forall_forall in F. split; constructor; intros k Hk; apply (F k Hk). Qed.
Lemma blocks_kids ps : forall from, blocks_first idsty (blocks_of from ps) = true /\ Forall (fun k => block_child idsty k = true /\ kind_of (n_style k) (n_intr k) = Some Block) (blocks_of from ps).
Proof.
  induction ps as [|[l t w h inside] ps IH]; intros from; cbn [blocks_of]; [split; [reflexivity|constructor]|]. destruct (IH (t + h)) as [A B]. rewrite block_of_eq. split; [exact A|]. constructor; [split; reflexivity|exact B].
Qed.
Definition roomy (a : around) : Prop := w_known a = true /\ match spec_h a with Some u => forall k, measurable k u = true | None => True end.
Lemma all_fit a ps (f : around -> doc -> bool) : forall from, (forall p, In p ps -> forall from, f a (block_of from p) = true) -> forallb (f a) (blocks_of from ps) = true.
Proof. induction ps as [|p ps IH]; intros from H; [reflexivity|]. cbn [blocks_of forallb]. rewrite (H p (or_introl eq_refl)), IH; [reflexivity|]. intros q Hq. apply H. right. exact Hq. Qed.
Lemma kids_fit a ps (st : bool) : (forall p, In p ps -> forall from, can_lay idsty a (block_of from p) = true) ->
  (if st then blocks_first idsty (blocks_of 0 ps) && forallb (fun k => if block_child idsty k then can_lay idsty a k else true) (blocks_of 0 ps) else forallb (can_lay idsty a) (blocks_of 0 ps)) = true.
Proof.
  intros H. destruct st; [|apply (all_fit a ps (can_lay idsty)), H]. rewrite (proj1 (blocks_kids ps 0)). cbn [andb]. apply (all_fit a ps (fun a k => if block_child idsty k then can_lay idsty a k else true)). intros p Hp from. rewrite (H p Hp). destruct (block_child _ _); reflexivity.
Qed.
Lemma rectangle_fits gap l w h ps a : roomy a -> (forall a p, roomy a -> In p ps -> forall from, can_lay idsty a (block_of from p) = true) -> can_lay idsty a (el (rectangle gap l w h) (blocks_of 0 ps)) = true.
Proof.
  intros [Hw Hs] H. unfold el. cbn [can_lay]. cbn [idsty rectangle s_size s_margin s_padding block_style st_display].
  set (s := mkStyle _ _ _ _ _ _ _ _ _ _ _ _ _ _ _ _ _ _ _ _ _ _ _ _ _ _ _ _ _ _). change (kind_of s size0) with (Some Block). change (relative s) with false. cbv beta iota.
  change (edges_ok a s) with true. unfold width_ok, height_ok. rewrite Hw. subst s. cbn [st_width st_height st_max_width st_min_width st_max_height]. change (measurable true (pxs w)) with true. cbn [andb measurable_if_any measurable_or_auto].
  rewrite kids_fit; [|intros p Hp from; apply H; [|exact Hp]; split; [reflexivity|intros k; reflexivity]]. destruct (spec_h a) as [pu|]; [rewrite Hs|]; reflexivity.
Qed.
Lemma block_fits : forall p from a, roomy a -> can_lay idsty a (block_of from p) = true.
Proof.
  fix P 1. intros [l t w h inside] from a Ha. rewrite block_of_eq. apply rectangle_fits; [exact Ha|].
  induction inside as [|q inside IH]; intros a0 p Hr Hp f; [destruct Hp|]. destruct Hp as [<-|Hp]; [apply P, Hr|]. apply IH; assumption.
Qed.
Lemma last_known st (ks : list (node style)) : Forall (fun k => block_child idsty k = true /\ kind_of (n_style k) (n_intr k) = Some Block) ks -> last_sized idsty st ks = None \/ last_sized idsty st ks = Some true.
Proof.
  intros B. unfold last_sized. destruct (rev ks) as [|k r] eqn:E; [left; reflexivity|right]. assert (In k ks) as Hk by (apply in_rev; rewrite E; left; reflexivity).
  rewrite Forall_forall in B. destruct (B k Hk) as [B1 B2]. rewrite B1, andb_false_r. unfold idsty. rewrite B2. reflexivity.
Qed.
Lemma page_fits ps : can_lay_out idsty (page_of ps) = true.
Proof.
  unfold can_lay_out, page_of, el. cbn [n_box some n_style]. unfold idsty at 1. cbn [block_style st_display some andb can_lay]. unfold idsty at 1. cbn [st_display].
  change (kind_of (idsty block_style) size0) with (Some Block). change (relative (idsty block_style)) with false. cbv beta iota. change (edges_ok _ (idsty block_style)) with true. change (width_ok _ Block (idsty block_style) size0) with true. change (st_display block_style) with (Some DBlock). cbv beta iota. cbn [andb].
  rewrite kids_fit; [|intros p Hp from; apply block_fits; split; [reflexivity|exact I]]. cbn [andb]. unfold height_ok. cbn [idsty block_style st_height st_min_height].
  match goal with |- context [last_sized idsty ?st ?ks] => destruct (last_known st ks (proj2 (blocks_kids ps 0))) as [-> | ->] end; reflexivity.
Qed.
(** C196. *)
Theorem C196_drawable : forall d h5 ps, drawable 0 ps -> brand_new (page_of ps) /\
  exists out b, layout idsty d h5 (page_of ps) = (out, Ok tt) /\ n_box out = Some b /\ nval (content_left b) = 0 /\ nval (content_top b) = 0 /\ Forall2 drawn (n_kids out) ps.
Proof.
  intros d h5 ps D. destruct (page_new ps) as [B N]. split; [exact N|]. pose proof (history_new idsty _ N) as H.
  destruct (proj2 (C123_exactly_when idsty d h5 (page_of ps) H) (page_fits ps)) as [out L]. pose proof (C122_any_history idsty d h5 _ out H L) as Sh.
  destruct (page_sketch d h5 ps D) as (u & us & E & El & Et & F). rewrite E in Sh. inversion Sh as [s i b ks u0 us0 Hu Hk| |]; subst. exists (Node s i (Some b) ks), b.
  split; [exact L|]. split; [reflexivity|]. destruct Hu. split; [congruence|]. split; [congruence|]. cbn [n_kids]. clear -F Hk.
  revert ps F. induction Hk as [|k v ks us H1 Hk IHk]; intros ps F; inversion F; subst; constructor; [eapply sketch_drawn; eassumption|apply IHk; assumption].
Qed.
Print Assumptions C196_drawable.

(** ** Example: one rectangle sticks out of the first, the last one is below a gap *)
Definition plan_1 : list plan :=
  [Plan (Z2Qc 10) (Z2Qc 5) (Z2Qc 100) (Z2Qc 50) [Plan (Z2Qc (-3)) 0 (Z2Qc 20) (qfrac 15 2) []; Plan (Z2Qc 90) (Z2Qc 30) (Z2Qc 40) (qfrac 1 64) []];
   Plan (Z2Qc 200) (Z2Qc 60) 0 (Z2Qc 40) []].
Lemma grid_Z z : on_grid (Z2Qc z).
Proof. exact (grid_NI z). Qed.
Example C196_example : drawable 0 plan_1
  /\ (let out := out true (page_of plan_1) in tops out = [5; 60]%Q /\ lefts_of out = [10; 200]%Q /\ tops (kid 0 out) = [0; 30]%Q /\ lefts_of (kid 0 out) = [-3 # 1; 90]%Q
      /\ lq (content_height (bx (kid 0 (kid 0 out)))) = Some (15 # 2)%Q /\ lq (content_width (bx (kid 0 out))) = Some 100%Q).
Proof.
  assert (G1 : on_grid (qfrac 15 2)) by (exists 480%Z; apply Qc_is_canon; reflexivity). assert (G2 : on_grid (qfrac 1 64)) by (exists 1%Z; reflexivity).
  split; [|cbv zeta; repeat (split; [vm_compute; reflexivity|]); vm_compute; reflexivity].
  assert (L : forall x y, qc_ltb y x = false -> x <= y) by (intros x y H; destruct (qc_ltb_spec y x) as [|N]; [discriminate|]; apply Qcnot_lt_le, N).
  unfold plan_1. repeat (constructor; try apply grid_Z; try apply grid_0; try exact G1; try exact G2; try (apply L; vm_compute; reflexivity)).
Qed.
