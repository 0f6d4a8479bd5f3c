(** * C208: top margins of first blocks *)
From Coq Require Import ZArith QArith Qcanon Qround Lia Lqa Bool List.
From Verif Require Import PyNum NumFacts Units BoxModel BoxSpec BoxFacts Engine EngineSpec EngineExamples
  RefLayout RefFacts RefProps OkSpec OkFacts HistSpec HistProps MoveSpec MoveProps LocalProps PushSpec PushProps PixelSpec OkProps SymProps AxisSpec AxisProps TradeSpec SoftSpec SoftProps FirstSpec.
Import ListNotations.
Open Scope Qc_scope.

Section T.
Context {S : Type} (sty : S -> style) (d : display_t).
Notation node := (node S).
Notation kid inner st := (MoveProps.laid_kid sty d inner st).
Notation bl k := (block_level (sty (n_style k))).
Lemma first_block free (n m : node) : first_margins sty free n m -> bl m = bl n.
Proof. intros []. cbn [n_style]. match goal with H : top_free _ _ _ |- _ => destruct H as [->|(_ & _ & v & ->)]; reflexivity end. Qed.
Lemma first_blocks p f (ks ks' : list node) : first_kids sty p f ks ks' -> existsb (fun k => bl k) ks' = existsb (fun k => bl k) ks.
Proof. revert f ks'. induction ks as [|k ks IH]; intros f ks' H; inversion H as [|? ? ? k' ? ks1 A B]; subst; [reflexivity|]. cbn [existsb]. rewrite (first_block _ _ _ A), (IH _ _ B). reflexivity. Qed.
Definition same_mt (x y : utree) : Prop := match x, y with UNode u _, UNode v _ => u_mt v = u_mt u | _, _ => True end.
Definition good1 (free : bool) (x y : utree) : Prop := same_on but_top x y /\ (free = false -> same_mt x y).
Lemma first_stack inner (ks : list node) : (forall k free k', In k ks -> first_margins sty free k k' -> good1 free (format sty d inner k) (format sty d inner k')) ->
  forall f ks' top prev, first_kids sty true f ks ks' -> (f = true -> prev = None) ->
  Forall2 (same_on but_top) (stack top prev (map (kid inner true) ks)) (stack top prev (map (kid inner true) ks')).
Proof.
  induction ks as [|k ks IH]; intros G f ks' top prev H P; inversion H as [|? ? ? k' ? ks1 A B]; subst; [constructor|].
  assert (G' : forall k free k', In k ks -> first_margins sty free k k' -> good1 free (format sty d inner k) (format sty d inner k')) by (intros z free z' Iz; apply G; right; exact Iz).
  pose proof (first_block _ _ _ A) as Eb. cbn [map]. unfold MoveProps.laid_kid at 1 3. rewrite Eb. destruct (bl k) eqn:Bk; cbn [negb andb].
  - destruct (G k _ k' (or_introl eq_refl) A) as (Sm & Mt). destruct Sm as [u v us vs Bt Fs| |].
    + cbn [stack]. destruct (bt_bb _ _ Bt) as (E1 & _ & E2).
      assert (Eg : match prev with None => 0 | Some z => qc_maxi (Z2Qc z) (u_mt v) end = match prev with None => 0 | Some z => qc_maxi (Z2Qc z) (u_mt u) end).
      { destruct f; [rewrite (P eq_refl); reflexivity|]. destruct prev; [|reflexivity]. cbn in Mt. rewrite (Mt eq_refl). reflexivity. }
      rewrite Eg, E1, E2. constructor; [constructor; [apply bt_down; exact Bt|exact Fs]|]. apply (IH G' _ _ _ _ B). cbn. rewrite andb_false_r. discriminate.
    + cbn [stack]. constructor; [constructor|]. apply (IH G' _ _ _ _ B). rewrite andb_false_r. discriminate.
    + cbn [stack]. constructor; [constructor|]. apply (IH G' _ _ _ _ B). rewrite andb_false_r. discriminate.
  - cbn [stack]. constructor; [constructor|]. apply (IH G' _ _ _ _ B). rewrite andb_true_r. exact P.
Qed.
Lemma first_flat inner (ks : list node) : (forall k free k', In k ks -> first_margins sty free k k' -> good1 free (format sty d inner k) (format sty d inner k')) ->
  forall p f ks', first_kids sty p f ks ks' -> Forall2 (same_on but_top) (map (kid inner false) ks) (map (kid inner false) ks').
Proof.
  induction ks as [|k ks IH]; intros G p f ks' H; inversion H as [|? ? ? k' ? ks1 A B]; subst; [constructor|]. cbn [map]. constructor.
  - unfold MoveProps.laid_kid. cbn [andb]. apply (G k _ k' (or_introl eq_refl) A).
  - apply (IH ltac:(intros z free z' Iz; apply G; right; exact Iz) _ _ _ B).
Qed.
Lemma format_first (n : node) : forall free m a, first_margins sty free n m -> good1 free (format sty d a n) (format sty d a m).
Proof.
  induction n as [s i b ks IH] using node_ind'. intros free m a H. inversion H as [? ? s' ? ? b' ? ks' Th K]; subst. rewrite !format_split.
  assert (Ed : st_display (sty s') = st_display (sty s)) by (destruct Th as [->|(_ & _ & v & ->)]; reflexivity). rewrite Ed.
  destruct (st_display (sty s)) as [dk|] eqn:Dk; [|split; [constructor|intros _; exact I]].
  pose proof (first_blocks _ _ _ _ K) as Eb. assert (St : stacks_ sty dk ks' = stacks_ sty dk ks) by (unfold stacks_; destruct dk; try reflexivity; exact Eb). rewrite St. set (st := stacks_ sty dk ks).
  assert (In : inner_of d a dk (sty s') i = inner_of d a dk (sty s) i).
  { destruct Th as [->|(_ & Bl & v & ->)]; [reflexivity|]. unfold block_level in Bl. rewrite Dk in Bl. destruct dk; try discriminate; reflexivity. }
  rewrite In. set (inner := inner_of d a dk (sty s) i).
  assert (G : forall k free k', List.In k ks -> first_margins sty free k k' -> good1 free (format sty d inner k) (format sty d inner k')) by (intros k f k' Ik; apply IH; exact Ik).
  assert (Ks : Forall2 (same_on but_top) (kids_of sty d inner st ks) (kids_of sty d inner st ks')).
  { unfold kids_of. destruct st eqn:Es; [|apply (first_flat inner ks G _ _ _ K)]. assert (Bi : block_or_item (sty s) = true) by (unfold block_or_item; rewrite Dk; unfold st, stacks_ in Es; destruct dk; try discriminate; reflexivity).
    rewrite Bi in K. apply (first_stack inner ks G true ks' 0 None K). reflexivity. }
  set (kk := kids_of sty d inner st ks) in *. set (kk' := kids_of sty d inner st ks') in *.
  pose proof (on_last _ _ _ Ks) as L.
  assert (Hg : hgt d a dk (sty s') i (last_kid kk') = hgt d a dk (sty s) i (last_kid kk)).
  { transitivity (hgt d a dk (sty s) i (last_kid kk')).
    - destruct Th as [->|(_ & Bl & v & ->)]; [reflexivity|]. unfold block_level in Bl. rewrite Dk in Bl. destruct dk; try discriminate; reflexivity.
    - unfold hgt. destruct (isinl dk); [reflexivity|]. f_equal. unfold used_block_height. destruct (spec_height _ _ _ _); [reflexivity|]. destruct L as [[-> ->]|(u & v & -> & -> & L)]; [reflexivity|apply (bt_bb _ _ L)]. }
  assert (Ecb : forall mb, match st_height (sty s), last_kid kk' with Auto, Some k => if isinl dk then mb else Z.max mb (u_cb k) | _, _ => mb end
                         = match st_height (sty s), last_kid kk with Auto, Some k => if isinl dk then mb else Z.max mb (u_cb k) | _, _ => mb end).
  { intros mb. destruct (st_height (sty s)); [|reflexivity]. destruct L as [[-> ->]|(u & v & -> & -> & L)]; [reflexivity|]. destruct (bt_bb _ _ L) as (_ & _ & ->). reflexivity. }
  specialize (Ecb (whole_px (or0 (bottoms d a dk (sty s) i)))).
  split.
  - unfold node_of. cbv zeta. constructor; [|exact Ks]. unfold but_top. cbn [u_mt u_mr u_mb u_ml u_bt u_br u_bb u_bl u_pt u_pr u_pb u_pl u_w u_h u_left u_top u_ct u_cb]. rewrite Hg.
    destruct Th as [->|(_ & Bl & v & ->)]; [rewrite Ecb; reflexivity|].
    assert (I : isinl dk = false) by (unfold block_level in Bl; rewrite Dk in Bl; destruct dk; try discriminate; reflexivity).
    assert (Wm : wmargins d a dk (with_margin_top v (sty s)) i = wmargins d a dk (sty s) i) by (unfold wmargins; rewrite I; reflexivity).
    assert (Lf : lefts d a dk (with_margin_top v (sty s)) i = lefts d a dk (sty s) i) by (unfold lefts; rewrite Wm; reflexivity).
    assert (Eg : edges d a dk (with_margin_top v (sty s)) = edges d a dk (sty s)) by (unfold edges; rewrite I; reflexivity).
    cbn [with_margin_top st_height st_border_top st_border_right st_border_bottom st_border_left st_padding_top st_padding_right st_padding_bottom st_padding_left st_left st_right st_top st_bottom].
    rewrite Wm, Lf, Eg. change (bottoms d a dk (with_margin_top v (sty s)) i) with (bottoms d a dk (sty s) i). change (isrel (with_margin_top v (sty s))) with (isrel (sty s)). rewrite Ecb. reflexivity.
  - intros Ef. destruct Th as [->|(X & _)]; [|congruence]. unfold node_of. cbv zeta. cbn [same_mt u_mt]. reflexivity.
Qed.
(** C208.  The top margin of a block that is the first one in the block around it, or that is a child of something else than a block or list item,
    moves nothing but the root: every other box keeps its place in its container and all its values, except for the top margins themselves and
    the extents collapsed at the top.  The root is moved by the extent collapsed at its top. *)
Theorem C208_first_margins h5 (n m n' m' : node) : history sty n -> history sty m -> first_margins sty true n m ->
  layout sty d h5 n = (n', Ok tt) -> layout sty d h5 m = (m', Ok tt) ->
  exists t t', shows n' t /\ shows m' t' /\ same_but_start h5 t t'.
Proof.
  intros Hn Hm H Ln Lm. exists (page sty d h5 n), (page sty d h5 m). split; [apply (C122_any_history sty); assumption|]. split; [apply (C122_any_history sty); assumption|].
  rewrite !page_draft. unfold draft. set (a := mkArea (Some (nval (disp_width d))) (Some (nval (disp_height d))) 0 0 None).
  destruct (format_first n true m a H) as (Sm & _). assert (Ns : format sty d a n <> USkipped) by (destruct n as [s i b ks]; rewrite format_split; destruct (st_display (sty s)); [unfold node_of; cbv zeta|]; discriminate).
  destruct Sm as [u v us vs Bt Fs| |]; cbn [finished]; [|constructor|congruence]. constructor; [|exact Fs]. apply bt_inv in Bt.
  destruct u as [a1 a2 a3 a4 a5 a6 a7 a8 a9 a10 a11 a12 a13 a14 a15 a16 a17 a18], v as [b1 b2 b3 b4 b5 b6 b7 b8 b9 b10 b11 b12 b13 b14 b15 b16 b17 b18].
  unfold but_start, completed. cbn [u_mt u_mr u_mb u_ml u_bt u_br u_bb u_bl u_pt u_pr u_pb u_pl u_w u_h u_left u_top u_ct u_cb] in *.
  destruct Bt as (E1 & E2 & E3 & E4 & E5 & E6 & E7 & E8 & E9 & E10 & E11 & E12 & E13 & E14 & E15 & E16). subst.
  replace (b16 + Z2Qc a17 - Z2Qc a17) with (b16 + Z2Qc b17 - Z2Qc b17) by ring.
  destruct h5; [|reflexivity]. cbn [option_map]. replace (nval (disp_height d) - Z2Qc a17 - Z2Qc b18 + Z2Qc a17) with (nval (disp_height d) - Z2Qc b17 - Z2Qc b18 + Z2Qc b17) by ring. reflexivity.
Qed.
End T.
Print Assumptions C208_first_margins.

(** ** Example *)
Open Scope Z_scope.
(** The margins of the root, of its first child and of the first child of the second one; the second child has the same margin in both. *)
Definition fdoc (m m' m'' : Z) : doc :=
  el (s_margin (Len (pxu m)) Auto (Len (pxu 4)) Auto block_style)
    [el (s_margin (Len (pxu m')) Auto (Len (pxu 20)) Auto (hpx 30 block_style)) [];
     el (s_margin (Len (pxu 25)) Auto (Len (pxu 0)) Auto block_style)
       [el (s_margin (Len (pxu m'')) Auto (Len (pxu 12)) Auto (hpx 5 block_style)) []; el (s_margin (Len (pxu 9)) Auto (Len (pxu 0)) Auto (hpx 8 block_style)) []]].
Example C208_example : history idsty (fdoc 1 2 3) /\ history idsty (fdoc 40 7 50) /\ first_margins idsty true (fdoc 1 2 3) (fdoc 40 7 50)
  /\ layout idsty screen true (fdoc 1 2 3) = (out true (fdoc 1 2 3), Ok tt) /\ layout idsty screen true (fdoc 40 7 50) = (out true (fdoc 40 7 50), Ok tt).
Proof.
  do 2 (split; [apply history_new; solve_new|]). split; [|split; apply ok_layout; vm_compute; reflexivity].
  unfold fdoc, el. repeat match goal with |- first_kids _ _ _ _ _ => constructor | |- first_margins _ _ _ _ => apply first_node end;
    first [left; reflexivity|right; split; [reflexivity|]; split; [reflexivity|]; eexists; vm_compute; reflexivity].
Qed.
