(** * C155: larger vertical lengths never move anything up *)
From Coq Require Import ZArith QArith Qcanon Qround Lia Lqa Bool List.
From Verif Require Import PyNum NumFacts Units UnitsSpec BoxModel BoxSpec BoxFacts Engine EnginePure EngineSpec EngineExamples
  RefLayout RefFacts RefProps HistSpec HistProps MoveSpec MoveProps LocalProps PushSpec PushProps SymProps MonoSpec.
Import ListNotations.
Open Scope Qc_scope.

Lemma min_le a b a' b' : a <= a' -> b <= b' -> qc_min a b <= qc_min a' b'.
Proof.
  intros A B. unfold qc_min. destruct (qc_ltb_spec b a) as [H|H], (qc_ltb_spec b' a') as [H'|H']; try assumption.
  - exact (Qcle_trans _ _ _ (Qclt_le_weak _ _ H) A).
  - apply Qcnot_lt_le in H. exact (Qcle_trans _ _ _ H B).
Qed.
Lemma min_le_l a b : qc_min a b <= a.
Proof. unfold qc_min. destruct (qc_ltb_spec b a) as [H|H]; [apply Qclt_le_weak, H|apply Qcle_refl]. Qed.
Lemma maxi_le a b a' b' : a <= a' -> b <= b' -> qc_maxi a b <= qc_maxi a' b'.
Proof.
  intros A B. unfold qc_maxi. destruct (qc_ltb_spec a b) as [H|H], (qc_ltb_spec a' b') as [H'|H']; try assumption.
  - apply Qcnot_lt_le in H'. exact (Qcle_trans _ _ _ B H').
  - exact (Qcle_trans _ _ _ A (Qclt_le_weak _ _ H')).
Qed.
Lemma whole_le x y : x <= y -> x = y \/ (exists z, y = Z2Qc z) -> (whole_px x <= whole_px y)%Z.
Proof.
  intros L [-> |[z ->]]; [lia|]. assert (Wz : whole_px (Z2Qc z) = Z.max 0 z).
  { unfold whole_px. assert (F : Qfloor (this (Z2Qc z)) = z) by (rewrite (Qfloor_comp _ _ (this_Z2Qc z)); apply Qfloor_Z). rewrite F. destruct (qc_eqb_spec (Z2Qc z) (Z2Qc z)); [reflexivity|contradiction]. }
  rewrite Wz. unfold whole_px. destruct (qc_eqb _ _); [|lia]. apply Z.max_le_compat_l. unfold Qcle in L. rewrite this_Z2Qc in L. rewrite <- (Qfloor_Z z). apply Qfloor_resp_le, L.
Qed.

Section M.
Context {S : Type} (sty : S -> style) (d : display_t).
Notation node := (node S).
Lemma le_len p q u v : len_le d u v -> len d p u <= len d q v.
Proof. intros (A & B & L). rewrite (len_no_pct d p 0 u A), (len_no_pct d q 0 v B). exact L. Qed.
Lemma le_border p q u v : border_le d u v -> border_len d p u <= border_len d q v.
Proof. intros (A & B & L). rewrite (border_no_pct d p 0 u A), (border_no_pct d q 0 v B). exact L. Qed.
Lemma le_len0 p q u v : auto0_le d u v -> len0 d p u <= len0 d q v.
Proof. intros (A & B & L). rewrite (len0_no_pct d p 0 u A), (len0_no_pct d q 0 v B). exact L. Qed.
Lemma le_whole p q u v : margin_le d u v -> (whole_px (len0 d p u) <= whole_px (len0 d q v))%Z.
Proof. intros ((A & B & L) & W). rewrite (len0_no_pct d p 0 u A), (len0_no_pct d q 0 v B). apply whole_le; assumption. Qed.

(** Box by box. *)
Record below (u v : used) : Prop := {
  b_mt : u_mt u <= u_mt v; b_bt : u_bt u <= u_bt v; b_pt : u_pt u <= u_pt v; b_pb : u_pb u <= u_pb v; b_bb : u_bb u <= u_bb v;
  b_h : or0 (u_h u) <= or0 (u_h v); b_top : u_top u - u_pt u - u_bt u <= u_top v - u_pt v - u_bt v;
  b_ct : (u_ct u <= u_ct v)%Z; b_cb : (u_cb u <= u_cb v)%Z }.
Inductive below_tree : utree -> utree -> Prop :=
| below_box u v us vs : below u v -> Forall2 below_tree us vs -> below_tree (UNode u us) (UNode v vs)
| below_hidden : below_tree UHidden UHidden
| below_skipped : below_tree USkipped USkipped.
Lemma below_refl u : below u u.
Proof. constructor; try apply Qcle_refl; lia. Qed.
Lemma below_content u v : below u v -> u_top u <= u_top v.
Proof. intros []. qclra. Qed.
Lemma below_bh u v : below u v -> border_height u <= border_height v /\ border_bottom u <= border_bottom v.
Proof. intros []. unfold border_height, border_bottom. split; qclra. Qed.
Lemma below_down r q u v : r <= q -> below u v -> below (move_down r u) (move_down q v).
Proof.
  intros L [H1 H2 H3 H4 H5 H6 H7 H8 H9]. destruct u as [a1 a2 a3 a4 a5 a6 a7 a8 a9 a10 a11 a12 a13 a14 a15 a16 a17 a18], v as [b1 b2 b3 b4 b5 b6 b7 b8 b9 b10 b11 b12 b13 b14 b15 b16 b17 b18].
  cbn [u_mt u_bt u_pt u_pb u_bb u_h u_top u_ct u_cb] in *. constructor; cbn [move_down u_mt u_bt u_pt u_pb u_bb u_h u_top u_ct u_cb]; try assumption. clear -L H7. qclra.
Qed.
Lemma below_stack l l' : Forall2 below_tree l l' -> forall top prev top' prev', top <= top' ->
  match prev, prev' with None, None => True | Some z, Some z' => (z <= z')%Z | _, _ => False end -> Forall2 below_tree (stack top prev l) (stack top' prev' l').
Proof.
  induction 1 as [|x x' l l' Hx Hl IH]; intros top prev top' prev' Ht Hp; [constructor|]. destruct Hx as [u v us vs Hu Hs| |]; cbn [stack]; [|constructor; [constructor|apply IH; assumption]..].
  assert (M : top + match prev with None => 0 | Some z => qc_maxi (Z2Qc z) (u_mt u) end <= top' + match prev' with None => 0 | Some z => qc_maxi (Z2Qc z) (u_mt v) end).
  { apply Qcplus_le_compat; [exact Ht|]. destruct prev as [z|], prev' as [z'|]; try contradiction; [|apply Qcle_refl]. apply maxi_le; [apply Z2Qc_le, Hp|apply b_mt, Hu]. }
  constructor; [constructor; [apply below_down; assumption|exact Hs]|]. apply IH; [|apply b_cb, Hu]. apply Qcplus_le_compat; [exact M|apply (below_bh _ _ Hu)].
Qed.
Lemma below_last l l' : Forall2 below_tree l l' -> (last_kid l = None /\ last_kid l' = None) \/ exists u v, last_kid l = Some u /\ last_kid l' = Some v /\ below u v.
Proof.
  intros H. unfold last_kid. assert (R : Forall2 below_tree (rev l) (rev l')).
  { clear -H. induction H; [constructor|]. cbn. apply Forall2_app; [assumption|constructor; [assumption|constructor]]. }
  destruct R as [|x x' r r' Hx _]; [left; split; reflexivity|right]. destruct Hx as [u v us vs Hu Hs| |]; do 2 eexists; (split; [reflexivity|]); (split; [reflexivity|]); [exact Hu|apply below_refl..].
Qed.
Lemma le_height H H' ph ph' s t : style_le d s t -> match spec_height d H ph s, spec_height d H' ph' t with None, None => True | Some x, Some y => x <= y | _, _ => False end.
Proof.
  intros (_ & _ & Hh & _ & Hx & _). unfold spec_height. destruct (st_height s) as [|u], (st_height t) as [|v]; cbn in Hh; try contradiction; [exact I|].
  pose proof (le_len (match ph with Some pu => len d H pu | None => H end) (match ph' with Some pu => len d H' pu | None => H' end) u v Hh) as L.
  destruct (st_max_height s) as [m|], (st_max_height t) as [m'|]; cbn in Hx; try contradiction.
  - apply min_le; [exact L|apply le_len, Hx].
  - exact (Qcle_trans _ _ _ (min_le_l _ _) L).
  - exact L.
Qed.
Lemma le_hgt a a' dk s t i j l l' : style_le d s t -> size_le s t i j -> ((l = None /\ l' = None) \/ exists u v, l = Some u /\ l' = Some v /\ below u v) ->
  or0 (hgt d a dk s i l) <= or0 (hgt d a' dk t j l').
Proof.
  intros Z (R & Sh & Im) L. unfold hgt. rewrite <- R. destruct (isinl dk).
  - destruct (s_replaced i) eqn:Ri; [|exact Sh]. cbn [or0]. unfold image_height. destruct Z as (_ & _ & Hh & _).
    destruct (st_height s) as [|u], (st_height t) as [|v]; cbn in Hh; try contradiction; [|apply le_len, Hh].
    destruct (Im eq_refl) as [N|(Ws & Wt & N & N')]; [congruence|]. rewrite Ws, Wt. destruct (s_height i), (s_height j); try congruence. exact Sh.
  - cbn [or0]. unfold used_block_height. pose proof (le_height (or0 (a_h a)) (or0 (a_h a')) (a_spec_h a) (a_spec_h a') s t Z) as H.
    destruct (spec_height d _ _ s), (spec_height d _ _ t); try contradiction; [exact H|]. destruct L as [[-> ->]|(u & v & -> & -> & L)]; [|apply (below_bh _ _ L)].
    destruct Z as (_ & _ & _ & Zn & _). apply le_len0, Zn.
Qed.
Lemma doc_le_block n m : doc_le d sty n m -> block_level (sty (n_style m)) = block_level (sty (n_style n)).
Proof. intros H. inversion H as [s s' i i' b b' ks ks' Z]; subst. cbn [n_style]. destruct Z as (E & _). unfold block_level. rewrite E. reflexivity. Qed.
Lemma format_le (n : node) : forall m, doc_le d sty n m -> forall a a', below_tree (format sty d a n) (format sty d a' m).
Proof.
  induction n as [s i b ks IH] using node_ind'. intros m Hm a a'. inversion Hm as [s1 s' i1 i' b1 b' ks1 ks' Z Zi Zk]; subst. rewrite !format_split.
  pose proof Z as (Ed & Ep & Hh & _ & _ & Mt & Mb & Pt & Pb & Bt & Bb & No & Sf). rewrite <- Ed. destruct (st_display (sty s)) as [dk|]; [|constructor].
  assert (St : stacks_ sty dk ks' = stacks_ sty dk ks).
  { unfold stacks_. destruct dk; try reflexivity; clear -Zk; (induction Zk as [|x y l l' Hx _ IH']; [reflexivity|]; cbn [existsb]; rewrite (doc_le_block _ _ Hx), IH'; reflexivity). }
  rewrite St. set (st := stacks_ sty dk ks). set (inner := inner_of d a dk (sty s) i). set (inner' := inner_of d a' dk (sty s') i').
  assert (Fk : Forall2 below_tree (map (MoveProps.laid_kid sty d inner st) ks) (map (MoveProps.laid_kid sty d inner' st) ks')).
  { clearbody st inner inner'. clear -IH Zk. induction Zk as [|x y l l' Hx Hl IHl]; [constructor|]. cbn [map]. constructor; [|apply IHl; intros z Iz; apply IH; right; exact Iz].
    unfold MoveProps.laid_kid. rewrite (doc_le_block _ _ Hx). destruct (_ && _); [constructor|]. apply IH; [left; reflexivity|exact Hx]. }
  assert (Fs : Forall2 below_tree (kids_of sty d inner st ks) (kids_of sty d inner' st ks')).
  { unfold kids_of. destruct st; [apply below_stack; [exact Fk|apply Qcle_refl|exact I]|exact Fk]. }
  set (kk := kids_of sty d inner st ks) in *. set (kk' := kids_of sty d inner' st ks') in *. pose proof (below_last _ _ Fs) as L.
  pose proof (le_hgt a a' dk _ _ i i' _ _ Z Zi L) as Lh.
  assert (Le : edges d a dk (sty s) <= edges d a' dk (sty s')).
  { unfold edges. pose proof (le_border (or0 (a_w a)) (or0 (a_w a')) _ _ Bt) as L1. pose proof (le_len (or0 (a_w a)) (or0 (a_w a')) _ _ Pt) as L2. pose proof (le_len0 (or0 (a_h a)) (or0 (a_h a')) _ _ (proj1 Mt)) as L3.
    apply Qcplus_le_compat; [|exact L2]. apply Qcplus_le_compat; [|exact L1]. destruct (isinl dk); [exact L3|apply Qcle_refl]. }
  assert (Lm : (if isinl dk then len0 d (or0 (a_h a)) (st_margin_top (sty s)) else 0) <= (if isinl dk then len0 d (or0 (a_h a')) (st_margin_top (sty s')) else 0)).
  { destruct (isinl dk); [apply le_len0, (proj1 Mt)|apply Qcle_refl]. }
  assert (Wb : (whole_px (or0 (bottoms d a dk (sty s) i)) <= whole_px (or0 (bottoms d a' dk (sty s') i')))%Z).
  { pose proof (le_whole (or0 (a_h a)) (or0 (a_h a')) _ _ Mb) as Wm. pose proof (proj1 Zi) as Er. unfold bottoms. rewrite <- Er. destruct (isinl dk && negb (s_replaced i)); cbn [andb or0]; [|exact Wm].
    assert (W0 : whole_px 0 = 0%Z) by reflexivity. assert (Wn : forall q, (0 <= whole_px q)%Z) by (intros q; unfold whole_px; destruct (qc_eqb _ _); lia).
    destruct (st_margin_bottom (sty s)), (st_margin_bottom (sty s')); cbn [or0]; rewrite ?W0; try apply Wn; exact Wm. }
  assert (Ls : shift d (a_top a) (a_h a) (st_top (sty s)) (st_bottom (sty s)) <= shift d (a_top a') (a_h a') (st_top (sty s')) (st_bottom (sty s'))).
  { cbn [forallb] in No. rewrite !andb_true_iff in No. destruct No as (N1 & N2 & N3 & N4 & _). rewrite (shift_no_pct d (a_top a) 0 (a_h a) None _ _ N1 N2), (shift_no_pct d (a_top a') 0 (a_h a') None _ _ N3 N4). exact Sf. }
  assert (Ir : isrel (sty s') = isrel (sty s)) by (unfold isrel; rewrite Ep; reflexivity).
  unfold node_of. cbv zeta. constructor; [|exact Fs].
  constructor; cbn [u_mt u_bt u_pt u_pb u_bb u_h u_top u_ct u_cb].
  - apply le_len0, (proj1 Mt).
  - apply le_border, Bt.
  - apply le_len, Pt.
  - apply le_len, Pb.
  - apply le_border, Bb.
  - exact Lh.
  - rewrite Ir. clear -Le Lm Ls. unfold edges in *.
    set (x1 := if isinl dk then _ else _) in *. set (x2 := if isinl dk then _ else _) in *. clearbody x1 x2.
    set (y1 := border_len d (or0 (a_w a)) _) in *. set (y2 := border_len d (or0 (a_w a')) _) in *. set (z1 := len d (or0 (a_w a)) _) in *. set (z2 := len d (or0 (a_w a')) _) in *. clearbody y1 y2 z1 z2.
    set (w1 := shift _ _ _ _ _) in *. set (w2 := shift _ _ _ _ _) in *. clearbody w1 w2. destruct (isrel (sty s)); qclra.
  - pose proof (le_whole (or0 (a_h a)) (or0 (a_h a')) _ _ Mt) as Wt. apply Z.max_le_compat; [exact Wt|]. destruct st; [|lia].
    destruct Fs as [|x x' r r' Hx _]; [lia|]. destruct Hx as [u v us vs Hu Hs| |]; try lia. apply b_ct, Hu.
  - destruct (st_height (sty s)), (st_height (sty s')); cbn in Hh; try contradiction; [|exact Wb]. destruct L as [[-> ->]|(u & v & -> & -> & L)]; [exact Wb|]. destruct (isinl dk); [exact Wb|].
    apply Z.max_le_compat; [exact Wb|apply b_cb, L].
Qed.
Lemma below_edges y y' u v : y <= y' -> below u v -> Forall2 Qcle (upper_edges y u) (upper_edges y' v) /\ Forall2 Qcle (lower_edges y u) (lower_edges y' v).
Proof.
  intros L B. pose proof (below_content _ _ B) as T. pose proof (proj2 (below_bh _ _ B)) as Bb. destruct B. unfold upper_edges, lower_edges. split; repeat constructor; qclra.
Qed.
Lemma below_none : forall k k', below_tree k k' -> forall y y', y <= y' -> none_higher y y' k k'.
Proof.
  fix IH 1. intros k. destruct k as [u us| |]; intros k' H y y' L; inversion H as [u0 v us0 vs Hu Hs| |]; subst; [|constructor..]. destruct (below_edges y y' u v L Hu) as [E1 E2]. constructor; [exact E1|exact E2|].
  assert (Lt : y + u_top u <= y' + u_top v) by (apply Qcplus_le_compat; [exact L|apply below_content, Hu]).
  clear -IH Hs Lt. generalize dependent (y + u_top u). generalize dependent (y' + u_top v). revert vs Hs. induction us as [|x us IHu]; intros vs Hs q p Lt; inversion Hs as [|? x' ? vs' Hx Hr]; subst; constructor; [apply IH; assumption|apply IHu; assumption].
Qed.
Lemma page_below h5 n m : doc_le d sty n m -> page_not_higher h5 (page sty d h5 n) (page sty d h5 m).
Proof.
  intros Z. rewrite !page_draft. unfold draft. set (a := mkArea (Some (nval (disp_width d))) (Some (nval (disp_height d))) 0 0 None).
  pose proof (format_le n m Z a a) as F. clearbody a. destruct F as [u v us vs Hu Hs| |]; [|apply page_higher_any; constructor..]. cbn [finished].
  assert (Lc : u_top (completed h5 d u) <= u_top (completed h5 d v)).
  { pose proof (below_content _ _ Hu) as L. pose proof (proj2 (Z2Qc_le _ _) (b_ct _ _ Hu)) as C. destruct u, v. cbn in *. apply Qcplus_le_compat; assumption. }
  assert (Ks : Forall2 (none_higher (u_top (completed h5 d u)) (u_top (completed h5 d v))) us vs).
  { clear -Hs Lc. induction Hs; constructor; [apply below_none; assumption|assumption]. }
  assert (Up : Forall2 Qcle (upper_edges 0 (completed h5 d u)) (upper_edges 0 (completed h5 d v))).
  { pose proof (b_top _ _ Hu) as L. pose proof (below_content _ _ Hu) as L2. pose proof (proj2 (Z2Qc_le _ _) (b_ct _ _ Hu)) as C. clear -L L2 C.
    destruct u as [a1 a2 a3 a4 a5 a6 a7 a8 a9 a10 a11 a12 a13 a14 a15 a16 a17 a18], v as [b1 b2 b3 b4 b5 b6 b7 b8 b9 b10 b11 b12 b13 b14 b15 b16 b17 b18].
    unfold upper_edges, completed. cbn [u_top u_pt u_bt u_ct] in *. repeat constructor; set (x := Z2Qc a17) in *; set (y := Z2Qc b17) in *; clearbody x y; qclra. }
  destruct h5; [apply page_higher_html; assumption|]. apply page_higher_any. constructor; [exact Up| |].
  - pose proof (proj2 (below_bh _ _ Hu)) as L. pose proof (b_h _ _ Hu) as Lh. pose proof (below_content _ _ Hu) as L2. pose proof (proj2 (Z2Qc_le _ _) (b_ct _ _ Hu)) as C. clear -L L2 Lh C.
    destruct u as [a1 a2 a3 a4 a5 a6 a7 a8 a9 a10 a11 a12 a13 a14 a15 a16 a17 a18], v as [b1 b2 b3 b4 b5 b6 b7 b8 b9 b10 b11 b12 b13 b14 b15 b16 b17 b18].
    unfold lower_edges, border_bottom, completed in *. cbn [u_top u_h u_pb u_bb u_ct] in *. repeat constructor; set (x := Z2Qc a17) in *; set (y := Z2Qc b17) in *; clearbody x y; qclra.
  - replace (0 + u_top (completed false d u)) with (u_top (completed false d u)) by ring. replace (0 + u_top (completed false d v)) with (u_top (completed false d v)) by ring. exact Ks.
Qed.
(** C155: on the page, for a document with a box for every node. *)
Theorem C155_nothing_moves_up : forall h5 (n m n' m' : node), boxed n -> boxed m -> doc_le d sty n m ->
  layout sty d h5 n = (n', Ok tt) -> layout sty d h5 m = (m', Ok tt) ->
  exists t t', laid_out_as 0 0 n' t /\ laid_out_as 0 0 m' t' /\ page_not_higher h5 t t'.
Proof.
  intros h5 n m n' m' Bn Bm Z Ln Lm. exists (page sty d h5 n), (page sty d h5 m).
  split; [apply (C112_every_layout_is_the_reference sty); [apply boxed_ready, Bn|left; exact Bn|exact Ln]|].
  split; [apply (C112_every_layout_is_the_reference sty); [apply boxed_ready, Bm|left; exact Bm|exact Lm]|]. apply page_below, Z.
Qed.
(** After any history, adding up the positions relative to the containing blocks. *)
Theorem C155_any_history : forall h5 (n m n' m' : node), history sty n -> history sty m -> doc_le d sty n m ->
  layout sty d h5 n = (n', Ok tt) -> layout sty d h5 m = (m', Ok tt) ->
  exists t t', shows n' t /\ shows m' t' /\ page_not_higher h5 t t'.
Proof.
  intros h5 n m n' m' Hn Hm Z Ln Lm. exists (page sty d h5 n), (page sty d h5 m).
  split; [apply (C122_any_history sty); assumption|]. split; [apply (C122_any_history sty); assumption|]. apply page_below, Z.
Qed.
End M.
Print Assumptions C155_nothing_moves_up.
Print Assumptions C155_any_history.

(** ** Examples *)
Open Scope Z_scope.
(** More margin, padding and height; the widths differ as well. *)
Definition ndoc (v : Z) : doc :=
  el (s_margin (Len (pxu v)) (Len (pxu 5)) (Len (pxu 6)) (Len (pxu 7)) block_style)
    [el (s_size (Len (pxu v)) (Len (pxu v)) (s_margin (Len (pxu 9)) Auto (Len (pxu v)) (Len (pxu 3)) block_style)) [];
     el (s_padding (pxu v) (pxu 4) (pxu 5) (pxu 6) (s_margin (Len (pxu 12)) Auto Auto Auto (s_offsets (OLen (pxu v)) OAuto OAuto OAuto (s_position PRelative block_style))))
       [el (s_limits Auto Auto None (Some (pxu 50)) (s_size Auto (Len (pxu (4 * v))) block_style)) []];
     el block_style []].
Ltac le_px := repeat match goal with |- _ /\ _ => split | |- match _ with _ => _ end => hnf end; try reflexivity; try (apply Qcle_refl); try (vm_compute; discriminate); try (left; reflexivity); try exact I; try (right; exists 20%Z; apply Qc_is_canon; vm_compute; reflexivity).
Ltac le_doc := unfold ndoc, el; repeat match goal with |- Forall2 _ (_ :: _) _ => constructor | |- Forall2 _ [] _ => constructor | |- doc_le _ _ _ _ => apply doc_le_node end;
  unfold style_le, size_le, height_le, limit_le, margin_le, auto0_le, len_le, border_le; le_px; try (intros; discriminate).
Example C155_example : boxed (ndoc 10) /\ boxed (ndoc 20) /\ history idsty (ndoc 10) /\ history idsty (ndoc 20) /\ doc_le screen idsty (ndoc 10) (ndoc 20)
  /\ layout idsty screen false (ndoc 10) = (out false (ndoc 10), Ok tt) /\ layout idsty screen false (ndoc 20) = (out false (ndoc 20), Ok tt)
  /\ tops (out false (ndoc 10)) = [0; 52; 77]%Q /\ tops (out false (ndoc 20)) = [0; 100; 115]%Q.
Proof.
  split; [solve_boxed|]. split; [solve_boxed|]. split; [apply history_new; solve_new|]. split; [apply history_new; solve_new|]. split; [le_doc|].
  split; [apply ok_layout; vm_compute; reflexivity|]. split; [apply ok_layout; vm_compute; reflexivity|]. split; vm_compute; reflexivity.
Qed.
(** Without whole pixels this fails: a bottom margin of 3/2 px instead of 1 px
    moves the next block up by 1 px. *)
Definition half_px : unit_ := mkU KPx (PF (Fin (qfrac 3 2))).
Definition fdoc (m : unit_) : doc :=
  el block_style [el (s_margin Auto Auto (Len m) Auto (hpx 10 block_style)) []; el (hpx 10 block_style) []].
Example C155_fraction : (len screen 0 (pxu 1) < len screen 0 half_px)%Qc /\ tops (out false (fdoc (pxu 1))) = [0; 11]%Q /\ tops (out false (fdoc half_px)) = [0; 10]%Q.
Proof. repeat split; vm_compute; reflexivity. Qed.
