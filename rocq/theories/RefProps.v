(** * C111, C112: layout is the reference layout *)
From Coq Require Import ZArith QArith Qcanon Lqa Lia Bool List String.
From Verif Require Import PyNum NumFacts Units BoxModel BoxSpec BoxFacts Engine EnginePure EngineFacts EngineSpec
  EngineTree EngineTotal EngineInv EngineExamples EngineTProps RefLayout RefFacts.
Import ListNotations.
Open Scope Qc_scope.

Section R.
Context {S : Type} (sty : S -> style).
Notation node := (node S).

Lemma has_used_sb b u : has_used (sb b) u -> has_used b u.
Proof. intros []. destruct b; constructor; assumption. Qed.
Lemma shows_strip : forall (n : node) t, shows (strip n) t -> shows n t.
Proof.
  induction n as [s i bx ks IH] using node_ind'. intros t H. cbn [strip] in H. inversion H as [s0 i0 b0 ks0 u us Hu Hk E1 E2|s0 i0 ks0 E1 E2|n0 Hn E1 E2]; subst.
  - destruct bx as [b|]; [|discriminate]. cbn in *. match goal with E : Some _ = Some _ |- _ => injection E as E; subst b0 end.
    constructor; [apply has_used_sb, Hu|]. clear -IH Hk. revert us Hk. induction ks as [|k ks IHk]; intros us Hk; inversion Hk; subst; constructor.
    + apply IH; [left; reflexivity|assumption].
    + apply IHk; [|assumption]. intros k' I. apply IH. right. exact I.
  - destruct bx; [discriminate|]. constructor.
  - constructor. cbn [n_box] in *. intros b ->. apply has_used_sb, Hn. reflexivity.
Qed.
Lemma shows_laid : forall (n : node) t x y, shows n t -> consistent n ->
  (forall b, n_box n = Some b -> nval (origin_left b) = x /\ nval (origin_top b) = y) -> laid_out_as x y n t.
Proof.
  induction n as [s i bx ks IH] using node_ind'. intros t x y H C E.
  inversion H as [s0 i0 b ks0 u us Hu Hk E1 E2|s0 i0 ks0 E1 E2|n0 Hn E1 E2]; subst.
  2:{ constructor. }
  2:{ constructor. intros b Eb. destruct (E b Eb). auto. }
  apply consistent_iff in C. destruct C as [C1 C2]. destruct (E b eq_refl) as [X Y].
  constructor; [exact Hu|exact X|exact Y|].
  assert (K : forall k, In k ks -> consistent k /\ forall kb, n_box k = Some kb -> nval (origin_left kb) = x + u_left u /\ nval (origin_top kb) = y + u_top u).
  { intros k Ik. split; [auto|]. intros kb Ek. destruct (C2 b k kb eq_refl Ik Ek) as [T L]. unfold absolute_content_top, absolute_content_left in *.
    rewrite !nval_add in *. rewrite <- (hu_left _ _ Hu), <- (hu_top _ _ Hu), <- X, <- Y. split; clear -T L; qclra. }
  clear -IH K Hk. induction Hk as [|k t ks us Hkt Hk IHk]; constructor.
  - destruct (K k (or_introl eq_refl)) as [K1 K2]. apply IH; [left; reflexivity|exact Hkt|exact K1|exact K2].
  - apply IHk; intros k' I; [apply IH|apply K]; right; exact I.
Qed.
(** The reference layout does not depend on the boxes. *)
Lemma format_inputs d : forall (a b : node), inputs a = inputs b -> forall ar, format sty d ar a = format sty d ar b.
Proof.
  intros a. induction a as [s i bx ks IH] using node_ind'. intros [s' i' bx' ks'] E ar. cbn [inputs] in E. injection E as <- <- E.
  assert (K : forall ar, map (format sty d ar) ks = map (format sty d ar) ks').
  { clear -IH E. intros ar. revert ks' E. induction ks as [|k ks IHk]; intros [|k' ks'] E; try discriminate; [reflexivity|]. cbn [map] in *. injection E as E1 E2.
    f_equal; [apply IH; [left; reflexivity|exact E1]|]. apply IHk; [|exact E2]. intros x I. apply IH. right. exact I. }
  assert (K2 : forall ar, map (fun k => if block_level (sty (n_style k)) then format sty d ar k else USkipped) ks
    = map (fun k => if block_level (sty (n_style k)) then format sty d ar k else USkipped) ks').
  { clear -IH E. intros ar. revert ks' E. induction ks as [|k ks IHk]; intros [|k' ks'] E; try discriminate; [reflexivity|]. cbn [map] in *. injection E as E1 E2.
    f_equal; [|apply IHk; [|exact E2]; intros x I; apply IH; right; exact I]. rewrite (IH k (or_introl eq_refl) k' E1).
    destruct k, k'. cbn [inputs] in E1. injection E1 as <- _ _. reflexivity. }
  assert (K3 : existsb (fun k => block_level (sty (n_style k))) ks = existsb (fun k => block_level (sty (n_style k))) ks').
  { clear -E. revert ks' E. induction ks as [|k ks IHk]; intros [|k' ks'] E; try discriminate; [reflexivity|]. cbn [map existsb] in *. injection E as E1 E2.
    rewrite (IHk _ E2). destruct k, k'. cbn [inputs] in E1. injection E1 as <- _ _. reflexivity. }
  cbn [format]. destruct (st_display (sty s)) as [dk|]; [|reflexivity]. cbv zeta.
  match goal with |- (match ?e with pair _ _ => _ end) = _ => destruct e as [[w ml] mr] end. rewrite K, K2, K3. reflexivity.
Qed.

Lemma layout_shows d h5 (n n' : node) : fresh sty (strip (reset n)) -> layout sty d h5 n = (n', Ok tt) -> shows n' (page sty d h5 n).
Proof.
  intros Fr H.
  pose proof (layout_playout sty _ _ _ _ H) as Hp. unfold playout in Hp. apply bindr_ok in Hp. destruct Hp as (n1 & Hn1 & Hfin).
  assert (Hin : inputs (strip (reset n)) = inputs n) by (rewrite inputs_strip, inputs_reset; reflexivity).
  pose proof (plb_format sty _ d CBView _ _ (mkArea (Some (nval (disp_width d))) (Some (nval (disp_height d))) 0 0 None) Hn1
    Fr) as Sh.
  assert (A : area_is sty d (mkArea (Some (nval (disp_width d))) (Some (nval (disp_height d))) 0 0 None) CBView).
  { constructor; [eexists; split; reflexivity|eexists; split; reflexivity|reflexivity|discriminate]. }
  specialize (Sh A). rewrite (format_inputs d _ _ Hin) in Sh.
  assert (Dn : st_display (sty (n_style n)) <> None).
  { intros E. apply plb_hidden in Hn1; [|rewrite n_style_strip; destruct n as [s i [b|] ks]; exact E]. subst n1.
    destruct (strip (reset n)); discriminate. }
  assert (Sh' : shows (strip n') (page sty d h5 n)).
  { unfold page. destruct (format_node sty d (mkArea (Some (nval (disp_width d))) (Some (nval (disp_height d))) 0 0 None) n Dn) as (u & us & E).
    rewrite E in *. inversion Sh as [s i b ks u0 us0 Hu Hk E1 E2| |]; subst.
    cbn [pfinish] in Hfin. apply Ok_inj in Hfin. rewrite <- Hfin.
    assert (M : has_used (move_top (nadd (content_top b) (NI (collapse_top b))) b) (move_down (Z2Qc (u_ct u)) u)).
    { unfold move_top. apply has_used_down; [exact Hu|]. rewrite setn_val, nval_add, (hu_top _ _ Hu), (hu_ct _ _ Hu). reflexivity. }
    destruct u as [mt mr mb ml bt br bb bl pt pr pb pl w h lf tp ct cb]. cbn [move_down u_ct] in M. constructor; [|exact Hk].
    destruct h5; [|exact M]. pose proof (hu_ct _ _ Hu) as Ect. pose proof (hu_cb _ _ Hu) as Ecb. cbn in Ect, Ecb.
    clear -M Ect Ecb. set (b1 := move_top _ b) in *. clearbody b1. destruct M. destruct b1; constructor; cbn in *; try assumption.
    eexists. split; [reflexivity|]. rewrite !nval_sub, Ect, Ecb. reflexivity. }
  apply shows_strip, Sh'.
Qed.
(** C112.  Whenever layout succeeds, every used value and position is the one
    of the reference layout: for every document, display and mode, whatever was
    laid out before. *)
Theorem C112_every_layout_is_the_reference : forall d h5 (n n' : node),
  ready sty n -> boxed n \/ consistent n -> layout sty d h5 n = (n', Ok tt) ->
  laid_out_as 0 0 n' (page sty d h5 n).
Proof.
  intros d h5 n n' Rd BC H.
  assert (Cr : consistent (reset n)) by (destruct BC as [B|C]; [apply boxed_consistent, B|apply consistent_reset, C]).
  pose proof (layout_shows d h5 n n' (ready_fresh sty n Rd) H) as Sh'.
  pose proof (layout_step sty d h5 n) as St. rewrite H in St. cbn [fst] in St. destruct St as [_ St].
  destruct (St (reset_ready sty n Rd)) as (_ & O & C & _). specialize (C Cr).
  apply shows_laid; [exact Sh'|exact C|]. intros b Eb. unfold keeps_origin in O. rewrite Eb in O.
  destruct n as [s i [b0|] ks]; cbn in O; [|destruct O]. destruct O as [O1 O2]. auto.
Qed.

(** C111.  The layout of every block document succeeds, and every used value
    and position is the one of the reference layout. *)
Theorem C111_reference_layout : forall d h5 (n : node), boxed n -> block_document sty n ->
  exists n', layout sty d h5 n = (n', Ok tt) /\ laid_out_as 0 0 n' (page sty d h5 n).
Proof.
  intros d h5 n B D. destruct (layout_total sty d h5 n B D) as (n' & H). exists n'. split; [exact H|].
  apply (C112_every_layout_is_the_reference d h5 n); [apply boxed_ready, B|left; exact B|exact H].
Qed.
End R.

(** A document with percentages, auto margins, keyword borders, em and vw
    paddings, a relatively positioned child and a table. *)
Example rich_page : exists n', layout idsty screen false rich_doc = (n', Ok tt) /\ laid_out_as 0 0 n' (page idsty screen false rich_doc).
Proof. apply C111_reference_layout; apply rich_doc_supported. Qed.
(** The reference layout itself, on literals: two 10px high blocks with 8px
    and 20px margins in a body with 5px padding; the second is relative, 50%
    wide, centred and moved by 3px to the right and 1px up. *)
Definition two_blocks : doc :=
  el (s_padding (pxu 5) (pxu 5) (pxu 5) (pxu 5) block_style)
    [el (vmargin 0 8 (hpx 10 block_style)) [];
     el (s_offsets OAuto OAuto (OLen (pxu 1)) (OLen (pxu 3)) (s_position PRelative
         (s_margin (Len (pxu 20)) Auto (Len (pxu 0)) Auto (s_size (Len (pctu 50)) (Len (pxu 10)) block_style)))) []].
Fixpoint view (t : utree) : list (list Q) :=
  match t with
  | UNode u ks => map this [u_left u; u_top u; or0 (u_w u); or0 (u_h u); u_ml u; u_mr u] :: flat_map view ks
  | UHidden => [[]]
  | USkipped => [[0%Q]]
  end.
Example two_blocks_view : view (page idsty screen false two_blocks)
  = [[5; 5; 990; 39; 0; 0]; [0; 0; 990; 10; 0; 0]; [250; 29; 495; 10; 247; 247]]%Q.
Proof. vm_compute. reflexivity. Qed.
(** An image scaled to 40px by its ratio 1/2, a word, a hidden element, a
    relative block that inherits its left offset and, at the end of a block
    container, an element that is skipped. *)
Definition mixed : doc :=
  el (s_padding (pxu 5) (pxu 5) (pxu 5) (pxu 7) block_style)
    [el (hpx 30 block_style)
       [Node (s_size (Len (pxu 40)) Auto (vmargin 2 0 (s_display (Some DInline) block_style)))
             (mkSize (Some (NI 9)) (Some (NI 9)) true true (Some (NF (qfrac 1 2))) true) (Some box0) [];
        el (s_display None block_style) [el block_style []];
        Node (s_display (Some DInline) block_style) (mkSize (Some (NI 12)) None false false None false) (Some box0) []];
     el (s_offsets OAuto OAuto OAuto OInherit (s_position PRelative (hpx 10 block_style))) [];
     Node (s_display (Some DInline) block_style) (mkSize (Some (NI 12)) (Some (NI 12)) false false None false) (Some box0) []].
Example mixed_ready : ready idsty mixed /\ boxed mixed /\ snd (layout idsty screen true mixed) = Ok tt.
Proof.
  assert (B : boxed mixed).
  { solve_boxed. }
  split; [apply boxed_ready, B|]. split; [exact B|]. vm_compute. reflexivity.
Qed.
Example mixed_view : view (page idsty screen true mixed)
  = [[7; 5; 988; 600; 0; 0]; [0; 0; 988; 30; 0; 0]; [0; 2; 40; 20; 0; 0]; []; [0; 0; 12; 0; 0; 0]; [7; 30; 988; 10; 0; 0]; [0]]%Q.
Proof. vm_compute. reflexivity. Qed.
Print Assumptions C112_every_layout_is_the_reference.
Print Assumptions C111_reference_layout.
Example C111_example : boxed rich_doc /\ block_document idsty rich_doc.
Proof. exact rich_doc_supported. Qed.
Example C112_example : ready idsty mixed /\ boxed mixed /\ layout idsty screen true mixed = (out true mixed, Ok tt).
Proof. split; [apply mixed_ready|]. split; [apply mixed_ready|]. apply ok_layout. vm_compute. reflexivity. Qed.
