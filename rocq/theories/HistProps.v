(** * C122, C62: layout after any history *)
From Coq Require Import ZArith QArith Qcanon Lia Bool List Permutation.
From Verif Require Import PyNum NumFacts Units BoxModel BoxSpec BoxFacts Engine EnginePure EngineFacts EngineSpec
  EngineTree EngineInv EngineExamples RefLayout RefFacts RefProps HistSpec.
Import ListNotations.
Open Scope Qc_scope.

Section H.
Context {S : Type} (sty : S -> style).
Notation node := (node S).

(** ** The invariant: what is below a node without box is in its initial state,
    except for the origins *)
Inductive clean : node -> Prop :=
| clean_node s i bx ks : (forall b, bx = Some b -> sb b = box0) -> (forall k, In k ks -> clean k) -> clean (Node s i bx ks).
Inductive sound : node -> Prop :=
| sound_box s i b ks : (forall k, In k ks -> sound k) -> sound (Node s i (Some b) ks)
| sound_none s i ks : (forall k, In k ks -> clean k) -> sound (Node s i None ks).
Lemma clean_sound n : clean n -> sound n.
Proof. induction 1 as [s i [b|] ks B K IH]; [apply sound_box|apply sound_none]; auto. Qed.
Lemma new_clean n : brand_new n -> clean n.
Proof. induction 1 as [s i ks K IH]. constructor; [intros b [= <-]; reflexivity|exact IH]. Qed.
Lemma reset_clean n : sound n -> clean (reset n).
Proof.
  induction 1 as [s i b ks K IH|s i ks K]; cbn [reset].
  - constructor; [intros b0 [= <-]; reflexivity|]. intros k I. apply in_map_iff in I. destruct I as (k0 & <- & I). auto.
  - constructor; [discriminate|exact K].
Qed.
Lemma clean_fresh n : clean n -> fresh sty (strip n).
Proof.
  induction 1 as [s i bx ks B K IH]. cbn [strip]. apply fresh_node.
  - destruct bx as [b|]; [right|left; reflexivity]. cbn. rewrite (B b eq_refl). reflexivity.
  - intros k I. apply in_map_iff in I. destruct I as (k0 & <- & I). auto.
Qed.

(** ** Edits *)
Scheme edited_min := Minimality for edited Sort Prop with kids_edited_min := Minimality for kids_edited Sort Prop.
Combined Scheme edits_min from edited_min, kids_edited_min.
Lemma edits_keep :
  (forall n m : node, edited n m -> (clean n -> clean m) /\ (sound n -> sound m))
  /\ (forall ks ks' : list node, kids_edited ks ks' -> (Forall clean ks -> Forall clean ks') /\ (Forall sound ks -> Forall sound ks')).
Proof.
  apply edits_min.
  - intros s i s' i' bx ks ks' _ [C D]. rewrite !Forall_forall in C, D. split.
    + intros H. inversion H; subst. constructor; auto.
    + intros H. inversion H; subst; [apply sound_box|apply sound_none]; auto.
  - auto.
  - intros k k' ks ks' _ [A B] _ [C D]. split; intros F; inversion F; subst; constructor; auto.
  - intros k ks ks' _ [C D]. split; intros F; inversion F; subst; auto.
  - intros k ks ks' N _ [C D]. apply new_clean in N. split; intros F; constructor; auto. apply clean_sound, N.
  - intros ks ks' ks'' _ [C D] P. split; intros F; eapply Permutation_Forall; eauto.
Qed.

(** ** Layout *)
Inductive tidy : node -> Prop :=
| tidy_hidden n : st_display (sty (n_style n)) = None -> (forall k, In k (n_kids n) -> clean k) -> tidy n
| tidy_box s i b ks : st_display (sty s) <> None -> (forall k, In k ks -> tidy k) -> tidy (Node s i (Some b) ks)
| tidy_none s i ks : st_display (sty s) <> None -> (forall k, In k ks -> clean k) -> tidy (Node s i None ks).
Lemma clean_tidy n : clean n -> tidy n.
Proof.
  induction 1 as [s i bx ks B K IH]. destruct (st_display (sty s)) as [dk|] eqn:D.
  - destruct bx; [apply tidy_box|apply tidy_none]; auto; congruence.
  - apply tidy_hidden; [exact D|exact K].
Qed.
Lemma tidy_sound n : tidy n -> sound n.
Proof.
  induction 1 as [[s i [b|] ks] D K|s i b ks D K IH|s i ks D K]; cbn [n_kids] in *.
  - apply sound_box. intros k I. apply clean_sound, K, I.
  - apply sound_none, K.
  - apply sound_box, IH.
  - apply sound_none, K.
Qed.
Lemma clean_strip n m : strip n = strip m -> clean n -> clean m.
Proof.
  intros E H. revert m E. induction H as [s i bx ks B K IH]. intros [s' i' bx' ks'] E. cbn [strip] in E. injection E as _ _ E1 E2. constructor.
  - intros b ->. destruct bx as [b0|]; [|discriminate]. cbn in E1. injection E1 as E1. rewrite <- E1. apply B. reflexivity.
  - clear B E1 K. revert ks' E2. induction ks as [|k ks IHk]; intros [|k' ks'] E2 x I; try discriminate; [destruct I|]. cbn in E2. injection E2 as E2 E3.
    destruct I as [<-|I]; [eapply IH; [left; reflexivity|exact E2]|]. eapply IHk; [|exact E3|exact I]. intros y J. apply IH. right. exact J.
Qed.
Lemma clean_origin_top v n : clean n -> clean (set_origin_top v n).
Proof. apply clean_strip. symmetry. apply strip_origin_top. Qed.
Lemma clean_origin_left v n : clean n -> clean (set_origin_left v n).
Proof. apply clean_strip. symmetry. apply strip_origin_left. Qed.
Lemma tidy_origin_top n : tidy n -> forall v, tidy (set_origin_top v n).
Proof.
  induction 1 as [[s i [b|] ks] D K|s i b ks D K IH|s i ks D K]; intros v; cbn [set_origin_top].
  - destruct (neqb v (origin_top b)); apply tidy_hidden; try exact D; cbn [n_kids]; [exact K|]. intros k I. apply in_map_iff in I. destruct I as (k0 & <- & I). apply clean_origin_top, K, I.
  - apply tidy_hidden; assumption.
  - destruct (neqb v (origin_top b)); apply tidy_box; try exact D; [exact K|]. intros k I. apply in_map_iff in I. destruct I as (k0 & <- & I). auto.
  - apply tidy_none; assumption.
Qed.
Lemma tidy_origin_left n : tidy n -> forall v, tidy (set_origin_left v n).
Proof.
  induction 1 as [[s i [b|] ks] D K|s i b ks D K IH|s i ks D K]; intros v; cbn [set_origin_left].
  - destruct (neqb v (origin_left b)); apply tidy_hidden; try exact D; cbn [n_kids]; [exact K|]. intros k I. apply in_map_iff in I. destruct I as (k0 & <- & I). apply clean_origin_left, K, I.
  - apply tidy_hidden; assumption.
  - destruct (neqb v (origin_left b)); apply tidy_box; try exact D; [exact K|]. intros k I. apply in_map_iff in I. destruct I as (k0 & <- & I). auto.
  - apply tidy_none; assumption.
Qed.
Definition tidy_step (n n' : node) : Prop := n_style n' = n_style n /\ (tidy n -> tidy n').
Lemma stable_tidy : stable sty tidy_step.
Proof.
  split.
  - intros n. split; auto.
  - intros a b c [S1 H1] [S2 H2]. split; [congruence|auto].
  - intros s i b b' ks _. split; [reflexivity|]. intros T. inversion T as [n D K|s0 i0 b0 ks0 D K|]; subst; [apply tidy_hidden; assumption|apply tidy_box; assumption].
  - intros v [s i [b|] ks]; cbn [set_content_top]; [|split; auto]. destruct (neqb _ _); [split; auto|]. split; [reflexivity|].
    intros T. inversion T as [n D K|s0 i0 b0 ks0 D K|]; subst.
    + apply tidy_hidden; [exact D|]. cbn [n_kids] in *. intros k I. apply in_map_iff in I. destruct I as (k0 & <- & I). apply clean_origin_top, K, I.
    + apply tidy_box; [exact D|]. intros k I. apply in_map_iff in I. destruct I as (k0 & <- & I). apply tidy_origin_top, K, I.
  - intros v [s i [b|] ks]; cbn [set_content_left]; [|split; auto]. destruct (neqb _ _); [split; auto|]. split; [reflexivity|].
    intros T. inversion T as [n D K|s0 i0 b0 ks0 D K|]; subst.
    + apply tidy_hidden; [exact D|]. cbn [n_kids] in *. intros k I. apply in_map_iff in I. destruct I as (k0 & <- & I). apply clean_origin_left, K, I.
    + apply tidy_box; [exact D|]. intros k I. apply in_map_iff in I. destruct I as (k0 & <- & I). apply tidy_origin_left, K, I.
  - intros [s i [b|] ks] D; cbn in D; [split; auto|]. split; [reflexivity|]. intros T. inversion T as [n D' K|s0 i0 b0 ks0 D' K|s0 i0 ks0 D' K]; subst; [contradiction|].
    cbn. apply tidy_box; [exact D|]. intros k I. apply in_map_iff in I. destruct I as (k0 & <- & I). apply clean_tidy, clean_origin_left, clean_origin_top, K, I.
  - intros [s i bx ks] D. split; [reflexivity|]. intros T. inversion T as [n D' K| |]; subst; [|contradiction|contradiction]. apply tidy_hidden; [exact D|exact K].
  - intros s i b ks ks' D F. split; [reflexivity|]. intros T. inversion T as [n D' K|s0 i0 b0 ks0 D' K|]; subst; [contradiction|]. apply tidy_box; [exact D|].
    intros k' I. destruct (Forall2_in_r _ _ _ _ F I) as (k & I1 & [_ P]). auto.
Qed.
Lemma layout_sound d h5 n : sound n -> sound (fst (layout sty d h5 n)).
Proof.
  intros Sn. unfold layout. destruct (n_box n) as [b|]; [|exact Sn].
  assert (T : tidy (reset n)) by (apply clean_tidy, reset_clean, Sn). unfold mbind at 1, mmod. unfold mbind.
  pose proof (layout_box_R sty _ stable_tidy (height n) d dummy_font CBView (reset n) (fun a b H => proj1 H)) as [_ H1]. specialize (H1 T).
  destruct (layout_box sty (height n) d dummy_font CBView (reset n)) as [n1 [u|e]]; cbn [fst] in *; [|apply tidy_sound, H1].
  apply tidy_sound. unfold finish_root. destruct (n_box n1) as [b1|]; [|exact H1].
  assert (K : mkeeps tidy_step (if h5 then on_box (bmod (upd_content_height
              (LNum (nsub (nsub (disp_height d) (NI (collapse_top b1))) (NI (collapse_bottom b1)))))) else mret tt)).
  { destruct h5; [|apply (mkeeps_ret sty _ stable_tidy)]. apply (mkeeps_box sty _ stable_tidy). intros b0. destruct b0; repeat split. }
  apply (proj2 (K _)). apply (proj2 (st_top_ sty _ stable_tidy _ _)), H1.
Qed.
Lemma history_sound n : history sty n -> sound n.
Proof.
  induction 1 as [n N|n m _ IH E|d h5 n _ IH]; [apply clean_sound, new_clean, N|apply (proj1 edits_keep _ _ E), IH|apply layout_sound, IH].
Qed.

(** C122.  After any history of edits and layouts, a successful layout gives
    every node the used values of the reference layout. *)
Theorem C122_any_history : forall d h5 (n n' : node), history sty n -> layout sty d h5 n = (n', Ok tt) -> shows n' (page sty d h5 n).
Proof. intros d h5 n n' H L. apply layout_shows; [|exact L]. apply clean_fresh, reset_clean, history_sound, H. Qed.

(** C62, the part that holds: hiding and showing again changes nothing but
    origins, if the layouts succeed. *)
Theorem C62_reshow_partial : forall d h5 (n m n' m' : node), history sty n -> history sty m -> inputs n = inputs m ->
  layout sty d h5 n = (n', Ok tt) -> layout sty d h5 m = (m', Ok tt) -> exists t, shows n' t /\ shows m' t.
Proof.
  intros d h5 n m n' m' Hn Hm E Ln Lm. exists (page sty d h5 n). split; [apply C122_any_history; assumption|].
  replace (page sty d h5 n) with (page sty d h5 m); [apply C122_any_history; assumption|].
  unfold page. rewrite (format_inputs sty d _ _ E). reflexivity.
Qed.
End H.
Print Assumptions C122_any_history.
Print Assumptions C62_reshow_partial.

(** ** Examples and counterexamples *)
(** The boxes of [n] under the styles of [src]. *)
Fixpoint restyle (src n : doc) {struct src} : doc :=
  let 'Node s i _ ks := src in
  let 'Node _ _ b ks' := n in
  Node s i b ((fix go l l' := match l, l' with k :: r, k' :: r' => restyle k k' :: go r r' | _, _ => [] end) ks ks').
Ltac solve_new :=
  constructor; let k := fresh "k" in let H := fresh "H" in
  intros k H; hnf in H;
  repeat match type of H with In _ _ => hnf in H | _ \/ _ => destruct H as [H|H]; [subst k; solve_new|] | False => destruct H end.
Ltac solve_edited := repeat first [apply edited_end | apply edited_keep | apply edited_node].

Definition menu (visible : bool) : doc :=
  el (s_margin (Len (pxu 8)) (Len (pxu 8)) (Len (pxu 8)) (Len (pxu 8)) (hpx 100 block_style))
    [el (s_display (if visible then Some DBlock else None) (vmargin 5 5 block_style)) [el (hpx 10 block_style) []; el (vmargin 4 4 (hpx 20 block_style)) []]].
(** Laid out, hidden, laid out, shown again. *)
Definition menu_again : doc := restyle (menu true) (out false (restyle (menu false) (out false (menu true)))).
Example C122_example : history idsty menu_again /\ inputs menu_again = inputs (menu true) /\ n_box (kid 0 menu_again) = None
  /\ layout idsty screen false menu_again = (out false menu_again, Ok tt)
  /\ lq (content_height (bx (kid 0 (out false menu_again)))) = Some 34%Q.
Proof.
  split.
  { apply (history_edit idsty (out false (restyle (menu false) (out false (menu true))))).
    - apply history_layout. apply (history_edit idsty (out false (menu true))).
      + apply history_layout, history_new. solve_new.
      + let x := eval vm_compute in (out false (menu true)) in replace (out false (menu true)) with x by (vm_compute; reflexivity). solve_edited.
    - let x := eval vm_compute in (out false (restyle (menu false) (out false (menu true)))) in
        replace (out false (restyle (menu false) (out false (menu true)))) with x by (vm_compute; reflexivity).
      let y := eval vm_compute in menu_again in replace menu_again with y by (vm_compute; reflexivity).
      solve_edited. }
  split; [vm_compute; reflexivity|]. split; [vm_compute; reflexivity|]. split; [apply ok_layout; vm_compute; reflexivity|vm_compute; reflexivity].
Qed.

(** A relatively positioned block of auto height whose last child was hidden
    once cannot be laid out any more, nor can a document whose root was. *)
Definition badge (visible : bool) : doc :=
  el (hpx 100 block_style) [el (s_position PRelative block_style) [el (s_display (if visible then Some DBlock else None) (hpx 10 block_style)) []]].
Definition page_root (visible : bool) : doc := el (s_display (if visible then Some DBlock else None) block_style) [].
Theorem C62_stuck_refuted :
  (exists n h m : doc, brand_new n /\ brand_new h /\ m = restyle n (fst (layout idsty screen false h)) /\ inputs m = inputs n
     /\ snd (layout idsty screen false n) = Ok tt /\ snd (layout idsty screen false m) = Err AttributeError
     /\ layout idsty screen false (fst (layout idsty screen false m)) = layout idsty screen false m)
  /\ (exists n h m : doc, brand_new n /\ brand_new h /\ m = restyle n (fst (layout idsty screen false h)) /\ inputs m = inputs n
     /\ snd (layout idsty screen false n) = Ok tt /\ layout idsty screen false m = (m, Err AttributeError)).
Proof.
  split.
  - exists (badge true), (badge false), (restyle (badge true) (fst (layout idsty screen false (badge false)))).
    split; [solve_new|]. split; [solve_new|]. split; [reflexivity|]. repeat (split; [vm_compute; reflexivity|]). vm_compute. reflexivity.
  - exists (page_root true), (page_root false), (restyle (page_root true) (fst (layout idsty screen false (page_root false)))).
    split; [solve_new|]. split; [solve_new|]. split; [reflexivity|]. repeat (split; [vm_compute; reflexivity|]). vm_compute. reflexivity.
Qed.
Print Assumptions C62_stuck_refuted.
(** Shown again and new: the same boxes. *)
Example C62_example : history idsty menu_again /\ history idsty (menu true) /\ inputs menu_again = inputs (menu true)
  /\ layout idsty screen false menu_again = (out false menu_again, Ok tt) /\ layout idsty screen false (menu true) = (out false (menu true), Ok tt)
  /\ n_box (kid 0 menu_again) = None /\ n_box (kid 0 (menu true)) = Some box0.
Proof.
  split; [apply C122_example|]. split; [apply history_new; solve_new|]. split; [apply C122_example|]. split; [apply C122_example|].
  split; [apply ok_layout; vm_compute; reflexivity|]. split; [apply C122_example|reflexivity].
Qed.
