(** * C195: a display with more dots per inch *)
From Coq Require Import ZArith QArith Qcanon Qround Lia Lqa Bool String List.
From Verif Require Import PyNum NumFacts Units UnitsSpec BoxModel BoxSpec BoxFacts Engine EnginePure EngineSpec EngineFSpec EngineTree EngineExamples
  RefLayout RefFacts RefProps HistSpec HistProps OkSpec OkProps MoveSpec MoveProps LocalProps PushSpec PushProps SymSpec SymProps FinerSpec.
Import ListNotations.
Open Scope Qc_scope.

Section T.
Context {S : Type} (sty : S -> style) (k : Qc) (Hk : 0 < k) (d d' : display_t) (Fd : finer k d d').
Notation node := (node S).
Lemma dots_len u : in_any_dots u -> exact_len d' 0 u = k * exact_len d 0 u.
Proof.
  destruct Fd as (Ed & Ew & Eh & _). unfold in_any_dots, exact_len. destruct (u_kind u) as [|x|x y|x y| |x y]; intros H.
  - rewrite H. ring.
  - rewrite Ed. unfold Qcdiv. ring.
  - rewrite Ed. unfold Qcdiv. ring.
  - rewrite Ew, Eh, (z_maxi k Hk), (z_min k Hk). destruct y; unfold Qcdiv; ring.
  - contradiction.
  - ring.
Qed.
Lemma all_auto v : Forall (fun u => zoomed_len k d d' u u) (of_lenauto v) -> zoomed_auto k d d' v v.
Proof. destruct v; cbn; [intros _; exact I|]. intros H. inversion H; assumption. Qed.
Lemma all_option v : Forall (fun u => zoomed_len k d d' u u) (of_option v) -> zoomed_opt k d d' v v.
Proof. destruct v; cbn; [|intros _; exact I]. intros H. inversion H; assumption. Qed.
Lemma all_border v : Forall (fun u => zoomed_len k d d' u u) (of_border v) -> zoomed_border k d d' v v.
Proof. destruct v; cbn; [intros _; reflexivity|]. intros H. inversion H; assumption. Qed.
Lemma all_offset v : Forall (fun u => zoomed_len k d d' u u) (of_offset v) -> zoomed_offset k d d' v v.
Proof. destruct v; cbn; try (intros _; exact I). intros H. inversion H; assumption. Qed.
Lemma again_style s : (forall u, In u (lengths_of s) -> in_any_dots u) -> exact_on d s -> exact_on d' s -> zoomed_style k d d' s s.
Proof.
  intros A (B & Bt & Bb) (C & Ct & Cb). assert (F : Forall (fun u => zoomed_len k d d' u u) (lengths_of s)).
  { apply Forall_forall. intros u Hu. specialize (A u Hu). assert (N : u_kind u <> KPct) by (intros E; unfold in_any_dots in A; rewrite E in A; exact A).
    split; [exact N|]. split; [exact N|]. split; [apply B, Hu|]. split; [apply C, Hu|]. split; [apply dots_len, A|reflexivity]. }
  clear A B C. unfold lengths_of in F. rewrite !Forall_app in F. destruct F as ((W & H & Mw & Mh) & (Xw & Xh) & (M1 & M2 & M3 & M4) & P & (B1 & B2 & B3 & B4) & O1 & O2 & O3 & O4).
  inversion P as [|? ? P1 P']; subst. inversion P' as [|? ? P2 P'']; subst. inversion P'' as [|? ? P3 P3']; subst. inversion P3' as [|? ? P4 _]; subst. clear P P' P'' P3'.
  unfold zoomed_style. do 3 (split; [reflexivity|]). repeat match goal with |- _ /\ _ => split end; auto using all_auto, all_option, all_border, all_offset.
Qed.
Lemma again_zoomed (n : node) : forall m, again k d d' sty n m -> zoomed k d d' sty n m.
Proof.
  induction n as [s i b ks IH] using node_ind'. intros m H. inversion H as [s0 i0 i' b0 b' ks0 ks' A E E' Nc Zs F]; subst. constructor; [apply again_style; assumption|assumption..|].
  clear -IH F. induction F as [|x y l l' Hx _ IHl]; constructor; [apply IH; [left; reflexivity|exact Hx]|]. apply IHl. intros z Hz. apply IH. right. exact Hz.
Qed.
End T.

Section U.
Context {S : Type} (sty : S -> style).
Notation node := (node S).
(** C195. *)
Theorem C195_finer : forall k d d' h5 (n m n' m' : node), 0 < k -> finer k d d' -> again k d d' sty n m -> history sty n -> history sty m ->
  layout sty d h5 n = (n', Ok tt) -> layout sty d' h5 m = (m', Ok tt) ->
  exists t t', RefLayout.shows n' t /\ RefLayout.shows m' t' /\ zoomed_tree k t t'.
Proof.
  intros k d d' h5 n m n' m' Hk Fd A Hn Hm Ln Lm. apply (C144_zoom sty k d d' h5 n m); try assumption; [apply Fd|]. apply (again_zoomed sty k Hk d d' Fd), A.
Qed.
Theorem C195_succeeds : forall k d d' h5 h5' (n m : node), 0 < k -> finer k d d' -> again k d d' sty n m -> boxed n -> boxed m -> history sty n -> history sty m ->
  ((exists n', layout sty d h5 n = (n', Ok tt)) <-> (exists m', layout sty d' h5' m = (m', Ok tt))).
Proof. intros k d d' h5 h5' n m Hk Fd A Bn Bm Hn Hm. apply (C144_succeeds sty k d d'); try assumption. apply (again_zoomed sty k Hk d d' Fd), A. Qed.
End U.
Print Assumptions C195_finer.
Print Assumptions C195_succeeds.

(** ** Example: the same page with 96 and with 192 dots per inch *)
Open Scope Z_scope.
Definition inch_96 := mkDisp (NI 96) (NI 960) (NI 480) (fun k => match k with Thin => NI 1 | Medium => NI 3 | Thick => NI 5 end).
Definition inch_192 := mkDisp (NI 192) (NI 1920) (NI 960) (fun k => match k with Thin => NI 2 | Medium => NI 6 | Thick => NI 10 end).
Definition ptu (z : Z) : unit_ := mkU (KAbs "pt" (Z2Qc 1)) (PI z).
Definition pcu (z : Z) : unit_ := mkU (KAbs "pc" (Z2Qc 12)) (PI z).
Definition inu (z : Z) : unit_ := mkU (KAbs "in" (Z2Qc 72)) (PI z).
Definition vwu (z : Z) : unit_ := mkU (KVp "vw" ScaleVw) (PI z).
Definition idoc : doc :=
  el (s_margin (Len (ptu 6)) (Len (pcu 1)) (Len (ptu 3)) (Len (pcu 2)) block_style)
    [el (s_size (Len (vwu 50)) (Len (inu 1)) (s_margin (Len (ptu 9)) Auto (Len (ptu 12)) (Len (ptu 3)) (s_padding (ptu 3) (pcu 1) zero_px (emu (-3)) block_style))) [];
     el (s_border (BKw Thin) (BLen (ptu 3)) (BKw Thick) (BLen (ptu 3)) (s_offsets (OLen (ptu 3)) OAuto OAuto (OLen (inu 1)) (s_position PRelative block_style)))
       [el (s_size Auto (Len (vwu 5)) (s_margin (Len (ptu 15)) (Len (ptu 3)) Auto (Len zero_px) block_style)) []]].
Definition exactly (d : display_t) (s : style) : bool :=
  forallb (fun u => qc_eqb (exact_len d 0 u) (qfrac (round_half_even (this (Z2Qc 64 * exact_len d 0 u)%Qc)) 64)) (lengths_of s)
  && forallb (fun v => match v with Auto => true | Len u => qc_eqb (exact_len d 0 u) (Z2Qc (Qfloor (this (exact_len d 0 u)))) end) [st_margin_top s; st_margin_bottom s].
Lemma exactly_on d s : exactly d s = true -> exact_on d s.
Proof.
  unfold exactly. rewrite andb_true_iff, !forallb_forall. intros [A B]. assert (C : forall v, In v [st_margin_top s; st_margin_bottom s] -> whole_amount d v).
  { intros [|u] Hv; [exact I|]. specialize (B _ Hv). cbn beta iota in B. destruct (qc_eqb_spec (exact_len d 0 u) (Z2Qc (Qfloor (this (exact_len d 0 u))))) as [E|]; [|discriminate]. eexists. exact E. }
  split; [|split; apply C; [left|right; left]; reflexivity]. intros u Hu. specialize (A u Hu). cbn beta in A.
  destruct (qc_eqb_spec (exact_len d 0 u) (qfrac (round_half_even (this (Z2Qc 64 * exact_len d 0 u)%Qc)) 64)) as [E|]; [|discriminate]. eexists. exact E.
Qed.
Lemma dots_all s : forallb (fun u => match u_kind u with KPx => qc_eqb (amount (u_val u)) 0 | KPct => false | _ => true end) (lengths_of s) = true -> forall u, In u (lengths_of s) -> in_any_dots u.
Proof.
  rewrite forallb_forall. intros A u Hu. specialize (A u Hu). unfold in_any_dots. cbn beta in A. destruct (u_kind u); try exact I; [|discriminate].
  destruct (qc_eqb_spec (amount (u_val u)) 0); [assumption|discriminate].
Qed.
Ltac again_doc := apply again_node; [apply dots_all; vm_compute; reflexivity|apply exactly_on; vm_compute; reflexivity|apply exactly_on; vm_compute; reflexivity| |zoom_size|].
Example C195_example : (0 < Z2Qc 2)%Qc /\ finer (Z2Qc 2) inch_96 inch_192 /\ again (Z2Qc 2) inch_96 inch_192 idsty idoc idoc /\ boxed idoc /\ history idsty idoc
  /\ exists n' m', layout idsty inch_96 true idoc = (n', Ok tt) /\ layout idsty inch_192 true idoc = (m', Ok tt)
     /\ tops n' = [4; 122]%Q /\ tops m' = [8; 244]%Q /\ lefts_of n' = [8; 100]%Q /\ lefts_of m' = [16; 200]%Q.
Proof.
  split; [reflexivity|]. split.
  { split; [apply Qc_is_canon; reflexivity|]. split; [apply Qc_is_canon; reflexivity|]. split; [apply Qc_is_canon; reflexivity|]. intros []; apply Qc_is_canon; reflexivity. }
  split.
  { unfold idoc, el. again_doc; [left; reflexivity|]. constructor; [|constructor; [|constructor]].
    - again_doc; [right; left; discriminate|constructor].
    - again_doc; [left; reflexivity|]. constructor; [|constructor]. again_doc; [left; reflexivity|constructor]. }
  split; [solve_boxed|]. split; [apply history_new; solve_new|].
  do 2 eexists. split; [vm_compute; reflexivity|]. split; [vm_compute; reflexivity|]. repeat (split; [vm_compute; reflexivity|]). vm_compute. reflexivity.
Qed.
