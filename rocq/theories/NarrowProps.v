(** * C159: larger sides and smaller widths never make anything wider *)
From Coq Require Import ZArith QArith Qcanon Qround Lia Lqa Bool List.
From Verif Require Import PyNum NumFacts Units UnitsSpec BoxModel BoxSpec BoxFacts Engine EnginePure EngineSpec EngineExamples
  RefLayout RefFacts RefProps HistSpec HistProps MoveSpec MoveProps EdgeSpec EdgeProps LocalProps PushSpec PushProps SymProps MonoSpec MonoProps AxisProps NarrowSpec.
Import ListNotations.
Open Scope Qc_scope.

Lemma grid_le a b : a <= b -> to_grid a <= to_grid b.
Proof.
  intros L. unfold to_grid. assert (X : (round_half_even (this (Z2Qc 64 * a)) <= round_half_even (this (Z2Qc 64 * b)))%Z).
  { apply rhe_mono. rewrite !this_mul, this_Z2Qc. unfold Qcle in L. change (inject_Z 64) with (64 # 1)%Q. lra. }
  unfold Qcle. rewrite !this_qfrac. unfold Qle. cbn [Qnum Qden]. nia.
Qed.
Lemma maxi_ge_l a b : a <= qc_maxi a b.
Proof. unfold qc_maxi. destruct (qc_ltb_spec a b) as [H|H]; [apply Qclt_le_weak, H|apply Qcle_refl]. Qed.

Section N.
Context {S : Type} (sty : S -> style) (d : display_t).
Notation node := (node S).
Lemma ge_len W W' u v : W' <= W -> len_ge d u v -> len d W' v <= len d W u.
Proof.
  intros L [H|(P & P' & E & N)]; [apply le_len, H|]. rewrite !len_percent by assumption. unfold percent. rewrite E. apply grid_le.
  assert (M : amount (u_val u) * W' <= amount (u_val u) * W) by (rewrite !(Qcmult_comm (amount (u_val u))); apply Qcmult_le_compat_r; assumption).
  unfold Qcdiv. apply Qcmult_le_compat_r; [exact M|discriminate].
Qed.
Lemma ge_limited W W' s t u v : W' <= W -> narrows d s t -> len_ge d u v -> limited_width d W' t v <= limited_width d W s u.
Proof.
  intros L (_ & _ & _ & Mx & Mn & _) E. unfold limited_width. pose proof (ge_len W W' u v L E) as X.
  assert (Y : match st_max_width t with Some m => qc_min (len d W' v) (len d W' m) | None => len d W' v end
    <= match st_max_width s with Some m => qc_min (len d W u) (len d W m) | None => len d W u end).
  { destruct (st_max_width s), (st_max_width t); cbn in Mx; try contradiction; [apply min_le; [exact X|apply ge_len; assumption]|eapply Qcle_trans; [apply min_le_l|exact X]|exact X]. }
  destruct (st_min_width s), (st_min_width t); cbn in Mn; try contradiction; [exact Y|eapply Qcle_trans; [exact Y|apply maxi_ge_l]|]. apply maxi_le; [exact Y|apply ge_len; assumption].
Qed.
Lemma ge_hedges H H' s t : narrows d s t -> hedges d H s <= hedges d H' t.
Proof.
  intros (_ & _ & _ & _ & _ & _ & _ & P1 & P2 & B1 & B2). unfold hedges. pose proof (le_len d H H' _ _ P1). pose proof (le_len d H H' _ _ P2). pose proof (le_border d H H' _ _ B1). pose proof (le_border d H H' _ _ B2). qclra.
Qed.
Definition width_of (a : area) (dk : display_k) (s : style) (i : size) : option Qc := fst (fst (wmargins d a dk s i)).
Lemma ge_width a a' dk s t i j : or0 (a_w a') <= or0 (a_w a) -> narrows d s t -> size_narrows i j ->
  or0 (width_of a' dk t j) <= or0 (width_of a dk s i) /\ (width_of a dk s i = None <-> width_of a' dk t j = None).
Proof.
  intros L N (R & Eh & Er & Ew). pose proof (ge_hedges (or0 (a_h a)) (or0 (a_h a')) s t N) as He. pose proof N as (_ & Ah & Wd & _ & _ & Ml & Mr & _).
  pose proof (le_len0 d (or0 (a_w a)) (or0 (a_w a')) _ _ Ml) as Hl. pose proof (le_len0 d (or0 (a_w a)) (or0 (a_w a')) _ _ Mr) as Hr.
  unfold width_of, wmargins. rewrite <- R. destruct (isinl dk).
  - cbn [fst]. destruct (s_replaced i).
    + split; [|split; discriminate]. cbn [or0]. unfold image_width. rewrite <- Eh, <- Er. destruct (st_width s), (st_width t); cbn in Wd; try contradiction; [|apply ge_len; assumption].
      destruct (s_width i), (s_width j); try contradiction; [exact Ew|]. destruct (st_height s) as [|u], (st_height t) as [|v].
      * destruct (s_height i), (s_ratio i); try apply Qcle_refl. clear -L He Hl Hr. qclra.
      * exfalso. destruct Ah as [Ah _]. discriminate (Ah eq_refl).
      * exfalso. destruct Ah as [_ Ah]. discriminate (Ah eq_refl).
      * apply Qcle_refl.
    + destruct (s_width i), (s_width j); try contradiction; cbn [option_map or0]; [|split; [apply Qcle_refl|tauto]]. split; [exact Ew|split; discriminate].
  - assert (G : fst (fst (widths d (or0 (a_w a')) (hedges d (or0 (a_h a')) t) t)) <= fst (fst (widths d (or0 (a_w a)) (hedges d (or0 (a_h a)) s) s))).
    { unfold widths. destruct (st_width s) as [|u], (st_width t) as [|v]; cbn in Wd; try contradiction; [cbn [fst]; clear -L He Hl Hr; qclra|].
      pose proof (ge_limited _ _ s t u v L N Wd) as X. set (x := limited_width d (or0 (a_w a)) s u) in *. set (x' := limited_width d (or0 (a_w a')) t v) in *. clearbody x x'.
      repeat match goal with |- context [if ?c then _ else _] => destruct c | |- context [match st_direction ?c with _ => _ end] => destruct (st_direction c) | |- context [match st_margin_left ?c with _ => _ end] => destruct (st_margin_left c) | |- context [match st_margin_right ?c with _ => _ end] => destruct (st_margin_right c) end; exact X. }
    destruct (widths d (or0 (a_w a')) _ t) as [[x1 y1] z1], (widths d (or0 (a_w a)) _ s) as [[x2 y2] z2]. cbn [fst or0] in *. split; [exact G|split; discriminate].
Qed.
Lemma wider_stack l l' : Forall2 none_wider l l' -> forall top prev top' prev', Forall2 none_wider (stack top prev l) (stack top' prev' l').
Proof.
  induction 1 as [|x y l l' H _ IH]; intros top prev top' prev'; [constructor|]. inversion H as [u v us vs H1 H2 H3| |]; subst; cbn [stack]; constructor; try apply IH; try constructor; try exact H3; destruct u, v; assumption.
Qed.
Lemma narrows_block (n m : node) : doc_narrows d sty n m -> block_level (sty (n_style m)) = block_level (sty (n_style n)).
Proof. intros H. inversion H as [s s' i i' b b' ks ks' Z]; subst. cbn [n_style]. unfold block_level. rewrite (proj1 Z). reflexivity. Qed.
Lemma format_narrow (n : node) : forall m, doc_narrows d sty n m -> forall a a', or0 (a_w a') <= or0 (a_w a) -> none_wider (format sty d a n) (format sty d a' m).
Proof.
  induction n as [s i b ks IH] using node_ind'. intros m Zm a a' Za. inversion Zm as [s1 s' i1 i' b1 b' ks1 ks' Z Zs Zk]; subst. rewrite !format_split. rewrite <- (proj1 Z).
  destruct (st_display (sty s)) as [dk|]; [|constructor].
  assert (St : stacks_ sty dk ks' = stacks_ sty dk ks).
  { unfold stacks_. destruct dk; try reflexivity; clear -Zk; (induction Zk as [|x y l l' Hx _ IH']; [reflexivity|]; cbn [existsb]; rewrite (narrows_block _ _ Hx), IH'; reflexivity). }
  rewrite St. set (st := stacks_ sty dk ks). destruct (ge_width a a' dk _ _ i i' Za Z Zs) as [G1 G2]. set (inner := inner_of d a dk (sty s) i). set (inner' := inner_of d a' dk (sty s') i').
  assert (Fk : Forall2 none_wider (map (MoveProps.laid_kid sty d inner st) ks) (map (MoveProps.laid_kid sty d inner' st) ks')).
  { assert (Gi : or0 (a_w inner') <= or0 (a_w inner)) by exact G1. clearbody st inner inner'. clear -IH Zk Gi. induction Zk as [|x y l l' Hx Hl IHl]; [constructor|]. cbn [map]. constructor; [|apply IHl; intros z Iz; apply IH; right; exact Iz].
    unfold MoveProps.laid_kid. rewrite (narrows_block _ _ Hx). destruct (_ && _); [constructor|]. apply IH; [left; reflexivity|assumption..]. }
  assert (Fs : Forall2 none_wider (kids_of sty d inner st ks) (kids_of sty d inner' st ks')) by (unfold kids_of; destruct st; [apply wider_stack, Fk|exact Fk]).
  unfold node_of. cbv zeta. constructor; cbn [u_w]; [exact G1|exact G2|exact Fs].
Qed.
(** C159. *)
Theorem C159_nothing_wider : forall h5 (n m n' m' : node), history sty n -> history sty m -> doc_narrows d sty n m ->
  layout sty d h5 n = (n', Ok tt) -> layout sty d h5 m = (m', Ok tt) ->
  exists t t', shows n' t /\ shows m' t' /\ none_wider t t'.
Proof.
  intros h5 n m n' m' Hn Hm Z Ln Lm. exists (page sty d h5 n), (page sty d h5 m). split; [apply (C122_any_history sty); assumption|]. split; [apply (C122_any_history sty); assumption|].
  unfold page. set (a := mkArea _ _ _ _ _). pose proof (format_narrow n m Z a a (Qcle_refl _)) as F. destruct F as [u v us vs H1 H2 H3| |]; [|constructor..]. destruct u, v. constructor; assumption.
Qed.
End N.
Print Assumptions C159_nothing_wider.

(** ** Examples *)
Open Scope Z_scope.
(** More margin and padding, a smaller percentage box around, a new largest
    width; heights and vertical margins differ as well. *)
Definition wdoc_n (v : Z) (mx : option unit_) : doc :=
  el (s_padding (pxu 1) (pxu v) (pxu 2) (pxu 7) (s_margin (Len (pxu v)) (Len (pxu 5)) (Len (pxu 6)) (Len (pxu v)) block_style))
    [el (s_size (Len (pctu 50)) (Len (pxu v)) (s_margin (Len (pxu 9)) Auto Auto Auto block_style)) [];
     el (s_limits (Len (pxu 30)) Auto mx None (s_size (Len (pctu 80)) (Len (pxu 40)) (s_margin Auto (Len (pxu v)) Auto (Len (pxu v)) block_style))) [];
     el (s_margin Auto (Len (pxu v)) Auto (Len (pxu (2 * v))) block_style) []].
Ltac nar_len := match goal with |- _ \/ _ => first [left; split; [reflexivity|split; [reflexivity|vm_compute; discriminate]] | right; split; [reflexivity|split; [reflexivity|split; [reflexivity|vm_compute; discriminate]]]] end.
Ltac nar_px := repeat match goal with |- _ /\ _ => split | |- _ <-> _ => split; intros; first [reflexivity|discriminate|assumption] | |- match _ with _ => _ end => hnf end; try reflexivity; try (apply Qcle_refl); try exact I; try nar_len; try (vm_compute; discriminate).
Ltac nar_doc := unfold wdoc_n, el; repeat match goal with |- Forall2 _ (_ :: _) _ => constructor | |- Forall2 _ [] _ => constructor | |- doc_narrows _ _ _ _ => apply doc_narrows_node end;
  unfold narrows, size_narrows, width_ge, max_ge, min_ge, auto0_le, len_le, border_le; nar_px.
Example C159_example : history idsty (wdoc_n 10 None) /\ history idsty (wdoc_n 20 (Some (pxu 400)))
  /\ doc_narrows screen idsty (wdoc_n 10 None) (wdoc_n 20 (Some (pxu 400)))
  /\ layout idsty screen false (wdoc_n 10 None) = (out false (wdoc_n 10 None), Ok tt)
  /\ layout idsty screen false (wdoc_n 20 (Some (pxu 400))) = (out false (wdoc_n 20 (Some (pxu 400))), Ok tt)
  /\ widths_of (out false (wdoc_n 10 None)) = [Some 484; Some (24781 # 32); Some 938]%Q
  /\ widths_of (out false (wdoc_n 20 (Some (pxu 400)))) = [Some 474; Some 400; Some 888]%Q.
Proof.
  split; [apply history_new; solve_new|]. split; [apply history_new; solve_new|]. split; [nar_doc|].
  split; [apply ok_layout; vm_compute; reflexivity|]. split; [apply ok_layout; vm_compute; reflexivity|]. vm_compute. split; reflexivity.
Qed.
