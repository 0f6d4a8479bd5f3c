(** * C206: where intrinsic sizes matter *)
From Coq Require Import ZArith QArith Qcanon Qround Lia Lqa Bool List.
From Verif Require Import PyNum NumFacts Units BoxModel BoxSpec BoxFacts Engine EngineSpec EngineExamples
  RefLayout RefFacts RefProps OkSpec OkFacts HistSpec HistProps MoveSpec MoveProps LocalProps PushSpec PushProps PixelSpec OkProps SymProps PinSpec DrawnSpec IntrSpec.
Import ListNotations.
Open Scope Qc_scope.

Lemma used_wmargins d a dk s i j : st_display s = Some dk -> same_where_used s i j -> wmargins d a dk s j = wmargins d a dk s i.
Proof.
  intros D (R & T & W & H). unfold wmargins. rewrite R. destruct (isinl dk) eqn:I; [|reflexivity]. assert (Dk : st_display s = Some DInline) by (destruct dk; try discriminate; exact D).
  destruct (s_replaced i); [|destruct (T Dk eq_refl) as [-> _]; reflexivity]. unfold image_width. destruct (st_width s); [|reflexivity]. rewrite (W Dk eq_refl eq_refl). destruct (s_width i); [reflexivity|]. destruct (st_height s); [|reflexivity].
  destruct (H Dk eq_refl eq_refl) as [-> ->]. reflexivity.
Qed.
Lemma used_hgt d a dk s i j l : st_display s = Some dk -> same_where_used s i j -> hgt d a dk s j l = hgt d a dk s i l.
Proof.
  intros D U. unfold hgt. rewrite (used_wmargins _ _ _ _ _ _ D U). destruct U as (R & T & W & H). rewrite R. destruct (isinl dk) eqn:I; [|reflexivity]. assert (Dk : st_display s = Some DInline) by (destruct dk; try discriminate; exact D).
  destruct (s_replaced i); [|destruct (T Dk eq_refl) as [_ ->]; reflexivity]. unfold image_height. destruct (st_height s); [|reflexivity]. destruct (H Dk eq_refl eq_refl) as [-> ->]. reflexivity.
Qed.
Section T.
Context {S : Type} (sty : S -> style).
Notation node := (node S).
Lemma intr_style (n m : node) : same_intrinsics sty n m -> n_style m = n_style n.
Proof. intros []; reflexivity. Qed.
Lemma format_intr d (n : node) : forall m a, same_intrinsics sty n m -> format sty d a m = format sty d a n.
Proof.
  induction n as [s i b ks IH] using node_ind'. intros m a H. inversion H as [? ? j ? b' ? ks' U F]; subst. rewrite !format_split. destruct (st_display (sty s)) as [dk|] eqn:D; [|reflexivity].
  assert (St : stacks_ sty dk ks' = stacks_ sty dk ks).
  { unfold stacks_. assert (E : existsb (fun k => block_level (sty (n_style k))) ks' = existsb (fun k => block_level (sty (n_style k))) ks); [|destruct dk; try reflexivity; exact E].
    clear -F. induction F as [|k k' l l' H F IHl]; [reflexivity|]. cbn [existsb]. rewrite IHl, (intr_style _ _ H). reflexivity. }
  rewrite St. set (st := stacks_ sty dk ks).
  assert (In : inner_of d a dk (sty s) j = inner_of d a dk (sty s) i) by (unfold inner_of, lefts; rewrite (used_wmargins _ _ _ _ _ _ D U), !(used_hgt _ _ _ _ _ _ _ D U), (proj1 U); reflexivity).
  rewrite In. set (inner := inner_of d a dk (sty s) i).
  assert (Ks : kids_of sty d inner st ks' = kids_of sty d inner st ks).
  { assert (E : map (MoveProps.laid_kid sty d inner st) ks' = map (MoveProps.laid_kid sty d inner st) ks); [|unfold kids_of; rewrite E; reflexivity].
    clearbody st inner. clear -IH F. induction F as [|k k' l l' H F IHl]; [reflexivity|]. cbn [map]. rewrite IHl by (intros; apply IH; [right|]; assumption). f_equal. unfold MoveProps.laid_kid. rewrite (intr_style _ _ H). destruct (st && _); [reflexivity|]. apply IH; [left; reflexivity|exact H]. }
  rewrite Ks. unfold node_of, lefts, bottoms. cbv zeta. rewrite (used_wmargins _ _ _ _ _ _ D U), !(used_hgt _ _ _ _ _ _ _ D U), (proj1 U). reflexivity.
Qed.
(** C206.  Documents with the same declarations whose intrinsic sizes agree where they are used have the same boxes. *)
Theorem C206_where_used d h5 (n m n' m' : node) : history sty n -> history sty m -> same_intrinsics sty n m ->
  layout sty d h5 n = (n', Ok tt) -> layout sty d h5 m = (m', Ok tt) -> exists t, shows n' t /\ shows m' t.
Proof.
  intros Hn Hm H Ln Lm. exists (page sty d h5 n). split; [apply (C122_any_history sty); assumption|].
  assert (E : page sty d h5 m = page sty d h5 n) by (rewrite !page_draft; unfold draft; rewrite (format_intr d n m _ H); reflexivity). rewrite <- E. apply (C122_any_history sty); assumption.
Qed.
Lemma intr_fit s i j : same_where_used s i j -> fit_pair s i s j.
Proof.
  intros (R & T & W & H). split; [reflexivity|]. split; [unfold kind_of; rewrite R; reflexivity|]. split; [reflexivity|]. split; [destruct (own_height s); cbn; [intros k; reflexivity|exact I]|].
  intros kd _ K. assert (D : match kd with Word => st_display s = Some DInline /\ s_replaced i = false | Image => st_display s = Some DInline /\ s_replaced i = true | Block => True end).
  { unfold kind_of in K. destruct (st_float s); [discriminate|]. destruct (st_position s); try discriminate; destruct (st_display s) as [[]|]; try discriminate; destruct (s_replaced i); try discriminate; injection K as <-; auto. }
  split; [destruct kd; try reflexivity; cbn; destruct (T (proj1 D) (proj2 D)) as [-> _]; reflexivity|]. split; [destruct kd; try reflexivity; cbn; destruct (T (proj1 D) (proj2 D)) as [_ ->]; reflexivity|].
  intros a a' (Fw & Fh & Fd & Fs). split; [unfold edges_ok; rewrite Fw, Fh; reflexivity|]. split; [|split; [|intros _; rewrite Fw, Fh; unfold offsets_ok; rewrite Fd; split; reflexivity]].
  - unfold width_ok. rewrite Fw. destruct kd; try reflexivity. destruct D as [D1 D2]. destruct (st_width s); [|reflexivity]. destruct (st_height s); [|reflexivity]. rewrite (W D1 D2 eq_refl). destruct (H D1 D2 eq_refl) as [-> ->]. reflexivity.
  - intros last. unfold height_ok. rewrite Fh. destruct kd, (st_height s); try reflexivity. destruct (spec_h a), (spec_h a'); cbn in Fs; try contradiction; rewrite ?Fs; reflexivity.
Qed.
(** Whether they can be laid out at all is the same. *)
Theorem C206_succeeds d d' h5 h5' (n m : node) : boxed n -> boxed m -> history sty n -> history sty m -> same_intrinsics sty n m ->
  ((exists n', layout sty d h5 n = (n', Ok tt)) <-> (exists m', layout sty d' h5' m = (m', Ok tt))).
Proof.
  intros Bn Bm Hn Hm Z. rewrite (C123_exactly_when sty d h5 n Hn), (C123_exactly_when sty d' h5' m Hm).
  rewrite (can_lay_out_fit sty (same_intrinsics sty) ltac:(intros x y [s i j b b' ks ks' U F]; split; [apply intr_fit; exact U|exact F]) n m Z Bn Bm). reflexivity.
Qed.
End T.
Print Assumptions C206_where_used.
Print Assumptions C206_succeeds.

(** ** Example *)
Open Scope Z_scope.
Definition inline_style : style := DrawnSpec.with_display (Some DInline) block_style.
(** A block with a size, a word that changes nothing but its exactness, and an image with a declared width: its own width does not matter. *)
Definition idoc (block img : option num) (exact : bool) : doc :=
  el block_style
    [Node (vmargin 3 4 block_style) (mkSize block block exact exact None false) (Some box0)
       [Node inline_style (mkSize (Some (NI 30)) (Some (NI 12)) exact exact block false) (Some box0) [];
        Node (PinSpec.with_size (Len (pxu 50)) Auto inline_style) (mkSize img (Some (NI 20)) exact exact (Some (NI 2)) true) (Some box0) []];
     el (hpx 20 block_style) []].
Definition idoc1 := idoc None (Some (NI 40)) true.
Definition idoc2 := idoc (Some (NI 7)) None false.
Example C206_example : boxed idoc1 /\ boxed idoc2 /\ history idsty idoc1 /\ history idsty idoc2
  /\ layout idsty screen false idoc1 = (out false idoc1, Ok tt) /\ layout idsty screen false idoc2 = (out false idoc2, Ok tt) /\ same_intrinsics idsty idoc1 idoc2.
Proof.
  split; [solve_boxed|]. split; [solve_boxed|]. do 2 (split; [apply history_new; solve_new|]). do 2 (split; [apply ok_layout; vm_compute; reflexivity|]).
  unfold idoc1, idoc2, idoc, el. repeat match goal with |- Forall2 _ _ _ => constructor | |- same_intrinsics _ _ _ => apply same_intrinsics_node end; repeat split; intros; try discriminate; reflexivity.
Qed.
