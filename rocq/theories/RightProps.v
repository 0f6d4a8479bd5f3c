(** * C211: the right side of inline images *)
From Coq Require Import ZArith QArith Qcanon Qround Lia Lqa Bool List.
From Verif Require Import PyNum NumFacts Units BoxModel BoxSpec BoxFacts Engine EngineSpec EngineExamples
  RefLayout RefFacts RefProps OkSpec OkFacts HistSpec HistProps MoveSpec MoveProps LocalProps PushSpec PushProps PixelSpec OkProps SymProps AxisSpec AxisProps DrawnSpec SidesSpec SidesProps RightSpec.
Import ListNotations.
Open Scope Qc_scope.

Lemma br_inv u v : but_right u = but_right v ->
  u_mt u = u_mt v /\ u_ml u = u_ml v /\ u_bt u = u_bt v /\ u_bb u = u_bb v /\ u_bl u = u_bl v /\ u_pt u = u_pt v /\ u_pb u = u_pb v /\ u_pl u = u_pl v /\ u_left u = u_left v /\ u_top u = u_top v /\ u_mb u = u_mb v /\ u_w u = u_w v /\ u_h u = u_h v /\ u_ct u = u_ct v /\ u_cb u = u_cb v.
Proof.
  intros H. unfold but_right in H. repeat split; first [exact (f_equal (fun p => nth 0 (fst (fst p)) 0) H)|exact (f_equal (fun p => nth 1 (fst (fst p)) 0) H)|exact (f_equal (fun p => nth 2 (fst (fst p)) 0) H)|exact (f_equal (fun p => nth 3 (fst (fst p)) 0) H)|exact (f_equal (fun p => nth 4 (fst (fst p)) 0) H)|exact (f_equal (fun p => nth 5 (fst (fst p)) 0) H)|exact (f_equal (fun p => nth 6 (fst (fst p)) 0) H)|exact (f_equal (fun p => nth 7 (fst (fst p)) 0) H)|exact (f_equal (fun p => nth 8 (fst (fst p)) 0) H)|exact (f_equal (fun p => nth 9 (fst (fst p)) 0) H)|exact (f_equal (fun p => nth 0 (snd (fst p)) None) H)|exact (f_equal (fun p => nth 1 (snd (fst p)) None) H)|exact (f_equal (fun p => nth 2 (snd (fst p)) None) H)|exact (f_equal (fun p => nth 0 (snd p) 0%Z) H)|exact (f_equal (fun p => nth 1 (snd p) 0%Z) H)].
Qed.
Lemma br_bb u v : but_right u = but_right v -> border_height v = border_height u /\ border_bottom v = border_bottom u /\ u_cb v = u_cb u /\ u_mt v = u_mt u.
Proof. intros H. apply br_inv in H. destruct H as (E1 & _ & E2 & E3 & _ & E4 & E5 & _ & _ & E7 & _ & _ & E10 & _ & E12). unfold border_height, border_bottom. rewrite E1, E2, E3, E4, E5, E7, E10, E12. repeat split. Qed.
Lemma br_down r u v : but_right u = but_right v -> but_right (move_down r u) = but_right (move_down r v).
Proof.
  intros H. apply br_inv in H. destruct u as [a1 a2 a3 a4 a5 a6 a7 a8 a9 a10 a11 a12 a13 a14 a15 a16 a17 a18], v as [b1 b2 b3 b4 b5 b6 b7 b8 b9 b10 b11 b12 b13 b14 b15 b16 b17 b18]. unfold but_right, move_down. cbn [u_mt u_mr u_mb u_ml u_bt u_br u_bb u_bl u_pt u_pr u_pb u_pl u_w u_h u_left u_top u_ct u_cb] in *.
  destruct H as (E1 & E2 & E3 & E4 & E5 & E6 & E7 & E8 & E9 & E10 & E11 & E12 & E13 & E14 & E15). subst. reflexivity.
Qed.
Lemma br_stack l l' : Forall2 (same_on but_right) l l' -> forall top prev, Forall2 (same_on but_right) (stack top prev l) (stack top prev l').
Proof.
  induction 1 as [|x x' l l' Hx Hl IH]; intros top prev; [constructor|]. destruct Hx as [u v us vs Hu Hs| |]; cbn [stack]; [|constructor; [constructor|apply IH]..].
  destruct (br_bb _ _ Hu) as (E1 & _ & E2 & E3). rewrite E1, E2, E3. constructor; [constructor; [apply br_down, Hu|exact Hs]|apply IH].
Qed.
Lemma no_fill d W r r' s i mr pr br : ~ fills i s -> image_width d W r (with_sides (st_margin_left s) mr (st_padding_left s) pr (st_border_left s) br s) i = image_width d W r' s i.
Proof.
  intros N. unfold image_width. cbn [with_sides st_width st_height]. destruct (st_width s) eqn:Ew, (s_width i) eqn:Wi; try reflexivity. destruct (st_height s) eqn:Eh, (s_height i) eqn:Hi, (s_ratio i) eqn:Ri; try reflexivity.
  exfalso. apply N. unfold fills. rewrite Ri. repeat split; try assumption. discriminate.
Qed.
Section T.
Context {S : Type} (sty : S -> style) (d : display_t).
Notation node := (node S).
Lemma right_block (n m : node) : sides_changed sty other_right n m -> block_level (sty (n_style m)) = block_level (sty (n_style n)).
Proof. intros []. cbn [n_style]. match goal with H : other_right _ _ _ |- _ => destruct H as [->|(_ & _ & _ & mr & pr & br & ->)]; reflexivity end. Qed.
Lemma format_right (n : node) : forall m a, sides_changed sty other_right n m -> same_on but_right (format sty d a n) (format sty d a m).
Proof.
  induction n as [s i b ks IH] using node_ind'. intros m a H. inversion H as [? s' ? ? b' ? ks' U F]; subst. rewrite !format_split.
  assert (Ed : st_display (sty s') = st_display (sty s)) by (destruct U as [->|(_ & _ & _ & mr & pr & br & ->)]; reflexivity). rewrite Ed.
  destruct (st_display (sty s)) as [dk|] eqn:D; [|constructor].
  assert (St : stacks_ sty dk ks' = stacks_ sty dk ks).
  { unfold stacks_. assert (E : existsb (fun k => block_level (sty (n_style k))) ks' = existsb (fun k => block_level (sty (n_style k))) ks); [|destruct dk; try reflexivity; exact E].
    clear -F. induction F as [|k k' l l' H F IHl]; [reflexivity|]. cbn [existsb]. rewrite IHl, (right_block _ _ H). reflexivity. }
  rewrite St. set (st := stacks_ sty dk ks).
  assert (W : fst (fst (wmargins d a dk (sty s') i)) = fst (fst (wmargins d a dk (sty s) i)) /\ lefts d a dk (sty s') i = lefts d a dk (sty s) i /\ snd (fst (wmargins d a dk (sty s') i)) = snd (fst (wmargins d a dk (sty s) i))).
  { destruct U as [->|(Di & R & Nf & mr & pr & br & ->)]; [repeat split; reflexivity|]. rewrite D in Di. injection Di as ->. unfold wmargins, lefts, wmargins. cbn [isinl]. rewrite R. cbn [fst snd andb negb]. split; [|split; reflexivity]. f_equal. apply no_fill. exact Nf. }
  destruct W as (Ew & El & Eml).
  assert (Hg : forall l, hgt d a dk (sty s') i l = hgt d a dk (sty s) i l).
  { intros l. unfold hgt. rewrite Ew. destruct U as [->|(Di & R & Nf & mr & pr & br & ->)]; [reflexivity|]. rewrite D in Di. injection Di as ->. reflexivity. }
  assert (In : inner_of d a dk (sty s') i = inner_of d a dk (sty s) i).
  { unfold inner_of. rewrite Ew, El, Hg. destruct U as [->|(_ & _ & _ & mr & pr & br & ->)]; reflexivity. }
  rewrite In. set (inner := inner_of d a dk (sty s) i).
  assert (Fk : Forall2 (same_on but_right) (map (MoveProps.laid_kid sty d inner st) ks) (map (MoveProps.laid_kid sty d inner st) ks')).
  { clearbody st inner. clear -IH F. induction F as [|k k' l l' H F IHl]; [constructor|]. cbn [map]. constructor; [|apply IHl; intros; apply IH; [right|]; assumption]. unfold MoveProps.laid_kid. rewrite (right_block _ _ H). destruct (st && _); [constructor|]. apply IH; [left; reflexivity|exact H]. }
  assert (Ks : Forall2 (same_on but_right) (kids_of sty d inner st ks) (kids_of sty d inner st ks')) by (unfold kids_of; destruct st; [apply br_stack|]; exact Fk).
  set (kk := kids_of sty d inner st ks) in *. set (kk' := kids_of sty d inner st ks') in *. pose proof (on_last _ _ _ Ks) as L.
  assert (Ek : hgt d a dk (sty s) i (last_kid kk') = hgt d a dk (sty s) i (last_kid kk)).
  { unfold hgt. destruct (isinl dk); [reflexivity|]. f_equal. unfold used_block_height. destruct (spec_height _ _ _ _); [reflexivity|]. destruct L as [[-> ->]|(u & v & -> & -> & L)]; [reflexivity|apply (br_bb _ _ L)]. }
  assert (Fi : (if st then match kk' with UNode u _ :: _ => u_ct u | _ => 0%Z end else 0%Z) = (if st then match kk with UNode u _ :: _ => u_ct u | _ => 0%Z end else 0%Z)).
  { destruct st; [|reflexivity]. destruct Ks as [|x x' r r' Hx _]; [reflexivity|]. destruct Hx as [u v us vs Hu Hs| |]; try reflexivity. apply br_inv in Hu. symmetry. apply Hu. }
  assert (Ecb : forall mb, match st_height (sty s), last_kid kk' with Auto, Some k => if isinl dk then mb else Z.max mb (u_cb k) | _, _ => mb end
                         = match st_height (sty s), last_kid kk with Auto, Some k => if isinl dk then mb else Z.max mb (u_cb k) | _, _ => mb end).
  { intros mb. destruct (st_height (sty s)); [|reflexivity]. destruct L as [[-> ->]|(u & v & -> & -> & L)]; [reflexivity|]. destruct (br_bb _ _ L) as (_ & _ & -> & _). reflexivity. }
  specialize (Ecb (whole_px (or0 (bottoms d a dk (sty s) i)))).
  unfold node_of. cbv zeta. constructor; [|exact Ks]. unfold but_right. cbn [u_mt u_mr u_mb u_ml u_bt u_br u_bb u_bl u_pt u_pr u_pb u_pl u_w u_h u_left u_top u_ct u_cb]. rewrite Hg, Ek, Ew, El, Eml, Fi.
  destruct U as [->|(_ & _ & _ & mr & pr & br & ->)]; [rewrite Ecb; reflexivity|].
  cbn [with_sides st_height st_border_top st_border_bottom st_border_left st_padding_top st_padding_bottom st_padding_left st_left st_right st_top st_bottom st_margin_top].
  change (bottoms d a dk (with_sides (st_margin_left (sty s)) mr (st_padding_left (sty s)) pr (st_border_left (sty s)) br (sty s)) i) with (bottoms d a dk (sty s) i). change (edges d a dk (with_sides (st_margin_left (sty s)) mr (st_padding_left (sty s)) pr (st_border_left (sty s)) br (sty s))) with (edges d a dk (sty s)). change (isrel (with_sides (st_margin_left (sty s)) mr (st_padding_left (sty s)) pr (st_border_left (sty s)) br (sty s))) with (isrel (sty s)). rewrite Ecb. reflexivity.
Qed.
(** C211.  The margin, border and padding on the right of an inline image move nothing unless its width follows from the space that is left: all
    other used values of all boxes are the same. *)
Theorem C211_right h5 (n m n' m' : node) : history sty n -> history sty m -> sides_changed sty other_right n m ->
  layout sty d h5 n = (n', Ok tt) -> layout sty d h5 m = (m', Ok tt) -> exists t t', shows n' t /\ shows m' t' /\ same_on but_right t t'.
Proof.
  intros Hn Hm H Ln Lm. exists (page sty d h5 n), (page sty d h5 m). split; [apply (C122_any_history sty); assumption|]. split; [apply (C122_any_history sty); assumption|].
  rewrite !page_draft. unfold draft. set (a := mkArea (Some (nval (disp_width d))) (Some (nval (disp_height d))) 0 0 None).
  destruct (format_right n m a H) as [u v us vs Hu Hs| |]; cbn [finished]; constructor; [|exact Hs]. apply br_inv in Hu.
  destruct u as [a1 a2 a3 a4 a5 a6 a7 a8 a9 a10 a11 a12 a13 a14 a15 a16 a17 a18], v as [b1 b2 b3 b4 b5 b6 b7 b8 b9 b10 b11 b12 b13 b14 b15 b16 b17 b18].
  unfold but_right, completed. cbn [u_mt u_mr u_mb u_ml u_bt u_br u_bb u_bl u_pt u_pr u_pb u_pl u_w u_h u_left u_top u_ct u_cb] in *.
  destruct Hu as (E1 & E2 & E3 & E4 & E5 & E6 & E7 & E8 & E9 & E10 & E11 & E12 & E13 & E14 & E15). subst. reflexivity.
Qed.
(** Whether they can be laid out at all is the same, if these sides are not percentages. *)
Lemma right_fit s t i : other_plain_right i s t -> fit_pair s i t i.
Proof.
  assert (Same : fit_pair s i s i).
  { split; [reflexivity|]. split; [reflexivity|]. split; [reflexivity|]. split; [destruct (own_height s); cbn; [intros k; reflexivity|exact I]|]. intros kd _ _. split; [reflexivity|]. split; [reflexivity|]. intros a a' (Fw & Fh & Fd & Fs).
    split; [unfold edges_ok; rewrite Fw, Fh; reflexivity|]. split; [unfold width_ok; rewrite Fw; reflexivity|]. split; [|intros _; rewrite Fw, Fh; unfold offsets_ok; rewrite Fd; split; reflexivity].
    intros last. unfold height_ok. rewrite Fh. destruct kd, (st_height s); try reflexivity. destruct (spec_h a), (spec_h a'); cbn in Fs; try contradiction; rewrite ?Fs; reflexivity. }
  intros [->|([->|(D & R & _ & mr & pr & br & ->)] & Ps & Pt)]; [exact Same|exact Same|].
  destruct Same as (_ & _ & _ & S4 & S5). split; [reflexivity|]. split; [reflexivity|]. split; [reflexivity|]. split; [exact S4|]. intros kd Nd K. destruct (S5 kd Nd K) as (W1 & W2 & S6). split; [exact W1|]. split; [exact W2|].
  intros a a' Fit. destruct (S6 a a' Fit) as (_ & Y2 & Y3 & Y4). split; [|split; [exact Y2|split; [exact Y3|exact Y4]]].
  destruct Fit as (Fw & Fh & _ & _). destruct (plain_ok _ Ps (w_known a) (h_known a)) as (A & B & C). destruct (plain_ok _ Pt (w_known a) (h_known a)) as (A' & B' & C').
  unfold edges_ok. rewrite Fw, Fh, A, B, C, A', B', C'. reflexivity.
Qed.
Theorem C211_succeeds h5 h5' (n m : node) : boxed n -> boxed m -> history sty n -> history sty m -> sides_changed sty other_plain_right n m ->
  ((exists n', layout sty d h5 n = (n', Ok tt)) <-> (exists m', layout sty d h5' m = (m', Ok tt))).
Proof.
  intros Bn Bm Hn Hm Z. rewrite (C123_exactly_when sty d h5 n Hn), (C123_exactly_when sty d h5' m Hm).
  rewrite (can_lay_out_fit sty (sides_changed sty other_plain_right) ltac:(intros x y [s s' i b b' ks ks' U F]; split; [apply right_fit; exact U|exact F]) n m Z Bn Bm). reflexivity.
Qed.
End T.
Print Assumptions C211_right.
Print Assumptions C211_succeeds.

(** ** Example *)
Open Scope Z_scope.
Definition image_style : style := DrawnSpec.with_display (Some DInline) block_style.
Definition wide_image : style := with_sides (st_margin_left image_style) (Len (pxu 800)) (st_padding_left image_style) (pxu 10) (st_border_left image_style) (BLen (pxu 3)) image_style.
(** A block with an image and a word after it. *)
Definition image_doc (s : style) : doc :=
  el block_style
    [el (vmargin 3 4 block_style)
       [Node s (mkSize (Some (NI 30)) (Some (NI 12)) true true None true) (Some box0) [];
        Node image_style (mkSize (Some (NI 40)) (Some (NI 13)) true true None false) (Some box0) []];
     el (hpx 20 block_style) []].
Example C211_example : boxed (image_doc image_style) /\ boxed (image_doc wide_image) /\ history idsty (image_doc image_style) /\ history idsty (image_doc wide_image) /\ sides_changed idsty other_right (image_doc image_style) (image_doc wide_image) /\ sides_changed idsty other_plain_right (image_doc image_style) (image_doc wide_image)
  /\ layout idsty screen false (image_doc image_style) = (out false (image_doc image_style), Ok tt) /\ layout idsty screen false (image_doc wide_image) = (out false (image_doc wide_image), Ok tt).
Proof.
  split; [solve_boxed|]. split; [solve_boxed|]. do 2 (split; [apply history_new; solve_new|]).
  assert (O : other_right (mkSize (Some (NI 30)) (Some (NI 12)) true true None true) image_style wide_image).
  { right. split; [reflexivity|]. split; [reflexivity|]. split; [intros (_ & _ & X & _); discriminate X|]. do 3 eexists. reflexivity. }
  split; [|split; [|split; apply ok_layout; vm_compute; reflexivity]]; unfold image_doc, el; repeat match goal with |- Forall2 _ _ _ => constructor | |- sides_changed _ _ _ _ => apply sides_changed_node end; try (left; reflexivity).
  - exact O.
  - right. split; [exact O|split; reflexivity].
Qed.
