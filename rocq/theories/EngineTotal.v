(** * Layout of supported documents cannot fail *)
From Coq Require Import ZArith QArith Qcanon Lqa Lia Bool List.
From Verif Require Import PyNum NumFacts Units BoxModel BoxSpec BoxFacts Engine EnginePure EngineFacts EngineSpec EngineTree EngineWidth EngineInv.
Import ListNotations.
Open Scope Z_scope.

Definition isnum (v : lval) : Prop := exists x, v = LNum x.
Lemma isnum_num x : isnum (LNum x). Proof. exists x. reflexivity. Qed.
Lemma lset_isnum x old : isnum (lset (LNum x) old).
Proof. destruct (lset_num x old) as (m & -> & _). apply isnum_num. Qed.

Definition wp {A} (m : BM A) (Q : A -> box -> Prop) (b : box) : Prop :=
  exists b' a, run m b = Ok (b', a) /\ Q a b'.
Lemma wp_ret {A} (a : A) (Q : A -> box -> Prop) b : Q a b -> wp (bret a) Q b.
Proof. intros H. exists b, a. auto. Qed.
Lemma wp_bind {A B} (m : BM A) (f : A -> BM B) (Q : B -> box -> Prop) b :
  wp m (fun a => wp (f a) Q) b -> wp (bbind m f) Q b.
Proof.
  intros (b1 & a & E & b2 & c & E2 & H). exists b2, c. split; [|exact H]. rewrite run_bind, E. exact E2.
Qed.
Lemma wp_lift {A} (r : res A) (Q : A -> box -> Prop) b a : r = Ok a -> Q a b -> wp (blift r) Q b.
Proof. intros -> H. exists b, a. auto. Qed.
Lemma wp_mod f (Q : unit -> box -> Prop) b : Q tt (f b) -> wp (bmod f) Q b.
Proof. intros H. exists (f b), tt. auto. Qed.
Lemma wp_get {A} (f : box -> A) (Q : A -> box -> Prop) b : Q (f b) b -> wp (bget f) Q b.
Proof. intros H. exists b, (f b). auto. Qed.
Lemma wp_num f (Q : num -> box -> Prop) b x : f b = LNum x -> Q x b -> wp (bnum f) Q b.
Proof. intros E H. exists b, x. split; [|exact H]. unfold run, bnum. rewrite E. reflexivity. Qed.
Lemma wp_mono {A} (m : BM A) (Q Q' : A -> box -> Prop) b : wp m Q b -> (forall a b', Q a b' -> Q' a b') -> wp m Q' b.
Proof. intros (b' & a & E & H) M. exists b', a. auto. Qed.

(** ** Lengths *)
Definition numctx (c : ctx) : Prop := isnum (c_size c).
Lemma conv_px c u : numctx c -> convertible u -> exists p, px c u = Ok p.
Proof. destruct c as [d f sz]. intros [x E] H. cbn in E. subst sz. apply H. Qed.
Lemma conv_calc_len c u : numctx c -> convertible u -> exists p, calc_len c u = Ok p.
Proof. rewrite calc_len_px. apply conv_px. Qed.
Definition notnone (v : lval) : Prop := v = LAuto \/ isnum v.
Lemma conv_margin c v : numctx c -> conv_lenauto v -> exists m, calc_margin c v = Ok m /\ notnone m.
Proof.
  intros N H. destruct v as [|u]; cbn [calc_margin]; [exists LAuto; split; [reflexivity|left; reflexivity]|].
  destruct (conv_calc_len c u N (H u eq_refl)) as (p & ->). cbn. exists (LNum p). split; [reflexivity|right; apply isnum_num].
Qed.
Lemma conv_border c v : numctx c -> conv_bwidth v -> exists p, calc_border c v = Ok p.
Proof. intros N H. destruct v as [k|u]; cbn [calc_border]; [eauto|]. apply conv_calc_len; auto. Qed.
Lemma lset_notnone v old : notnone v -> notnone (lset v old).
Proof. intros [->|[x ->]]; [left; apply lset_auto|right; apply lset_isnum]. Qed.

(** ** Edges *)
Definition margins_set (b : box) : Prop :=
  notnone (margin_top b) /\ notnone (margin_right b) /\ notnone (margin_bottom b) /\ notnone (margin_left b).
Lemma copy_edges_total s hz vt b : numctx hz -> numctx vt -> convertible_style s ->
  wp (copy_edges s hz vt) (fun _ => margins_set) b.
Proof.
  intros Nh Nv C. unfold copy_edges.
  destruct (conv_margin vt _ Nv (cs_mt s C)) as (mt & E1 & N1). destruct (conv_margin hz _ Nh (cs_mr s C)) as (mr & E2 & N2).
  destruct (conv_margin vt _ Nv (cs_mb s C)) as (mb & E3 & N3). destruct (conv_margin hz _ Nh (cs_ml s C)) as (ml & E4 & N4).
  destruct (conv_border hz _ Nh (cs_bt s C)) as (bt & E5). destruct (conv_border vt _ Nv (cs_br s C)) as (br & E6).
  destruct (conv_border hz _ Nh (cs_bb s C)) as (bb & E7). destruct (conv_border vt _ Nv (cs_bl s C)) as (bl & E8).
  destruct (conv_calc_len hz _ Nh (cs_pt s C)) as (pt & E9). destruct (conv_calc_len vt _ Nv (cs_pr s C)) as (pr & E10).
  destruct (conv_calc_len hz _ Nh (cs_pb s C)) as (pb & E11). destruct (conv_calc_len vt _ Nv (cs_pl s C)) as (pl & E12).
  repeat (apply wp_bind; apply wp_bind; eapply wp_lift; [eassumption|]; apply wp_mod).
  apply wp_bind; eapply wp_lift; [eassumption|]; apply wp_mod.
  rewrite set_margin_left_eq, set_margin_bottom_eq, set_margin_right_eq, set_margin_top_eq.
  destruct b; cbn. repeat split; cbn; apply lset_notnone; assumption.
Qed.

(** ** Widths *)
Lemma auto_left0_total (Q : unit -> box -> Prop) b : notnone (margin_left b) ->
  (forall ml k, isnum ml -> Q tt (set_hm b ml (margin_right b) k (collapse_right b))) -> wp auto_left0 Q b.
Proof.
  intros N H. apply wp_mod. destruct N as [E|[x E]]; rewrite E; cbn [is_auto].
  - rewrite set_margin_left_eq, set_hm_left. apply H. apply lset_isnum.
  - replace b with (set_hm b (LNum x) (margin_right b) (collapse_left b) (collapse_right b)); [apply H, isnum_num|].
    rewrite <- E. symmetry. apply set_hm_id.
Qed.
Lemma auto_right0_total (Q : unit -> box -> Prop) b : notnone (margin_right b) ->
  (forall mr k, isnum mr -> Q tt (set_hm b (margin_left b) mr (collapse_left b) k)) -> wp auto_right0 Q b.
Proof.
  intros N H. apply wp_mod. destruct N as [E|[x E]]; rewrite E; cbn [is_auto].
  - rewrite set_margin_right_eq, set_hm_right. apply H. apply lset_isnum.
  - replace b with (set_hm b (margin_left b) (LNum x) (collapse_left b) (collapse_right b)); [apply H, isnum_num|].
    rewrite <- E. symmetry. apply set_hm_id.
Qed.
Ltac wps := repeat first
  [ apply wp_bind | apply wp_get | apply wp_ret | apply wp_mod
  | eapply wp_lift; [solve [eauto]|] | eapply wp_lift; [match goal with H : _ = LNum _ |- _ => rewrite H; reflexivity end|]
  | eapply wp_num; [solve [eauto]|] ].

Definition ok_width (b : box) : Prop := isnum (margin_left b) /\ isnum (margin_right b) /\ isnum (content_width b).
Lemma clamped_total s u c : numctx c -> convertible u -> convertible_style s -> exists w, clamped_width s u c = Ok w.
Proof.
  intros N Cu C. unfold clamped_width. destruct (conv_px c u N Cu) as (w & ->). cbn [bindr].
  assert (exists w1, match st_max_width s with None => Ok w | Some m => mx <-r px c m;; Ok (if nltb mx w then mx else w) end = Ok w1) as (w1 & ->).
  { destruct (st_max_width s) as [m|] eqn:E; [|eauto]. destruct (conv_px c m N (cs_max_width s C m E)) as (mx & ->). cbn. eauto. }
  cbn [bindr]. destruct (st_min_width s) as [|m] eqn:E; [eauto|]. destruct (conv_px c m N (cs_min_width s C m E)) as (mx & ->). cbn. eauto.
Qed.
Lemma avail_total c (Q : num -> box -> Prop) b : numctx c -> isnum (margin_left b) -> isnum (margin_right b) ->
  (forall x, Q x b) -> wp (avail_width c) Q b.
Proof. intros [z Ez] [l El] [r Er] H. unfold avail_width. wps. apply H. Qed.
Lemma drop_total cw c b : numctx c -> notnone (margin_left b) -> notnone (margin_right b) ->
  wp (drop_auto_margins cw c) (fun _ b' => notnone (margin_left b') /\ notnone (margin_right b')) b.
Proof.
  intros [z Ez] Nl Nr. unfold drop_auto_margins. wps.
  assert (A : forall acc f (Q : num -> box -> Prop), notnone (f b) -> (forall x, Q x b) -> wp (add_unless_auto acc f) Q b).
  { intros acc f Q N H. unfold wp, run, add_unless_auto. destruct N as [->|[x ->]]; cbn; do 2 eexists; eauto. }
  apply A; [exact Nl|]. intros x. apply wp_bind, A; [exact Nr|]. intros y. wps.
  destruct (nltb z y).
  - apply wp_bind, auto_left0_total; [exact Nl|]. intros ml k Nm. apply auto_right0_total; [destruct b; exact Nr|].
    intros mr k' Nm'. destruct b; cbn. split; right; assumption.
  - apply wp_ret. auto.
Qed.
Lemma block_width_total s c b : numctx c -> (forall u, st_width s = Len u -> exists w, clamped_width s u c = Ok w) ->
  notnone (margin_left b) -> notnone (margin_right b) -> wp (block_non_replaced_width s c) (fun _ => ok_width) b.
Proof.
  intros N C Nl Nr. unfold block_non_replaced_width. apply wp_bind.
  assert (P : wp match st_width s with
         | Auto => bret None
         | Len u => bbind (blift (clamped_width s u c)) (fun cw => bbind (drop_auto_margins cw c) (fun _ => bret (Some cw)))
         end (fun _ b' => notnone (margin_left b') /\ notnone (margin_right b')) b).
  { destruct (st_width s) as [|u] eqn:E; [apply wp_ret; auto|]. destruct (C u eq_refl) as (w & Ew).
    apply wp_bind. eapply wp_lift; [exact Ew|]. apply wp_bind. eapply wp_mono; [apply drop_total; assumption|].
    intros [] b' H. apply wp_ret. exact H. }
  eapply wp_mono; [exact P|]. clear P b Nl Nr. intros ocw b [Nl Nr]. apply wp_bind, wp_get, wp_bind, wp_get, wp_bind.
  eapply wp_mono with (Q := fun _ b' => isnum (margin_left b') /\ isnum (margin_right b')).
  2:{ intros cw b' [[l El] [r Er]]. unfold left_edge. wps.
      eapply wp_num; [destruct b'; exact El|]. wps. destruct b'; cbn in *. unfold ok_width. cbn. rewrite El, Er. auto using isnum_num. }
  assert (Sr : forall cw (b : box), isnum (margin_left b) -> wp (solve_right cw c) (fun _ b' => isnum (margin_left b') /\ isnum (margin_right b')) b).
  { intros cw b0 [l El]. destruct N as [z Ez]. unfold solve_right. wps. rewrite set_margin_right_eq. destruct b0; cbn in *. split; [exists l; exact El|apply lset_isnum]. }
  assert (Sl : forall cw (b : box), isnum (margin_right b) -> wp (solve_left cw c) (fun _ b' => isnum (margin_left b') /\ isnum (margin_right b')) b).
  { intros cw b0 [l El]. destruct N as [z Ez]. unfold solve_left. wps. rewrite set_margin_left_eq. destruct b0; cbn in *. split; [apply lset_isnum|exists l; exact El]. }
  assert (Sp : forall cw (b : box), wp (split_margins cw c) (fun _ b' => isnum (margin_left b') /\ isnum (margin_right b')) b).
  { intros cw b0. destruct N as [z Ez]. unfold split_margins. wps. rewrite set_margin_right_eq, set_margin_left_eq. destruct b0; cbn in *. split; apply lset_isnum. }
  assert (Az : wp (bbind auto_left0 (fun _ => bbind auto_right0 (fun _ => avail_width c)))
                  (fun _ b' => isnum (margin_left b') /\ isnum (margin_right b')) b).
  { apply wp_bind, auto_left0_total; [exact Nl|]. intros ml k M1. apply wp_bind, auto_right0_total; [destruct b; exact Nr|].
    intros mr k' M2. apply avail_total; [exact N| | |]; destruct b; cbn; auto. }
  assert (R : forall cw (m : BM unit), wp m (fun _ b' => isnum (margin_left b') /\ isnum (margin_right b')) b ->
    wp (bbind m (fun _ => bret cw)) (fun (_ : num) b' => isnum (margin_left b') /\ isnum (margin_right b')) b).
  { intros cw m Hm. apply wp_bind. eapply wp_mono; [exact Hm|]. intros [] b' H. apply wp_ret, H. }
  destruct Nl as [El|[l El]], Nr as [Er|[r Er]]; rewrite El, Er; cbn [is_auto];
    destruct ocw as [cw|]; try exact Az; try apply R; auto.
  - apply Sl. exists r; assumption.
  - apply Sr. exists l; assumption.
  - destruct (st_direction s); [apply Sr; exists l|apply Sl; exists r]; assumption.
  - apply avail_total; [exact N|exists l; exact El|exists r; exact Er|]. intros. split; [exists l|exists r]; assumption.
Qed.

(** ** Block nodes *)
Definition plain_block (s : style) (i : size) : Prop :=
  is_block_level s = true /\ is_float s = false /\ is_abspos s = false /\ is_inline s = false /\ s_replaced i = false.
Lemma wphase_total s i hz vt b : plain_block s i -> numctx hz -> numctx vt -> convertible_style s ->
  exists b', wphase s i hz vt b = Ok b' /\ ok_width b' /\ notnone (margin_top b') /\ notnone (margin_bottom b').
Proof.
  intros (P1 & P2 & P3 & P4 & P5) Nh Nv C. unfold wphase.
  destruct (copy_edges_total s hz vt b Nh Nv C) as (b1 & [] & E1 & M1 & M2 & M3 & M4). rewrite E1. cbn [bindr fst].
  unfold calculate_width. rewrite P2, P3, P4, P1, P5.
  destruct (block_width_total s hz b1 Nh (fun u E => clamped_total s u hz Nh (cs_width s C u E) C) M4 M2) as (b2 & ol & E2 & W). rewrite E2. cbn [bindr fst snd].
  eexists. split; [reflexivity|].
  assert (T : cfix b1 b2).
  { assert (K : keeps cfix (block_non_replaced_width s hz)).
    { pose proof (calculate_width_cfix s i hz) as K. unfold calculate_width in K. rewrite P2, P3, P4, P1, P5 in K. exact K. }
    specialize (K b1). unfold run in E2. destruct (block_non_replaced_width s hz b1) as [b3 [a|e]]; [|discriminate].
    apply Ok_inj in E2. injection E2 as -> ->. exact K. }
  assert (G : ok_width b2 /\ notnone (margin_top b2) /\ notnone (margin_bottom b2)).
  { unfold cfix in T. destruct T as (_ & _ & _ & T1 & T2 & _). split; [exact W|].
    split; [replace (margin_top b2) with (margin_top b1) by congruence|replace (margin_bottom b2) with (margin_bottom b1) by congruence]; assumption. }
  destruct ol; [|exact G]. destruct b2; exact G.
Qed.

(** ** Heights *)
Definition sized (b : box) : Prop :=
  isnum (margin_top b) /\ isnum (margin_right b) /\ isnum (margin_bottom b) /\ isnum (margin_left b)
  /\ isnum (content_width b) /\ isnum (content_height b).
Definition good_last (last : option (option box)) : Prop :=
  match last with None => True | Some ob => exists b, ob = Some b /\ isnum (content_height b) end.
Definition conv_parent (ph : option unit_) : Prop := conv_opt ph.
Lemma border_bottom_total b : isnum (content_height b) -> exists h, border_box_bottom b = Ok h.
Proof. intros [x E]. unfold border_box_bottom, content_bottom. rewrite E. cbn. eauto. Qed.
Lemma border_height_total b : isnum (content_height b) -> exists h, border_box_height b = Ok h.
Proof. intros [x E]. unfold border_box_height. rewrite E. cbn. eauto. Qed.
Lemma block_content_height_total s ph last c b : numctx c -> conv_opt ph -> good_last last -> convertible_style s ->
  exists r, run (block_content_height s ph last c) b = Ok r.
Proof.
  intros N P L C. enough (W : wp (block_content_height s ph last c) (fun _ _ => True) b) by (destruct W as (b' & a & E & _); eauto).
  unfold block_content_height. destruct (st_height s) as [|u] eqn:Eh.
  - destruct last as [ob|].
    + destruct L as (lb & -> & Hl). destruct (border_bottom_total lb Hl) as (h & E). wps. exact I.
    + destruct (st_min_height s) as [|m] eqn:Em; [wps; exact I|]. destruct (conv_px c m N (cs_min_height s C m Em)) as (p & E). wps. exact I.
  - apply wp_bind. eapply wp_mono with (Q := fun _ _ => True).
    + destruct ph as [pu|].
      * destruct (conv_px c pu N (P pu eq_refl)) as (p & E). wps.
        destruct (conv_px (mkCtx (c_disp c) (c_font c) (LNum p)) u (isnum_num p) (cs_height s C u Eh)) as (q & E'). wps. exact I.
      * destruct (conv_px c u N (cs_height s C u Eh)) as (q & E'). wps. exact I.
    + intros h b' _. destruct (st_max_height s) as [m|] eqn:Em; [|wps; exact I].
      destruct (conv_px c m N (cs_max_height s C m Em)) as (q & E'). wps. exact I.
Qed.
Lemma zero_auto_isnum v : notnone v -> isnum (zero_auto v).
Proof. intros [->|[x ->]]; cbn; [apply isnum_num|exists x; reflexivity]. Qed.
Lemma hphase_total s i ph last vt b : plain_block s i -> numctx vt -> conv_opt ph -> good_last last -> convertible_style s ->
  ok_width b -> notnone (margin_top b) -> notnone (margin_bottom b) ->
  exists b', hphase s i ph last vt b = Ok b' /\ sized b'.
Proof.
  intros PB N P L C W Nt Nb. pose proof PB as (P1 & P2 & P3 & P4 & P5).
  enough (E : exists b', hphase s i ph last vt b = Ok b').
  { destruct E as (b' & E). exists b'. split; [exact E|]. apply hphase_block in E; [|exact P1].
    destruct E as (h & kt & kb & t & _ & -> & _). destruct W as (W1 & W2 & W3). unfold set_vm. destruct b; cbn in *.
    repeat split; cbn; auto using zero_auto_isnum, isnum_num. }
  unfold hphase, calculate_height. rewrite P2, P3, P4, P1, P5. unfold block_non_replaced_height.
  enough (Q : wp (bbind auto_top0 (fun _ => bbind auto_bottom0 (fun _ => bbind (block_content_height s ph last vt)
     (fun h => bbind (bmod (upd_content_height (LNum h))) (fun _ => bbind (bget border_top_width) (fun bt => bbind (bget padding_top) (fun pt => bret (nadd bt pt)))))))) (fun _ _ => True) b).
  { destruct Q as (b' & a & E & _). rewrite E. cbn. eauto. }
  apply wp_bind, wp_mod, wp_bind, wp_mod, wp_bind.
  match goal with |- wp _ _ ?b0 => destruct (block_content_height_total s ph last vt b0 N P L C) as ([b1 h] & E) end.
  exists b1, h. split; [exact E|]. wps. exact I.
Qed.

Lemma rel_offset_total c a z cs ce : numctx c -> conv_offset a -> conv_offset z -> exists v, rel_offset c a z cs ce = Ok v.
Proof.
  intros N [A1 A2] [Z1 Z2]. destruct a as [| |u], z as [| |w]; try congruence; cbn [rel_offset]; eauto.
  - destruct (conv_px c w N (Z2 w eq_refl)) as (p & ->). cbn. eauto.
  - apply conv_px; auto.
  - apply conv_px; auto.
Qed.
Lemma sized_move_top v b : sized b -> sized (move_top v b). Proof. destruct b; auto. Qed.
Lemma sized_move_left v b : sized b -> sized (move_left v b). Proof. destruct b; auto. Qed.

Section Total.
Context {S : Type} (sty : S -> style).
Notation node := (node S).
Notation cblock := (@cblock S).
Notation plb := (plb sty).

Definition cb_ok (cb : cblock) : Prop :=
  match cb with
  | CBView => True
  | CBNode s b => isnum (content_width b) /\ isnum (content_height b) /\ conv_lenauto (st_height (sty s))
  end.
Lemma cb_ok_h d f cb : cb_ok cb -> numctx (hctx d f cb).
Proof. destruct cb as [|s b]; cbn; [intros; eexists; reflexivity|]. intros (H & _). exact H. Qed.
Lemma cb_ok_v d f cb : cb_ok cb -> numctx (vctx d f cb).
Proof. destruct cb as [|s b]; cbn; [intros; eexists; reflexivity|]. intros (_ & H & _). exact H. Qed.
Lemma cb_ok_ph cb : cb_ok cb -> conv_opt (cb_style_height sty cb).
Proof.
  destruct cb as [|s b]; cbn; [intros _ u; discriminate|]. intros (_ & _ & H) u E.
  destruct (st_height (sty s)) as [|v]; [discriminate|]. injection E as ->. apply H. reflexivity.
Qed.
Lemma shift_total d f cb s b : cb_ok cb -> convertible_style s -> sized b -> exists b', shift_box d f cb s b = Ok b' /\ sized b'.
Proof.
  intros K C Sz. unfold shift_box. destruct (is_relative s); [|eauto].
  destruct (rel_offset_total (hctx d f cb) (st_left s) (st_right s)
    (cb_attr (fun b => Ok (content_left b)) cb) (cb_attr content_right cb) (cb_ok_h d f cb K) (cs_left s C) (cs_right s C)) as (v & ->).
  cbn [bindr].
  destruct (rel_offset_total (vctx d f cb) (st_top s) (st_bottom s)
    (cb_attr (fun b => Ok (content_top b)) cb) (cb_attr content_bottom cb) (cb_ok_v d f cb K) (cs_top s C) (cs_bottom s C)) as (w & ->).
  cbn [bindr]. eexists. split; [reflexivity|]. apply sized_move_top, sized_move_left, Sz.
Qed.

(** Trees whose boxes are all in the initial state as far as heights go. *)
Inductive numeric : node -> Prop :=
| numeric_node s i b ks : isnum (content_height b) -> (forall k, In k ks -> numeric k) -> numeric (Node s i (Some b) ks).

Lemma block_document_block s i bx ks : block_document sty (Node s i bx ks) ->
  plain_block (sty s) i /\ convertible_style (sty s) /\ st_display (sty s) <> None /\ forall k, In k ks -> block_document sty k.
Proof.
  inversion 1 as [s0 i0 bx0 ks0 D P F R C K]; subst. split; [|split; [exact C|split; [|exact K]]].
  - unfold plain_block, is_block_level, is_float, is_abspos, is_inline. rewrite F.
    destruct D as [<-|[<-|[<-|[]]]], P as [<-|[<-|[]]]; auto.
  - destruct D as [<-|[<-|[<-|[]]]]; discriminate.
Qed.
Lemma last_box_good (ks : list node) : (forall k, In k ks -> exists b, n_box k = Some b /\ isnum (content_height b)) ->
  good_last (last_box ks).
Proof.
  intros H. unfold last_box. destruct (rev ks) as [|k r] eqn:E; [exact I|]. cbn. apply H. apply in_rev. rewrite E. left. reflexivity.
Qed.
Definition laid_ok (k : node) : Prop := exists b, n_box k = Some b /\ sized b.
Lemma pall_total (lay : node -> res node) ks : (forall k, In k ks -> exists k', lay k = Ok k' /\ laid_ok k') ->
  exists ks', pall lay ks = Ok ks' /\ (forall k, In k ks' -> laid_ok k).
Proof.
  induction ks as [|k ks IH]; intros H; [exists []; split; [reflexivity|intros ? []]|].
  destruct (H k (or_introl eq_refl)) as (k' & E & L). destruct IH as (ks' & E' & L'); [intros; apply H; right; assumption|].
  exists (k' :: ks'). cbn. rewrite E. cbn. rewrite E'. cbn. split; [reflexivity|]. intros x [<-|I]; auto.
Qed.
Definition keeps_sizes (b b' : box) : Prop :=
  content_width b' = content_width b /\ content_height b' = content_height b /\ margin_top b' = margin_top b /\ margin_bottom b' = margin_bottom b
  /\ margin_left b' = margin_left b /\ margin_right b' = margin_right b.
Lemma pflow_total (lay : box -> node -> res node) ks : forall b off bm,
  (forall k, In k ks -> is_block_level (sty (n_style k)) = true) ->
  (forall k b', In k ks -> keeps_sizes b b' -> exists k', lay b' k = Ok k' /\ laid_ok k') ->
  exists ks' b', pflow sty lay ks false b off bm = Ok (ks', b') /\ (forall k, In k ks' -> laid_ok k) /\ keeps_sizes b b'.
Proof.
  induction ks as [|k ks IH]; intros b off bm HB HL.
  - exists [], b. cbn. split; [reflexivity|]. split; [intros ? []|repeat split].
  - cbn [pflow]. rewrite (HB k (or_introl eq_refl)).
    destruct (HL k b (or_introl eq_refl)) as (k1 & E & kb & Eb & Sz); [repeat split|]. rewrite E. cbn [bindr]. rewrite Eb.
    assert (exists kb' b' off' bm', pplace kb b off bm = Ok (kb', b', off', bm') /\ sized kb' /\ keeps_sizes b b') as (kb' & b' & off' & bm' & Ep & Sz' & Kp).
    { unfold pplace. destruct Sz as ((mt & Emt) & X). pose proof X as (_ & _ & _ & _ & Hh).
      destruct (border_height_total kb Hh) as (h & Eh).
      destruct bm as [m|]; [rewrite Emt; cbn [as_num]|]; cbn [bindr]; rewrite Eh; cbn [bindr]; do 4 eexists; (split; [reflexivity|]);
        (split; [apply sized_move_top; split; [exists mt; exact Emt|exact X]|]); [repeat split|].
      destruct b; unfold set_collapse_top; cbn; repeat match goal with |- context[if ?x then _ else _] => destruct x end; repeat split. }
    rewrite Ep. cbn [bindr].
    destruct (IH b' off' bm') as (ks' & b2 & E2 & L2 & K2).
    + intros; apply HB; right; assumption.
    + intros k0 b0 I K0. apply HL; [right; assumption|]. unfold keeps_sizes in *. intuition congruence.
    + rewrite E2. cbn. do 2 eexists. split; [reflexivity|]. split.
      * intros x [<-|I]; [|auto]. exists kb'. split; [apply with_box_box|exact Sz'].
      * unfold keeps_sizes in *. intuition congruence.
Qed.

Lemma plb_total : forall fuel d f cb n, (height n <= fuel)%nat -> block_document sty n -> numeric n -> cb_ok cb ->
  exists n', plb fuel d f cb n = Ok n' /\ laid_ok n'.
Proof.
  induction fuel as [|fuel IH]; intros d f cb n Hf D M K; [destruct n; cbn in Hf; lia|].
  destruct n as [s i bx ks]. destruct (block_document_block s i bx ks D) as (PB & C & Ds & Dk).
  inversion M as [? ? b ? Hh Mk]; subst. cbn [EnginePure.plb]. destruct (st_display (sty s)) as [dk|] eqn:Ed; [|congruence].
  pose proof PB as (P1 & P2 & P3 & P4 & P5).
  pose proof (cb_ok_h d f cb K) as Nh. pose proof (cb_ok_v d f cb K) as Nv. pose proof (cb_ok_ph cb K) as Np.
  destruct (wphase_total (sty s) i (hctx d f cb) (vctx d f cb) b PB Nh Nv C) as (b1 & E1 & W1 & T1 & B1). rewrite E1. cbn [bindr].
  apply wphase_fix in E1 as (_ & Eh1 & _).
  assert (exists b2, (if is_relative (sty s) then hphase (sty s) i (cb_style_height sty cb) (last_box ks) (vctx d f cb) b1 else Ok b1) = Ok b2
    /\ ok_width b2 /\ notnone (margin_top b2) /\ notnone (margin_bottom b2) /\ isnum (content_height b2)) as (b2 & E2 & W2 & T2 & B2 & H2).
  { destruct (is_relative (sty s)).
    - destruct (hphase_total (sty s) i (cb_style_height sty cb) (last_box ks) (vctx d f cb) b1 PB Nv Np) as (b2 & E2 & S1 & S2 & S3 & S4 & S5 & S6); try assumption.
      + apply last_box_good. intros k I. specialize (Mk k I). destruct Mk as [? ? kb ? Hkb _]. exists kb. split; [reflexivity|exact Hkb].
      + exists b2. rewrite E2. unfold ok_width, notnone. auto 10.
    - exists b1. rewrite Eh1. auto 10. }
  rewrite E2. cbn [bindr]. rewrite P2, P3.
  assert (Hk : forall k, In k ks -> (height k <= fuel)%nat).
  { intros k I. cbn [height] in Hf. apply le_S_n in Hf.
    assert (G : forall l : list node, In k l -> (height k <= fold_right Nat.max 0 (map height l))%nat).
    { induction l as [|x l IHl]; intros []; cbn; [subst; lia|]. specialize (IHl H). lia. }
    specialize (G ks I). etransitivity; [|exact Hf]. etransitivity; [exact G|]. reflexivity. }
  assert (exists ks' b3, pchildren sty (plb fuel d f) s i b2 ks = Ok (ks', b3) /\ (forall k, In k ks' -> laid_ok k) /\ keeps_sizes b2 b3)
    as (ks' & b3 & E3 & L3 & K3).
  { unfold pchildren. destruct (establishes_inline sty _) eqn:Ei.
    - destruct (pall_total (plb fuel d f (CBNode s b2)) ks) as (ks' & E & L).
      + intros k I. apply IH; auto. split; [apply W2|]. split; [exact H2|apply C].
      + rewrite E. cbn. do 2 eexists. split; [reflexivity|]. split; [exact L|repeat split].
    - apply pflow_total.
      + intros k I. specialize (Dk k I). destruct k as [sk ik bk kk]. apply (block_document_block sk ik bk kk) in Dk. apply Dk.
      + intros k b' I (Q1 & Q2 & _). apply IH; auto. cbn. rewrite Q1, Q2. split; [apply W2|]. split; [exact H2|apply C]. }
  rewrite E3. cbn [bindr fst snd]. destruct K3 as (K1 & K2 & K3 & K4 & K5 & K6).
  destruct (hphase_total (sty s) i (cb_style_height sty cb) (last_box ks') (vctx d f cb) b3 PB Nv Np) as (b4 & E4 & S4); try assumption.
  - apply last_box_good. intros k I. destruct (L3 k I) as (kb & Ek & Sk). exists kb. split; [exact Ek|apply Sk].
  - unfold ok_width. rewrite K1, K5, K6. exact W2.
  - rewrite K3. exact T2.
  - rewrite K4. exact B2.
  - rewrite E4. cbn [bindr]. destruct (shift_total d f cb (sty s) b4 K C S4) as (b5 & E5 & S5). rewrite E5. cbn [bindr].
    eexists. split; [reflexivity|]. exists b5. split; [reflexivity|exact S5].
Qed.

Lemma boxed_numeric (n : node) : boxed n -> numeric (strip (reset n)).
Proof.
  induction 1 as [s i b ks Hk IH]. cbn [reset strip option_map]. constructor; [apply isnum_num|].
  intros k I. apply in_map_iff in I. destruct I as (k1 & <- & I). apply in_map_iff in I. destruct I as (k2 & <- & I). auto.
Qed.
Lemma block_document_inputs (n m : node) : block_document sty n -> inputs n = inputs m -> block_document sty m.
Proof.
  intros A. revert m. induction A as [s i bx ks D P F R C Hk IH]. intros [s' i' bx' ks'] E. cbn in E. injection E as -> -> E.
  constructor; try assumption. clear D P F R C bx bx' Hk. revert ks' E. induction ks as [|k ks IHk]; intros [|k' ks'] E k0 I; try discriminate; [destruct I|].
  cbn in E. injection E as E1 E2. destruct I as [<-|I].
  - eapply IH; [left; reflexivity|exact E1].
  - eapply IHk; [|exact E2|exact I]. intros x Ix. apply IH. right. exact Ix.
Qed.
Lemma inputs_strip (n : node) : inputs (strip n) = inputs n.
Proof.
  induction n as [s i bx ks IH] using node_ind'. cbn. f_equal. rewrite map_map. apply map_ext_in. exact IH.
Qed.
Lemma inputs_reset (n : node) : inputs (reset n) = inputs n.
Proof.
  induction n as [s i [b|] ks IH] using node_ind'; [|reflexivity]. cbn. f_equal. rewrite map_map. apply map_ext_in. exact IH.
Qed.
Lemma layout_total d h5 (n : node) : boxed n -> block_document sty n -> exists n', layout sty d h5 n = (n', Ok tt).
Proof.
  intros B D. assert (exists b, n_box n = Some b) as (b & Eb) by (destruct B as [? ? b ? _]; exists b; reflexivity).
  pose proof (layout_strip sty d h5 n b Eb) as E. unfold playout in E.
  destruct (plb_total (height (strip (reset n))) d dummy_font CBView (strip (reset n)) (le_n _)) as (n1 & E1 & b1 & Eb1 & _).
  - eapply block_document_inputs; [exact D|]. rewrite inputs_strip, inputs_reset. reflexivity.
  - apply boxed_numeric, B.
  - exact I.
  - rewrite E1 in E. cbn [bindr] in E. destruct n1 as [s i bx ks]. cbn in Eb1. subst bx. cbn [pfinish] in E.
    destruct (layout sty d h5 n) as [n' [[]|e]]; [eauto|discriminate].
Qed.

(** ** Unsupported features *)
Lemma unsupported_width s i c b r : unsupported s i -> run (calculate_width s i c) b <> Ok r.
Proof.
  intros U E. unfold calculate_width, is_float, is_abspos, is_inline, is_block_level, is_inline_block in E.
  destruct U as [side F|P|D R|dk D K].
  - rewrite F in E. discriminate.
  - destruct (st_float s); [discriminate|]. destruct P as [P|[P|[]]]; rewrite <- P in E; discriminate.
  - destruct (st_float s); [discriminate|]. destruct (st_position s); destruct D as [D|[D|[D|[]]]]; try rewrite <- D in E; rewrite ?R in E; discriminate.
  - destruct (st_float s); [discriminate|]. rewrite D in E. destruct (st_position s); destruct dk; try discriminate;
      repeat (destruct K as [K|K]; [discriminate|]); destruct K.
Qed.
Lemma wphase_unsupported s i hz vt b b' : unsupported s i -> wphase s i hz vt b <> Ok b'.
Proof.
  intros U E. unfold wphase in E. apply bindr_ok in E. destruct E as (p & E1 & E). apply bindr_ok in E. destruct E as (q & E2 & E).
  exact (unsupported_width s i hz (fst p) q U E2).
Qed.
Lemma laid_supported d h5 (n n' : node) op k : layout sty d h5 n = (n', Ok tt) -> laid sty n' op k ->
  ~ unsupported (sty (n_style k)) (n_intr k).
Proof.
  intros H L U. destruct (layout_laid sty d h5 n n' op k H L) as (fuel & cb & kin & k0 & Hp & _ & Fin & _).
  destruct (call_inv sty d h5 fuel cb kin k0 False _ k Hp (fun f => match f with end) Fin)
    as (s & i & bx & ks & b1 & b2 & ks' & b3 & b4 & b5 & b & Es & Ei & _ & _ & _ & _ & _ & _ & W & _).
  rewrite Es, Ei in U. exact (wphase_unsupported _ _ _ _ _ _ U W).
Qed.
(** Taking part in layout is a matter of the inputs alone. *)
Lemma laid_inputs (n m : node) : inputs n = inputs m -> forall op k, laid sty n op k ->
  exists op' k', laid sty m op' k' /\ inputs k' = inputs k
    /\ match op, op' with Some p, Some p' => inputs p' = inputs p | None, None => True | _, _ => False end.
Proof.
  intros E op k L. induction L as [D|op p k L IH I D H].
  - exists None, m. split; [|split; [symmetry; exact E|trivial]]. apply laid_root. unfold displayed in *.
    destruct (inputs_style n m E) as [<- _]. exact D.
  - destruct IH as (op' & p' & L' & E' & _).
    assert (exists k', In k' (n_kids p') /\ inputs k' = inputs k) as (k' & I' & Ek).
    { destruct p as [s i bx ks], p' as [s' i' bx' ks']. cbn in E'. injection E' as _ _ E'. cbn in I |- *.
      assert (In (inputs k) (map inputs ks')) by (rewrite E'; apply in_map, I).
      apply in_map_iff in H0. destruct H0 as (k' & E1 & I1). eauto. }
    exists (Some p'), k'. split; [|split; [exact Ek|exact E']].
    destruct (inputs_style k' k Ek) as [Es _].
    eapply laid_kid; [exact L'|exact I'| |].
    + unfold displayed in *. rewrite Es. exact D.
    + rewrite Es, (inputs_establishes sty p' p E'). exact H.
Qed.
Lemma unsupported_raises d h5 (n : node) op k : laid sty n op k -> unsupported (sty (n_style k)) (n_intr k) ->
  forall n' , layout sty d h5 n <> (n', Ok tt).
Proof.
  intros L U n' H. pose proof (layout_inputs sty d h5 n) as E. rewrite H in E. cbn [fst] in E. symmetry in E.
  destruct (laid_inputs n n' E op k L) as (op' & k' & L' & Ek & _). destruct (inputs_style k' k Ek) as [Es Ei].
  apply (laid_supported d h5 n n' op' k' H L'). rewrite Es, Ei. exact U.
Qed.
End Total.
