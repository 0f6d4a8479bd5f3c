(** * C175: an empty block between two blocks *)
From Coq Require Import ZArith QArith Qcanon Qround Lia Lqa Bool List.
From Verif Require Import PyNum NumFacts Units BoxModel BoxSpec BoxFacts Engine EnginePure EngineSpec EngineExamples EngineInv EngineTree EngineTotal EngineWidth
  RefLayout RefFacts RefProps HistSpec HistProps MoveSpec MoveProps EdgeSpec EdgeProps LocalSpec LocalProps PushSpec PushProps OkSpec OkProps WrapSpec WrapProps SpacerSpec.
Import ListNotations.
Open Scope Qc_scope.

Lemma overlap_gap k l z : (0 <= u_cb k)%Z -> qc_maxi (Z2Qc (u_cb k)) 0 = Z2Qc (u_cb k) /\ z + Z2Qc (u_cb k) + qc_maxi (Z2Qc 0) (u_mt l) = z + qc_maxi (Z2Qc (u_cb k)) (u_mt l) + overlap k l.
Proof.
  intros H. assert (N : 0 <= Z2Qc (u_cb k)) by (change (Z2Qc 0 <= Z2Qc (u_cb k)); apply Z2Qc_le; exact H). unfold overlap, qc_maxi, qc_min, qc_max. change (Z2Qc 0) with 0. set (c := Z2Qc (u_cb k)) in *.
  split; [destruct (qc_ltb_spec c 0); [exfalso; qclra|reflexivity]|].
  destruct (qc_ltb_spec 0 (u_mt l)), (qc_ltb_spec c (u_mt l)).
  - destruct (qc_ltb_spec (u_mt l) c); [exfalso; qclra|ring].
  - destruct (qc_ltb_spec (u_mt l) c); [ring|]. assert (u_mt l = c) as -> by (apply Qcle_antisym; qclra). ring.
  - exfalso. qclra.
  - destruct (qc_ltb_spec 0 c); [ring|]. assert (c = 0) as -> by (apply Qcle_antisym; qclra). ring.
Qed.

Section E.
Context {S : Type} (sty : S -> style).
Notation node := (node S).
Notation laid_kid := (MoveProps.laid_kid sty).

Lemma parted_grown p g n x y : parted sty p g n x y -> exists u v us us', x = UNode u us /\ y = UNode v us' /\ grown g u v /\ u_ct v = u_ct u.
Proof. intros H. inversion H; subst; do 4 eexists; (split; [reflexivity|]); (split; [reflexivity|]); split; eassumption. Qed.
Lemma move_down_ct t u : u_ct (move_down t u) = u_ct u. Proof. destruct u. reflexivity. Qed.
Lemma parted_down p g n u us v us' r : parted sty p g n (UNode u us) (UNode v us') -> parted sty p g n (UNode (move_down r u) us) (UNode (move_down r v) us').
Proof.
  intros H. inversion H; subst; [eapply parted_here|eapply parted_below]; try eassumption; try (apply grown_down; assumption); rewrite !move_down_ct; assumption.
Qed.
Lemma blank_format d a (e : node) : blank sty e -> exists u, format sty d a e = UNode u [] /\ border_height u = 0 /\ u_mt u = 0 /\ u_cb u = 0%Z /\ u_top u = 0.
Proof.
  destruct e as [s i b ks]. intros ((P1 & P2 & P3 & P4 & P5 & P6 & P7 & P8) & Mh & Nk & _). cbn [n_style n_kids] in *. subst ks.
  cbn [forallb] in P6, P7, P8. repeat rewrite andb_true_iff in P6. repeat rewrite andb_true_iff in P7. repeat rewrite andb_true_iff in P8.
  destruct P6 as (M1 & M2 & M3 & M4 & _). destruct P7 as (B1 & B2 & B3 & B4 & _). destruct P8 as (D1 & D2 & D3 & D4 & _).
  rewrite format_split, P1. unfold kids_of. cbn [map stacks_ existsb]. unfold node_of. cbv zeta.
  assert (R : isrel (sty s) = false) by (unfold isrel; rewrite P2; reflexivity). rewrite R.
  assert (Hb : or0 (bottoms d a DBlock (sty s) i) = 0) by (unfold bottoms; cbn [isinl andb or0]; apply len0_nothing, M3).
  eexists. split; [reflexivity|]. unfold border_height. cbn [u_bt u_pt u_h u_pb u_bb u_mt u_cb u_top].
  rewrite !(border_nothing d _ _ B1), !(border_nothing d _ _ B3), !(len_nothing d _ _ D1), !(len_nothing d _ _ D3), (len0_nothing d _ _ M1), Hb.
  split. { cbn [last_kid rev]. unfold hgt. cbn [isinl or0 last_kid rev]. unfold used_block_height, spec_height. rewrite P5, Mh. cbn [last_kid rev len0]. ring. }
  split; [reflexivity|]. split; [rewrite P5; cbn [last_kid rev]; apply whole_px_0|].
  unfold edges. cbn [isinl]. rewrite (border_nothing d _ _ B1), (len_nothing d _ _ D1). ring.
Qed.
Lemma node_slid d a dk s0 i b (kn : list node) q q' w g : isinl dk = false -> let n := Node s0 i b kn in
  w <> [] -> match q, q' with x :: _, y :: _ => x = y | _, _ => False end -> map isnode (q ++ w) = map (fun k => block_level (sty (n_style k))) kn ->
  exists u v, node_of d a dk (sty s0) i true (q ++ w) = UNode u (q ++ w) /\ node_of d a dk (sty s0) i true (q' ++ map (slide g) w) = UNode v (q' ++ map (slide g) w)
    /\ grown (if from_last sty n then g else 0) u v /\ u_ct v = u_ct u.
Proof.
  intros D n Nw Hq K. destruct (exists_last Nw) as (w0 & z & ->).
  assert (L : exists l l', last_kid (q ++ w0 ++ [z]) = Some l /\ last_kid (q' ++ map (slide g) (w0 ++ [z])) = Some l' /\ u_cb l' = u_cb l
    /\ (st_height (sty s0) = Auto -> border_bottom l' = border_bottom l + (if from_last sty n then g else 0))).
  { rewrite map_app. cbn [map]. rewrite !app_assoc, !last_kid_app. apply (f_equal (@rev _)) in K. rewrite <- !map_rev, app_assoc, rev_app_distr in K. unfold from_last, n. cbn [n_style n_kids].
    unfold last_kid. cbn [rev app map] in *. destruct (rev kn) as [|k kn']; [discriminate|]. injection K as K _. destruct z as [uz usz| |]; cbn [slide isnode] in *.
    + do 2 eexists. split; [reflexivity|]. split; [reflexivity|]. split; [apply move_down_cb|]. intros ->. rewrite <- K. apply border_bottom_down.
    + do 2 eexists. split; [reflexivity|]. split; [reflexivity|]. split; [reflexivity|]. intros ->. rewrite <- K. ring.
    + do 2 eexists. split; [reflexivity|]. split; [reflexivity|]. split; [reflexivity|]. intros ->. rewrite <- K. ring. }
  destruct L as (l & l' & L1 & L2 & Ec & Eb). unfold node_of. cbv zeta. do 2 eexists. split; [reflexivity|]. split; [reflexivity|]. rewrite L1, L2. split.
  - split; [repeat split|]. cbn [u_h u_cb]. split; [|rewrite Ec; reflexivity]. unfold hgt. rewrite D. cbn [or0]. unfold used_block_height, spec_height.
    destruct (st_height (sty s0)) as [|u] eqn:Hh; [apply Eb; reflexivity|]. unfold from_last, n. cbn [n_style]. rewrite Hh. ring.
  - cbn [u_ct]. destruct q as [|x q], q' as [|y q']; try contradiction. subst y. reflexivity.
Qed.
Lemma spaced_block p (n m : node) : spaced sty p n m -> block_level (sty (n_style n)) = true /\ block_level (sty (n_style m)) = true.
Proof. intros H. inversion H as [? ? ? ? ? ? ? ? ? ? ? ? ? D|? ? ? ? ? ? ? ? ? ? ? D]; subst; cbn [n_style]; unfold block_level; destruct D as [-> | ->]; auto. Qed.
Lemma has_mid l l' (x : node) : block_level (sty (n_style x)) = true -> has_block sty (l ++ x :: l') = true.
Proof. intros X. rewrite (has_block_app sty). unfold has_block at 2. cbn [existsb]. rewrite X, orb_true_r. reflexivity. Qed.
Lemma kids_isnode d inner (ks : list node) : map isnode (kids_of sty d inner true ks) = map (fun k => block_level (sty (n_style k))) ks.
Proof.
  unfold kids_of. rewrite stack_isnode, map_map. apply map_ext. intros x. unfold MoveProps.laid_kid. cbn [andb]. destruct (block_level (sty (n_style x))) eqn:Bx; [|reflexivity]. cbn [negb].
  destruct x as [sx ix bx kx]. destruct (block_display _ Bx) as (dx & Dx & _). cbn [n_style] in Dx. rewrite format_split, Dx. reflexivity.
Qed.
Theorem format_spaced p n m : spaced sty p n m -> forall d a, exists g, parted sty p g n (format sty d a n) (format sty d a m).
Proof.
  induction 1 as [s i b b' before before' k l k' l' e rest rest' D E1 Ek El E3 Bk Pk Bl He|p s i b b' before before' k k' rest rest' D E1 R IH E2]; intros d a; rewrite !format_split.
  - assert (Bk' : block_level (sty (n_style k')) = true) by (rewrite <- (inputs_style _ _ Ek); exact Bk).
    assert (St : exists dk, st_display (sty s) = Some dk /\ isinl dk = false /\ stacks_ sty dk (before ++ k :: l :: rest) = true /\ stacks_ sty dk (before' ++ k' :: e :: l' :: rest') = true).
    { destruct D as [-> | ->]; eexists; (split; [reflexivity|]); (split; [reflexivity|]); split; apply has_mid; assumption. }
    destruct St as (dk & -> & Di & -> & ->). set (inner := inner_of d a dk (sty s) i).
    pose proof (kids_isnode d inner (before ++ k :: l :: rest)) as IK.
    destruct (kids_app sty d inner true before before' E1) as (q & top & prev & Le & F1 & F2). rewrite F1, F2 in *. clear F1 F2. cbn [map] in *.
    assert (Bx : block_level (sty (n_style e)) = true) by (unfold block_level; rewrite (proj1 (proj1 He)); reflexivity).
    assert (K1 : laid_kid d inner true k' = laid_kid d inner true k) by (pose proof (laid_kids_inputs sty d inner true [k] [k'] ltac:(cbn [map]; rewrite Ek; reflexivity)) as X; injection X as X; symmetry; exact X).
    assert (K2 : laid_kid d inner true l' = laid_kid d inner true l) by (pose proof (laid_kids_inputs sty d inner true [l] [l'] ltac:(cbn [map]; rewrite El; reflexivity)) as X; injection X as X; symmetry; exact X).
    rewrite K1, K2, <- (laid_kids_inputs sty d inner true _ _ E3). clear K1 K2.
    assert (LK : forall x : node, block_level (sty (n_style x)) = true -> laid_kid d inner true x = format sty d inner x) by (intros x X; unfold MoveProps.laid_kid; rewrite X; reflexivity).
    rewrite (LK k Bk), (LK l Bl), (LK e Bx) in *.
    destruct (format_node sty d inner k Bk) as (uk & usk & Fk). destruct (format_node sty d inner l Bl) as (ul & usl & Fl). destruct (blank_format d inner e He) as (ue & Fe & He1 & He2 & He3 & He4).
    rewrite Fk, Fl, Fe in *. cbn [stack] in *. set (m := top + match prev with None => 0 | Some z => qc_maxi (Z2Qc z) (u_mt uk) end) in *.
    destruct (format_extents sty _ _ _ _ _ Fk) as [_ Ck]. destruct (overlap_gap uk ul (m + border_height uk) Ck) as [G1 G2]. rewrite He1, He2, He3, G1.
    replace (m + border_height uk + Z2Qc (u_cb uk) + 0) with (m + border_height uk + Z2Qc (u_cb uk)) by ring.
    set (o := overlap uk ul) in *. set (c := m + border_height uk + qc_maxi (Z2Qc (u_cb uk)) (u_mt ul)) in *. rewrite G2. replace (c + o + border_height ul) with (c + border_height ul + o) by ring.
    rewrite (stack_slide o). set (w := stack (c + border_height ul) (Some (u_cb ul)) (map (laid_kid d inner true) rest)) in *.
    assert (Ew : UNode (move_down (c + o) ul) usl :: map (slide o) w = map (slide o) (UNode (move_down c ul) usl :: w)) by (cbn [map]; rewrite slide_move; reflexivity).
    rewrite Ew. clear Ew. set (w' := UNode (move_down c ul) usl :: w) in *.
    assert (Eo : overlap (move_down m uk) (move_down c ul) = o) by (unfold o, overlap; rewrite move_down_cb; destruct ul; reflexivity).
    destruct (node_slid d a dk s i b (before ++ k :: l :: rest) (q ++ [UNode (move_down m uk) usk]) (q ++ [UNode (move_down m uk) usk; UNode (move_down (m + border_height uk + Z2Qc (u_cb uk)) ue) []]) w' o Di) as (un & vn & N1 & N2 & Gn & Cn).
    { discriminate. }
    { destruct q; reflexivity. }
    { rewrite <- app_assoc. exact IK. }
    rewrite <- !app_assoc in N1, N2. cbn [app] in N1, N2. rewrite N1, N2. eexists. rewrite <- Le. unfold w' in *. rewrite <- Eo in *. eapply parted_here.
    + apply (f_equal (@length _)) in IK. rewrite !map_length in IK. symmetry. exact IK.
    + destruct ue; exact He1.
    + rewrite border_bottom_down, move_down_cb. pose proof (format_upright sty _ _ _ _ _ Fk Bk Pk) as U. unfold upright in U. destruct ue. cbn in He4 |- *. rewrite He4. unfold border_bottom, border_height. rewrite U. ring.
    + exact Gn.
    + exact Cn.
  - destruct (spaced_block _ _ _ R) as [B1 B2].
    assert (St : exists dk, st_display (sty s) = Some dk /\ isinl dk = false /\ stacks_ sty dk (before ++ k :: rest) = true /\ stacks_ sty dk (before' ++ k' :: rest') = true).
    { destruct D as [-> | ->]; eexists; (split; [reflexivity|]); (split; [reflexivity|]); split; apply has_mid; assumption. }
    destruct St as (dk & -> & Di & -> & ->). set (inner := inner_of d a dk (sty s) i).
    pose proof (kids_isnode d inner (before ++ k :: rest)) as IK.
    destruct (kids_app sty d inner true before before' E1) as (q & top & prev & Le & F1 & F2). rewrite F1, F2 in *. clear F1 F2. cbn [map] in *.
    assert (L1 : laid_kid d inner true k = format sty d inner k) by (unfold MoveProps.laid_kid; rewrite B1; reflexivity).
    assert (L2 : laid_kid d inner true k' = format sty d inner k') by (unfold MoveProps.laid_kid; rewrite B2; reflexivity).
    rewrite <- (laid_kids_inputs sty d inner true _ _ E2). rewrite L1, L2 in *. destruct (IH d inner) as [g G].
    destruct (parted_grown _ _ _ _ _ G) as (u & v & us & us' & Ex & Ex' & Gr & Ct). rewrite Ex, Ex' in *. cbn [stack] in *.
    rewrite (same_frame_mt _ _ (proj1 Gr)). set (m := top + match prev with None => 0 | Some z => qc_maxi (Z2Qc z) (u_mt u) end) in *.
    pose proof Gr as (Fr & Eh & Ec). rewrite Ec, (proj1 (same_frame_bh _ _ _ Fr Eh)). replace (m + (border_height u + g)) with (m + border_height u + g) by ring. rewrite (stack_slide g).
    set (w := stack (m + border_height u) (Some (u_cb u)) (map (laid_kid d inner true) rest)) in *.
    destruct (node_grown sty d a dk s i b (before ++ k :: rest) q (UNode (move_down m u) us) (UNode (move_down m v) us') w g Di) as (un & vn & N1 & N2 & Gn).
    { do 4 eexists. split; [reflexivity|]. split; [reflexivity|]. apply grown_down. exact Gr. }
    { exact IK. }
    assert (Cn : u_ct vn = u_ct un).
    { unfold node_of in N1, N2. cbv zeta in N1, N2. injection N1 as <-. injection N2 as <-. cbn [u_ct]. f_equal. destruct q; cbn [app]; [rewrite !move_down_ct; exact Ct|reflexivity]. }
    rewrite N1, N2. eexists. rewrite <- Le. eapply parted_below; [| |apply parted_down, G|exact Gn|exact Cn].
    + cbn [n_kids]. rewrite Le, nth_error_app2, Nat.sub_diag by lia. reflexivity.
    + cbn [n_kids]. apply (f_equal (@length _)) in IK. rewrite !map_length in IK. symmetry. exact IK.
Qed.
(** C175, after any history, for the positions relative to the parents. *)
Theorem C175_empty_block : forall d h5 p (n m n' m' : node), history sty n -> history sty m -> spaced sty p n m ->
  layout sty d h5 n = (n', Ok tt) -> layout sty d h5 m = (m', Ok tt) ->
  exists x y g, shows n' (finished h5 d x) /\ shows m' (finished h5 d y) /\ parted sty p g n x y.
Proof.
  intros d h5 p n m n' m' Hn Hm R Ln Lm. destruct (format_spaced p n m R d (mkArea (Some (nval (disp_width d))) (Some (nval (disp_height d))) 0 0 None)) as [g G].
  exists (draft sty d n), (draft sty d m), g. rewrite <- !page_draft. split; [apply (C122_any_history sty); assumption|]. split; [apply (C122_any_history sty); assumption|exact G].
Qed.
(** New documents: absolute positions too. *)
Theorem C175_absolute : forall d h5 p (n m n' m' : node), boxed n -> boxed m -> spaced sty p n m ->
  layout sty d h5 n = (n', Ok tt) -> layout sty d h5 m = (m', Ok tt) ->
  exists x y g, laid_out_as 0 0 n' (finished h5 d x) /\ laid_out_as 0 0 m' (finished h5 d y) /\ parted sty p g n x y.
Proof.
  intros d h5 p n m n' m' Hn Hm R Ln Lm. destruct (format_spaced p n m R d (mkArea (Some (nval (disp_width d))) (Some (nval (disp_height d))) 0 0 None)) as [g G].
  exists (draft sty d n), (draft sty d m), g. rewrite <- !page_draft.
  split; [apply (C112_every_layout_is_the_reference sty); [apply boxed_ready, Hn|left; exact Hn|exact Ln]|].
  split; [apply (C112_every_layout_is_the_reference sty); [apply boxed_ready, Hm|left; exact Hm|exact Lm]|exact G].
Qed.
End E.
Print Assumptions C175_empty_block.
Print Assumptions C175_absolute.

(** ** Example *)
(** Margins of 9 and 5 px around an empty block, one level down: the second block
    and all that follows move down 5 px, and the empty block is 9 px below the
    first one. *)
Definition sp_a : doc := el (vmargin 2 9 (hpx 10 block_style)) [].
Definition sp_b : doc := el (vmargin 5 3 (hpx 20 block_style)) [].
Definition sp_e : doc := el block_style [].
Definition sp_1 : doc := el (vmargin 4 4 block_style) ([] ++ el block_style ([] ++ sp_a :: sp_b :: [sp_b]) :: [sp_a]).
Definition sp_2 : doc := el (vmargin 4 4 block_style) ([] ++ el block_style ([] ++ sp_a :: sp_e :: sp_b :: [sp_b]) :: [sp_a]).
Example C175_example : history idsty sp_1 /\ history idsty sp_2 /\ boxed sp_1 /\ boxed sp_2 /\ spaced idsty [0; 0]%nat sp_1 sp_2
  /\ layout idsty screen false sp_1 = (out false sp_1, Ok tt) /\ layout idsty screen false sp_2 = (out false sp_2, Ok tt)
  /\ map (fun u => this (u_top u)) (drawn 0 0 (page idsty screen false sp_1)) = [4; 4; 4; 23; 48; 71]%Q
  /\ map (fun u => this (u_top u)) (drawn 0 0 (page idsty screen false sp_2)) = [4; 4; 4; 23; 28; 53; 76]%Q.
Proof.
  split; [apply history_new; solve_new|]. split; [apply history_new; solve_new|]. split; [solve_boxed|]. split; [solve_boxed|]. split.
  { refine (spaced_below idsty [0%nat] (vmargin 4 4 block_style) size0 (Some box0) (Some box0) [] [] _ _ [_] [_] (or_introl eq_refl) eq_refl _ eq_refl).
    refine (spaced_here idsty block_style size0 (Some box0) (Some box0) [] [] sp_a sp_b sp_a sp_b sp_e [_] [_] (or_introl eq_refl) eq_refl eq_refl eq_refl eq_refl eq_refl _ eq_refl _); [discriminate|].
    repeat split; vm_compute; reflexivity. }
  split; [apply ok_layout; vm_compute; reflexivity|]. split; [apply ok_layout; vm_compute; reflexivity|]. split; vm_compute; reflexivity.
Qed.
