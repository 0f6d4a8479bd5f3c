(** * C150: a plain block around blocks moves nothing *)
From Coq Require Import ZArith QArith Qcanon Qround Lia Lqa Bool List.
From Verif Require Import PyNum NumFacts Units BoxModel BoxSpec BoxFacts Engine EnginePure EngineSpec EngineExamples EngineInv EngineTree EngineTotal EngineWidth
  RefLayout RefFacts RefProps HistSpec HistProps MoveSpec MoveProps EdgeSpec EdgeProps LocalSpec LocalProps PushSpec PushProps OkSpec OkProps WrapSpec.
Import ListNotations.
Open Scope Qc_scope.

Lemma len_nothing d p u : nothing u = true -> len d p u = 0.
Proof.
  unfold nothing. rewrite andb_true_iff. intros [_ E]. destruct (qc_eqb_spec (amount (u_val u)) 0) as [Z|Z]; [|discriminate]. unfold len.
  assert (X : exact_len d p u = 0); [|rewrite X; apply Qc_is_canon; reflexivity].
  unfold exact_len. rewrite Z. unfold Qcdiv. destruct (u_kind u) as [|s|s q|s [| | |]| |s q]; ring.
Qed.
Lemma len0_nothing d p v : nothing_or_auto v = true -> len0 d p v = 0.
Proof. destruct v; [reflexivity|apply len_nothing]. Qed.
Lemma border_nothing d p v : no_border v = true -> border_len d p v = 0.
Proof. destruct v; [discriminate|apply len_nothing]. Qed.

(** ** Stacking *)
Definition gap (prev : option Z) (u : used) : Qc := match prev with None => 0 | Some z => qc_maxi (Z2Qc z) (u_mt u) end.
(** Where the next block goes after [xs]. *)
Fixpoint ends (y : Qc) (prev : option Z) (xs : list utree) : Qc * option Z :=
  match xs with
  | [] => (y, prev)
  | UNode u _ :: l => ends (y + gap prev u + border_height u) (Some (u_cb u)) l
  | _ :: l => ends y prev l
  end.
Lemma stack_ends xs : forall y prev rest, stack y prev (xs ++ rest) = stack y prev xs ++ stack (fst (ends y prev xs)) (snd (ends y prev xs)) rest.
Proof. induction xs as [|[u us| |] xs IH]; intros y prev rest; cbn [app stack ends]; [reflexivity|rewrite IH; reflexivity..]. Qed.
Lemma ends_app xs : forall y prev rest, ends y prev (xs ++ rest) = ends (fst (ends y prev xs)) (snd (ends y prev xs)) rest.
Proof. induction xs as [|[u us| |] xs IH]; intros y prev rest; cbn [app ends]; [reflexivity|apply IH..]. Qed.
Lemma stack_start y prev u us l : stack y prev (UNode u us :: l) = stack (y + gap prev u) None (UNode u us :: l).
Proof. cbn [stack]. fold (gap prev u). replace (y + gap prev u + 0) with (y + gap prev u) by ring. reflexivity. Qed.
Definition upright (u : used) : Prop := u_top u = u_bt u + u_pt u.
Lemma stack_last l y prev u us : upright u -> exists k, last_kid (stack y prev (l ++ [UNode u us])) = Some k
  /\ border_bottom k = fst (ends y prev (l ++ [UNode u us])) /\ Some (u_cb k) = snd (ends y prev (l ++ [UNode u us])).
Proof.
  intros U. rewrite stack_ends, ends_app. destruct (ends y prev l) as [z p]. cbn [fst snd stack ends].
  rewrite last_kid_app. eexists. split; [reflexivity|]. fold (gap p u). rewrite border_bottom_down, move_down_cb. split; [|reflexivity].
  unfold border_bottom, border_height. rewrite U. ring.
Qed.
Lemma last_slide t l : l <> [] -> (forall x, In x l -> exists u us, x = UNode u us) -> forall k, last_kid l = Some k -> last_kid (map (slide t) l) = Some (move_down t k).
Proof.
  intros N A k. destruct (exists_last N) as (q & x & ->). destruct (A x) as (u & us & ->); [apply in_or_app; right; left; reflexivity|].
  rewrite map_app. cbn [map slide]. rewrite !last_kid_app. cbn. intros E. injection E as <-. reflexivity.
Qed.
Lemma stack_nodes l : forall y prev, (forall x, In x l -> exists u us, x = UNode u us) -> forall x, In x (stack y prev l) -> exists u us, x = UNode u us.
Proof.
  induction l as [|z l IH]; intros y prev A x I; [destruct I|]. destruct (A z) as (u & us & ->); [left; reflexivity|]. cbn [stack] in I. destruct I as [<- |I]; [eauto|].
  eapply IH; [|exact I]. intros w W. apply A. right. exact W.
Qed.
Lemma node_same d a dk s i st K K' :
  match K with UNode u _ :: _ => u_ct u | _ => 0%Z end = match K' with UNode u _ :: _ => u_ct u | _ => 0%Z end ->
  (exists k k', last_kid K = Some k /\ last_kid K' = Some k' /\ border_bottom k = border_bottom k' /\ u_cb k = u_cb k') ->
  exists u, node_of d a dk s i st K = UNode u K /\ node_of d a dk s i st K' = UNode u K'.
Proof.
  intros Ect (k & k' & L & L' & Bb & Cb). unfold node_of. cbv zeta. eexists. split; [reflexivity|]. rewrite <- Ect, L, L'.
  assert (Eh : hgt d a dk s i (Some k') = hgt d a dk s i (Some k)) by (unfold hgt, used_block_height; rewrite Bb; reflexivity).
  rewrite Eh, Cb. reflexivity.
Qed.

(** ** Trees with and without the wrapper *)
Inductive unwrap : utree -> utree -> Prop :=
| un_here u r ys w z : bare w -> u_left w = 0 -> unwrap (UNode u (r ++ map (slide (u_top w)) ys ++ z)) (UNode u (r ++ UNode w ys :: z))
| un_below u r x y z : unwrap x y -> unwrap (UNode u (r ++ x :: z)) (UNode u (r ++ y :: z))
| un_away t : t = UHidden \/ t = USkipped -> unwrap t t.
Lemma unwrap_same u us v vs : unwrap (UNode u us) (UNode v vs) -> u = v.
Proof. intros H. inversion H; reflexivity. Qed.
Lemma unwrap_other u us u' us' : unwrap (UNode u us) (UNode u us') -> unwrap (UNode u' us) (UNode u' us').
Proof. intros H. inversion H as [? ? ? ? ? B L E1 E2|? ? ? ? ? M|? [E|E]]; subst; [apply un_here; assumption|apply un_below; assumption|discriminate..]. Qed.

Section W.
Context {S : Type} (sty : S -> style).
Notation node := (node S).
Notation laid_kid := (MoveProps.laid_kid sty).

Lemma format_extents d a (n : node) u us : format sty d a n = UNode u us -> (0 <= u_ct u)%Z /\ (0 <= u_cb u)%Z.
Proof.
  destruct n as [s i bx ks]. rewrite format_split. destruct (st_display (sty s)) as [dk|]; [|discriminate]. unfold node_of. cbv zeta. intros E. injection E as <- _. cbn [u_ct u_cb].
  pose proof (whole_nonneg (len0 d (or0 (a_h a)) (st_margin_top (sty s)))). pose proof (whole_nonneg (or0 (bottoms d a dk (sty s) i))).
  split; [lia|]. destruct (st_height (sty s)); [|assumption]. destruct (last_kid _); [|assumption]. destruct (isinl dk); [assumption|lia].
Qed.
Lemma format_upright d a (n : node) u us : format sty d a n = UNode u us -> block_level (sty (n_style n)) = true -> st_position (sty (n_style n)) <> PRelative -> upright u.
Proof.
  destruct n as [s i bx ks]. cbn [n_style]. rewrite format_split. unfold block_level. destruct (st_display (sty s)) as [dk|]; [|discriminate]. unfold node_of. cbv zeta. intros E Bl P. injection E as <- _.
  unfold upright. cbn [u_top u_bt u_pt]. assert (R : isrel (sty s) = false) by (unfold isrel; destruct (st_position (sty s)); try reflexivity; contradiction). rewrite R.
  unfold edges. assert (I : isinl dk = false) by (destruct dk; try reflexivity; discriminate). rewrite I. ring.
Qed.
Lemma format_mt d a (n : node) u us : format sty d a n = UNode u us -> u_mt u = len0 d (or0 (a_h a)) (st_margin_top (sty (n_style n))).
Proof. destruct n as [s i bx ks]. cbn [n_style]. rewrite format_split. destruct (st_display (sty s)) as [dk|]; [|discriminate]. unfold node_of. cbv zeta. intros E. injection E as <- _. reflexivity. Qed.
Lemma format_node d a (n : node) : block_level (sty (n_style n)) = true -> exists u us, format sty d a n = UNode u us.
Proof. destruct n as [s i bx ks]. cbn [n_style]. rewrite format_split. unfold block_level. destruct (st_display (sty s)); [|discriminate]. intros _. unfold node_of. cbv zeta. eauto. Qed.

(** A plain block around [group], in an area without height. *)
Lemma format_plain d w l t sp ws wi wb (group : list node) G : plain (sty ws) -> group <> [] -> (forall k, In k group -> block_level (sty (n_style k)) = true) ->
  map (format sty d (mkArea (Some w) (Some 0) 0 0 None)) group = G ->
  (exists q u us, G = q ++ [UNode u us] /\ upright u /\ (0 <= u_cb u)%Z) -> (exists u us q, G = UNode u us :: q /\ (0 <= u_ct u)%Z) ->
  exists uw, format sty d (mkArea (Some w) (Some 0) l t sp) (Node ws wi wb group) = UNode uw (stack 0 None G) /\ bare uw /\ u_left uw = 0 /\ u_top uw = 0
    /\ border_height uw = fst (ends 0 None G) /\ border_bottom uw = fst (ends 0 None G) /\ Some (u_cb uw) = snd (ends 0 None G)
    /\ u_ct uw = match G with UNode u _ :: _ => u_ct u | _ => 0%Z end.
Proof.
  intros (P1 & P2 & P3 & P4 & P5 & P6 & P7 & P8) Ng Bl EG (q & ul & usl & Eq & Ul & Cl) (u1 & us1 & q1 & Eq1 & C1).
  cbn [forallb] in P6, P7, P8. repeat rewrite andb_true_iff in P6. repeat rewrite andb_true_iff in P7. repeat rewrite andb_true_iff in P8.
  destruct P6 as (M1 & M2 & M3 & M4 & _). destruct P7 as (B1 & B2 & B3 & B4 & _). destruct P8 as (D1 & D2 & D3 & D4 & _).
  rewrite format_split, P1. set (a := mkArea (Some w) (Some 0) l t sp). set (s := sty ws) in *.
  assert (R : isrel s = false) by (unfold isrel; rewrite P2; reflexivity).
  assert (St : stacks_ sty DBlock group = true).
  { unfold stacks_. apply existsb_exists. destruct group as [|k g]; [contradiction|]. exists k. split; [left; reflexivity|apply Bl; left; reflexivity]. }
  rewrite St.
  assert (He : hedges d 0 s = 0).
  { unfold hedges. rewrite (border_nothing d 0 _ B4), (border_nothing d 0 _ B2), (len_nothing d 0 _ D4), (len_nothing d 0 _ D2). ring. }
  assert (Wm : wmargins d a DBlock s wi = (Some w, 0, 0)).
  { unfold wmargins, a. cbn [a_w a_h or0 isinl]. rewrite He. unfold widths. rewrite P4, (len0_nothing d w _ M4), (len0_nothing d w _ M2). do 3 f_equal. ring. }
  assert (Lf : lefts d a DBlock s wi = 0).
  { unfold lefts. cbn [isinl andb]. rewrite Wm. cbn [fst snd]. unfold a. cbn [a_h or0]. rewrite (border_nothing d 0 _ B4), (len_nothing d 0 _ D4). ring. }
  assert (Ed : edges d a DBlock s = 0).
  { unfold edges, a. cbn [isinl a_w or0]. rewrite (border_nothing d w _ B1), (len_nothing d w _ D1). ring. }
  assert (In_ : inner_of d a DBlock s wi = mkArea (Some w) (Some 0) 0 0 None).
  { unfold inner_of. rewrite Wm, Lf, R, P5. reflexivity. }
  rewrite In_.
  assert (K : kids_of sty d (mkArea (Some w) (Some 0) 0 0 None) true group = stack 0 None G).
  { unfold kids_of. f_equal. rewrite <- EG. apply map_ext_in. intros k I. unfold MoveProps.laid_kid. rewrite (Bl k I). reflexivity. }
  rewrite K. destruct (stack_last q 0 None ul usl Ul) as (k & Lk & Bk & Ck). rewrite <- Eq in Lk, Bk, Ck.
  assert (Ckn : (0 <= u_cb k)%Z).
  { rewrite Eq, ends_app in Ck. cbn [ends snd] in Ck. injection Ck as ->. exact Cl. }
  assert (Hb : bottoms d a DBlock s wi = Some 0).
  { unfold bottoms, a. cbn [isinl andb a_h or0]. rewrite (len0_nothing d 0 _ M3). reflexivity. }
  assert (Hg : hgt d a DBlock s wi (Some k) = Some (fst (ends 0 None G))).
  { unfold hgt. cbn [isinl]. unfold used_block_height, spec_height. rewrite P5, Bk. reflexivity. }
  unfold node_of. cbv zeta. rewrite Hb, R, P5, Lk, Wm, Hg, Lf, Ed. cbn [fst snd isinl or0]. unfold a. cbn [a_w a_h or0].
  rewrite (len0_nothing d 0 _ M1), (border_nothing d w _ B1), (border_nothing d 0 _ B2), (border_nothing d w _ B3), (border_nothing d 0 _ B4),
    (len_nothing d w _ D1), (len_nothing d 0 _ D2), (len_nothing d w _ D3), (len_nothing d 0 _ D4), whole_px_0.
  eexists. split; [reflexivity|]. unfold bare. cbn [u_mt u_mr u_mb u_ml u_bt u_br u_bb u_bl u_pt u_pr u_pb u_pl u_left u_top u_ct u_cb].
  split; [auto|]. split; [ring|]. split; [ring|]. unfold border_height, border_bottom. cbn [u_bt u_pt u_h u_pb u_bb u_top or0]. split; [ring|]. split; [ring|]. split.
  - rewrite <- Ck. f_equal. lia.
  - rewrite Eq1. cbn [stack]. destruct u1. cbn in *. lia.
Qed.

Lemma wrapped_style (n m : node) : wrapped sty n m -> n_style m = n_style n.
Proof. intros H. inversion H; reflexivity. Qed.

Theorem format_wrapped (n m : node) : wrapped sty n m -> forall d a, unwrap (format sty d a n) (format sty d a m).
Proof.
  induction 1 as [s i b b' before before' group group' rest rest' ws wi wb E1 E2 E3 Pl Rp Ds Ps Ng Mv Fi La|s i b b' before before' k k' rest rest' E1 W IH E3]; intros d a; rewrite !format_split.
  - assert (Dd : exists dk, st_display (sty s) = Some dk /\ (dk = DBlock \/ dk = DListItem)) by (destruct Ds as [Ds|Ds]; rewrite Ds; eauto).
    destruct Dd as (dk & Dk & Dd). rewrite Dk.
    assert (R : isrel (sty s) = false) by (unfold isrel; destruct (st_position (sty s)); try reflexivity; contradiction).
    assert (Ii : isinl dk = false) by (destruct Dd as [-> | ->]; reflexivity).
    assert (Bw : block_level (sty ws) = true) by (unfold block_level; rewrite (proj1 Pl); reflexivity).
    assert (Bl : forall k, In k group -> block_level (sty (n_style k)) = true) by (intros k I; apply (Mv k I)).
    assert (St1 : stacks_ sty dk (before ++ group ++ rest) = true).
    { assert (X : existsb (fun k => block_level (sty (n_style k))) (before ++ group ++ rest) = true); [|destruct Dd as [-> | ->]; exact X].
      apply existsb_exists. destruct group as [|k g]; [contradiction|]. exists k. split; [apply in_or_app; right; left; reflexivity|apply Bl; left; reflexivity]. }
    assert (St2 : stacks_ sty dk (before' ++ Node ws wi wb group' :: rest') = true).
    { assert (X : existsb (fun k => block_level (sty (n_style k))) (before' ++ Node ws wi wb group' :: rest') = true); [|destruct Dd as [-> | ->]; exact X].
      apply existsb_exists. eexists. split; [apply in_or_app; right; left; reflexivity|exact Bw]. }
    rewrite St1, St2. set (inner := inner_of d a dk (sty s) i).
    assert (Inn : exists w l, inner = mkArea (Some w) (Some 0) l 0 (match st_height (sty s) with Auto => None | Len u => Some u end)).
    { unfold inner, inner_of. rewrite R. unfold wmargins. rewrite Ii. destruct (widths d (or0 (a_w a)) (hedges d (or0 (a_h a)) (sty s)) (sty s)) as [[x y] z]. cbn [fst]. eauto. }
    destruct Inn as (w & lf & Inn). clearbody inner.
    set (lk := laid_kid d inner true). set (G := map lk group).
    assert (EG : map (format sty d (mkArea (Some w) (Some 0) 0 0 None)) group' = G).
    { unfold G. transitivity (map (format sty d (mkArea (Some w) (Some 0) 0 0 None)) group).
      - clear -E2. revert group' E2. induction group as [|k g IH]; intros [|k' g'] E; try discriminate; [reflexivity|]. cbn [map] in *. injection E as E1 E2. rewrite (IH _ E2). f_equal.
        symmetry. apply format_inputs, E1.
      - apply map_ext_in. intros k I. unfold lk, MoveProps.laid_kid. rewrite (Bl k I). cbn [andb negb]. rewrite Inn. destruct (Mv k I) as (_ & O & Hh). symmetry.
        apply format_around; [exact O|]. destruct Hh as [Hh|Hh]; [left; exact Hh|right; rewrite Hh; reflexivity]. }
    assert (Bl' : forall k, In k group' -> block_level (sty (n_style k)) = true).
    { clear -E2 Bl. revert group' E2. induction group as [|k g IH]; intros [|k' g'] E; try discriminate; [intros k []|]. cbn [map] in E. injection E as E1 E2. intros x [<- |I].
      - rewrite <- (inputs_style k k' E1). apply Bl. left. reflexivity.
      - apply (IH (fun y J => Bl y (or_intror J)) g' E2 x I). }
    assert (Ng' : group' <> []) by (intros ->; destruct group; [contradiction|discriminate]).
    assert (GN : forall x, In x G -> exists u us, x = UNode u us).
    { intros x I. apply in_map_iff in I. destruct I as (k & <- & I). unfold lk, MoveProps.laid_kid. rewrite (Bl k I). apply format_node, Bl, I. }
    assert (Hd : exists k1 g1 u1 us1 q, group = k1 :: g1 /\ G = UNode u1 us1 :: q /\ (0 <= u_ct u1)%Z /\ u_mt u1 = len0 d 0 (st_margin_top (sty (n_style k1)))).
    { destruct group as [|k1 g1]; [contradiction|]. destruct (format_node d inner k1) as (u1 & us1 & F); [apply Bl; left; reflexivity|]. exists k1, g1, u1, us1, (map lk g1). split; [reflexivity|].
      split; [unfold G, lk; cbn [map]; unfold MoveProps.laid_kid at 1; rewrite (Bl k1 (or_introl eq_refl)); cbn [andb negb]; rewrite F; reflexivity|].
      split; [apply (proj1 (format_extents _ _ _ _ _ F))|]. rewrite (format_mt _ _ _ _ _ F), Inn. reflexivity. }
    destruct Hd as (k1 & g1 & u1 & us1 & q1 & Eg & EG1 & C1 & Mt1).
    assert (Tl : exists q ul usl, G = q ++ [UNode ul usl] /\ upright ul /\ (0 <= u_cb ul)%Z).
    { destruct (exists_last Ng) as (gq & kl & El). destruct (format_node d inner kl) as (ul & usl & F); [apply Bl; rewrite El; apply in_or_app; right; left; reflexivity|].
      assert (Bkl : block_level (sty (n_style kl)) = true) by (apply Bl; rewrite El; apply in_or_app; right; left; reflexivity).
      exists (map lk gq), ul, usl. split; [unfold G; rewrite El, map_app; unfold lk at 2, MoveProps.laid_kid; cbn [map]; rewrite Bkl; cbn [andb negb]; rewrite F; reflexivity|].
      split; [eapply format_upright; [exact F|exact Bkl|apply (La gq kl El)]|apply (proj2 (format_extents _ _ _ _ _ F))]. }
    destruct (format_plain d w lf 0 (match st_height (sty s) with Auto => None | Len u => Some u end) ws wi wb group' G Pl Ng' Bl' EG Tl) as (uw & Fw & Bare & Lw & Tw & Bh & Bb & Cb & Ct).
    { exists u1, us1, q1. auto. }
    assert (Lw' : lk (Node ws wi wb group') = UNode uw (stack 0 None G)).
    { unfold lk, MoveProps.laid_kid. cbn [n_style]. rewrite Bw. cbn [andb negb]. rewrite Inn. exact Fw. }
    unfold kids_of. fold lk. rewrite !map_app. cbn [map]. fold G. rewrite Lw'. unfold lk. rewrite <- (laid_kids_inputs sty d inner true _ _ E1), <- (laid_kids_inputs sty d inner true _ _ E3). fold lk.
    set (B := map lk before). set (Rr := map lk rest). rewrite !(stack_ends B). set (e := ends 0 None B). set (r := stack 0 None B).
    assert (Gp : gap (snd e) uw = gap (snd e) u1).
    { destruct (snd e) as [z|] eqn:Ez; [|reflexivity]. unfold gap. f_equal. destruct Bare as (Bm & _). injection Bm as -> _ _ _. rewrite Mt1.
      destruct (Fi k1 g1 Eg) as [-> |N]; [unfold e in Ez; cbn in Ez; discriminate|]. symmetry. apply len0_nothing, N. }
    set (T := fst e + gap (snd e) u1).
    assert (S1 : stack (fst e) (snd e) (G ++ Rr) = map (slide T) (stack 0 None G) ++ stack (fst (ends 0 None G) + T) (snd (ends 0 None G)) Rr).
    { rewrite EG1 at 1. cbn [app]. rewrite stack_start. fold T. rewrite app_comm_cons, <- EG1. replace T with (0 + T) at 1 by ring. rewrite stack_slide, stack_ends, map_app. f_equal. symmetry. apply stack_slide. }
    assert (S2 : stack (fst e) (snd e) (UNode uw (stack 0 None G) :: Rr) = UNode (move_down T uw) (stack 0 None G) :: stack (fst (ends 0 None G) + T) (snd (ends 0 None G)) Rr).
    { cbn [stack]. fold (gap (snd e) uw). rewrite Gp. fold T. rewrite Bh, Cb. do 2 f_equal. ring. }
    rewrite S1, S2. set (ys := stack 0 None G) in *. set (z := stack _ _ Rr).
    assert (Ln : exists k, last_kid ys = Some k /\ border_bottom k = fst (ends 0 None G) /\ Some (u_cb k) = snd (ends 0 None G)).
    { destruct Tl as (q & ul & usl & EGq & Uq & _). unfold ys. rewrite EGq. apply stack_last, Uq. }
    destruct Ln as (k & Lk & Bk & Ck).
    assert (Yn : ys <> []) by (unfold ys; rewrite EG1; discriminate).
    destruct (node_same d a dk (sty s) i true (r ++ map (slide T) ys ++ z) (r ++ UNode (move_down T uw) ys :: z)) as (u & N1 & N2).
    + destruct r as [|x r]; [|reflexivity]. cbn [app]. unfold ys at 1. rewrite EG1. cbn [stack map app slide]. destruct u1, uw. cbn in *. rewrite Ct, EG1. reflexivity.
    + destruct z as [|x z].
      * rewrite app_nil_r. exists (move_down T k), (move_down T uw). split.
        { destruct (exists_last Yn) as (yq & yl & Ey). pose proof (last_slide T ys Yn (stack_nodes G 0 None GN) k Lk) as X. rewrite Ey in *. rewrite map_app in *. cbn [map] in *. rewrite last_kid_app in X. rewrite app_assoc, last_kid_app. exact X. }
        split; [rewrite last_kid_app; reflexivity|]. rewrite !border_bottom_down, !move_down_cb, Bk, Bb. split; [reflexivity|]. congruence.
      * destruct (last_kid (x :: z)) as [kz|] eqn:Ez; [|unfold last_kid in Ez; cbn in Ez; destruct (rev z ++ [x]) as [|[]] eqn:X; try discriminate; destruct (rev z); discriminate].
        exists kz, kz. split; [rewrite app_assoc, last_kid_app; exact Ez|]. split; [|auto].
        replace (r ++ UNode (move_down T uw) ys :: x :: z) with ((r ++ [UNode (move_down T uw) ys]) ++ x :: z) by (rewrite <- app_assoc; reflexivity). rewrite last_kid_app. exact Ez.
    + rewrite N1, N2. assert (Et : u_top (move_down T uw) = T) by (destruct uw; cbn in *; rewrite Tw; ring). rewrite <- Et at 1. apply un_here.
      * destruct uw. exact Bare.
      * destruct uw. exact Lw.
  - destruct (st_display (sty s)) as [dk|]; [|apply un_away; auto]. pose proof (wrapped_style _ _ W) as Es.
    assert (St : stacks_ sty dk (before' ++ k' :: rest') = stacks_ sty dk (before ++ k :: rest)).
    { apply stacks_has. destruct dk; try exact I; apply has_block_swap; auto; rewrite Es; reflexivity. }
    rewrite St. set (st := stacks_ sty dk (before ++ k :: rest)) in *. set (inner := inner_of d a dk (sty s) i).
    destruct (kids_app sty d inner st before before' E1) as (q & top & prev & Le & F1 & F2). rewrite F1, F2. clear F1 F2. cbn [map].
    assert (Lk : unwrap (laid_kid d inner st k) (laid_kid d inner st k')).
    { unfold MoveProps.laid_kid. rewrite Es. destruct (_ && _); [apply un_away; auto|apply IH]. }
    set (x := laid_kid d inner st k) in *. set (x' := laid_kid d inner st k') in *. rewrite <- (laid_kids_inputs sty d inner st _ _ E3). set (z := map (laid_kid d inner st) rest).
    assert (K : exists y y' w, (if st then stack top prev (x :: z) else x :: z) = y :: w /\ (if st then stack top prev (x' :: z) else x' :: z) = y' :: w /\ unwrap y y').
    { destruct st; [|exists x, x', z; auto].
      destruct x as [u us| |], x' as [v us'| |]; try (inversion Lk; fail); cbn [stack].
      - pose proof (unwrap_same _ _ _ _ Lk) as <-. do 3 eexists. split; [reflexivity|]. split; [reflexivity|]. eapply unwrap_other, Lk.
      - exists UHidden, UHidden, (stack top prev z). auto.
      - exists USkipped, USkipped, (stack top prev z). auto. }
    destruct K as (y & y' & w & -> & -> & Ky).
    assert (Hy : (exists u us us', y = UNode u us /\ y' = UNode u us') \/ y = y').
    { inversion Ky; subst; [left; eauto|left; eauto|right; reflexivity]. }
    destruct (node_same d a dk (sty s) i st (q ++ y :: w) (q ++ y' :: w)) as (u & N1 & N2).
    + destruct q; [|reflexivity]. cbn [app]. destruct Hy as [(u & us & us' & -> & ->)| ->]; reflexivity.
    + rewrite !last_kid_app. destruct w as [|x0 w0].
      * destruct Hy as [(u & us & us' & -> & ->)| ->]; [exists u, u; auto|]. destruct y' as [u us| |]; cbn; [exists u, u|exists used0, used0|exists used0, used0]; auto.
      * change (y :: x0 :: w0) with ([y] ++ x0 :: w0). change (y' :: x0 :: w0) with ([y'] ++ x0 :: w0). rewrite !last_kid_app.
        destruct (last_kid (x0 :: w0)) as [kz|] eqn:Ez; [exists kz, kz; auto|]. unfold last_kid in Ez; cbn in Ez; destruct (rev w0 ++ [x0]) as [|[]] eqn:X; try discriminate; destruct (rev w0); discriminate.
    + rewrite N1, N2. apply un_below, Ky.
Qed.

(** ** What is drawn *)
Lemma absolute_slide x y t u : absolute x y (move_down t u) = absolute x (y + t) u.
Proof. destruct u. cbn [move_down absolute]. f_equal. ring. Qed.
Lemma drawn_slide x y t k : drawn x y (slide t k) = drawn x (y + t) k.
Proof.
  destruct k as [u us| |]; [|reflexivity..]. cbn [slide drawn]. rewrite absolute_slide.
  assert (E1 : u_left (move_down t u) = u_left u) by (destruct u; reflexivity). assert (E2 : u_top (move_down t u) = u_top u + t) by (destruct u; reflexivity). rewrite E1, E2.
  replace (y + (u_top u + t)) with (y + t + u_top u) by ring. reflexivity.
Qed.
Lemma drawn_slides x y t l : flat_map (drawn x y) (map (slide t) l) = flat_map (drawn x (y + t)) l.
Proof. induction l as [|k l IH]; [reflexivity|]. cbn [map flat_map]. rewrite drawn_slide, IH. reflexivity. Qed.
Lemma bare_absolute x y u : bare u -> bare (absolute x y u).
Proof. destruct u. exact (fun H => H). Qed.
Lemma one_more_in p q l l' : one_more l l' -> one_more (p ++ l ++ q) (p ++ l' ++ q).
Proof.
  intros (l1 & l2 & -> & H). exists (p ++ l1), (l2 ++ q). split; [rewrite <- !app_assoc; reflexivity|].
  destruct H as [-> |(u & B & ->)]; [left; rewrite <- !app_assoc; reflexivity|right; exists u; split; [exact B|rewrite <- !app_assoc; reflexivity]].
Qed.
Lemma one_more_same l : one_more l l.
Proof. exists l, []. rewrite app_nil_r. auto. Qed.
Lemma unwrap_drawn t t' : unwrap t t' -> forall x y, one_more (drawn x y t) (drawn x y t').
Proof.
  induction 1 as [u r ys w z B L|u r k k' z U IH|t A]; intros x y; [| |apply one_more_same]; cbn [drawn]; rewrite !flat_map_app; cbn [flat_map].
  - set (x' := x + u_left u). set (y' := y + u_top u). rewrite drawn_slides. rewrite app_comm_cons. set (p := absolute x y u :: _).
    exists p, (flat_map (drawn x' (y' + u_top w)) ys ++ flat_map (drawn x' y') z). split; [reflexivity|]. right. exists (absolute x' y' w). split; [apply bare_absolute, B|].
    unfold p. cbn [app]. do 3 f_equal. cbn [drawn app]. rewrite L. replace (x' + 0) with x' by ring. reflexivity.
  - rewrite !app_comm_cons. apply one_more_in, IH.
Qed.
Lemma page_wrapped (n m : node) d h5 : wrapped sty n m -> unwrap (page sty d h5 n) (page sty d h5 m).
Proof.
  intros W. unfold page. pose proof (format_wrapped n m W d (mkArea (Some (nval (disp_width d))) (Some (nval (disp_height d))) 0 0 None)) as U.
  destruct (format sty d _ n) as [u us| |], (format sty d _ m) as [v us'| |]; try (inversion U; fail).
  - pose proof (unwrap_same _ _ _ _ U) as <-. destruct u. eapply unwrap_other, U.
  - apply un_away. auto.
  - apply un_away. auto.
Qed.
(** C150: new documents. *)
Theorem C150_wrapper : forall d h5 (n m n' m' : node), boxed n -> boxed m -> wrapped sty n m ->
  layout sty d h5 n = (n', Ok tt) -> layout sty d h5 m = (m', Ok tt) ->
  exists t t', laid_out_as 0 0 n' t /\ laid_out_as 0 0 m' t' /\ one_more (drawn 0 0 t) (drawn 0 0 t').
Proof.
  intros d h5 n m n' m' Bn Bm W Ln Lm. exists (page sty d h5 n), (page sty d h5 m).
  split; [apply (C112_every_layout_is_the_reference sty); [apply boxed_ready, Bn|left; exact Bn|exact Ln]|].
  split; [apply (C112_every_layout_is_the_reference sty); [apply boxed_ready, Bm|left; exact Bm|exact Lm]|]. apply unwrap_drawn, page_wrapped, W.
Qed.
(** After any history of changes and layouts, for the positions relative to the
    containing blocks. *)
Theorem C150_any_history : forall d h5 (n m n' m' : node), history sty n -> history sty m -> wrapped sty n m ->
  layout sty d h5 n = (n', Ok tt) -> layout sty d h5 m = (m', Ok tt) ->
  exists t t', shows n' t /\ shows m' t' /\ one_more (drawn 0 0 t) (drawn 0 0 t').
Proof.
  intros d h5 n m n' m' Hn Hm W Ln Lm. exists (page sty d h5 n), (page sty d h5 m).
  split; [apply (C122_any_history sty); assumption|]. split; [apply (C122_any_history sty); assumption|]. apply unwrap_drawn, page_wrapped, W.
Qed.

(** ** Success *)
Lemma can_lay_children s i b b' (ks ks' : list node) : Forall2 (fun k k' => alike k k' /\ some (n_box k') = some (n_box k) /\ forall a, can_lay sty a k' = can_lay sty a k) ks ks' ->
  forall a, can_lay sty a (Node s i b' ks') = can_lay sty a (Node s i b ks).
Proof.
  intros F a. cbn [can_lay]. destruct (st_display (sty s)) as [dk|]; [|reflexivity]. destruct (kind_of (sty s) i) as [kd|]; [|reflexivity].
  assert (Fa : Forall2 alike ks ks') by (clear -F; induction F as [|k k' l l' H F IH]; constructor; [apply H|exact IH]). rewrite (exists_alike sty _ _ Fa), (first_alike sty _ _ Fa).
  assert (L1 : last_boxed ks' = last_boxed ks).
  { unfold last_boxed. apply Forall2_rev_ in F. inversion F as [|k k' r r' Hk]; [reflexivity|]. destruct Hk as (_ & -> & _). reflexivity. }
  assert (L2 : forall st, last_sized sty st ks' = last_sized sty st ks).
  { intros st. unfold last_sized. apply Forall2_rev_ in F. inversion F as [|k k' r r' Hk]; [reflexivity|]. unfold block_child. destruct Hk as ((-> & ->) & -> & _). reflexivity. }
  rewrite L1, L2. set (inner := mkAround _ _ false _).
  assert (G : forallb (can_lay sty inner) ks' = forallb (can_lay sty inner) ks
    /\ forallb (fun k => if block_child sty k then can_lay sty inner k else true) ks' = forallb (fun k => if block_child sty k then can_lay sty inner k else true) ks).
  { clear -F. induction F as [|k k' ks ks' (Ha & _ & Hk) F [I1 I2]]; [split; reflexivity|]. cbn [forallb]. rewrite I1, I2, (block_child_alike sty k k' Ha), Hk. split; reflexivity. }
  destruct G as [-> ->]. reflexivity.
Qed.
Lemma inputs_same (n : node) : forall m, inputs n = inputs m -> boxed n -> boxed m -> same_boxes n m.
Proof.
  induction n as [s i bx ks IH] using node_ind'. intros [s' i' bx' ks'] E Bn Bm. cbn [inputs] in E. injection E as -> -> E. inversion Bn as [? ? ? ? Kn]; subst. inversion Bm as [? ? ? ? Km]; subst.
  constructor; [reflexivity|]. clear Bn Bm. revert ks' E Km. induction ks as [|k ks IHk]; intros [|k' ks'] E Km; try discriminate; constructor.
  - cbn [map] in E. injection E as E _. apply IH; [left; reflexivity|exact E|apply Kn; left; reflexivity|apply Km; left; reflexivity].
  - cbn [map] in E. injection E as _ E. apply IHk; [intros; apply IH; [right|..]; assumption|intros; apply Kn; right; assumption|exact E|intros; apply Km; right; assumption].
Qed.
Lemma inputs_sames (ks : list node) : forall ks', map inputs ks = map inputs ks' -> (forall k, In k ks -> boxed k) -> (forall k, In k ks' -> boxed k) -> Forall2 same_boxes ks ks'.
Proof.
  induction ks as [|k ks IH]; intros [|k' ks'] E A B; try discriminate; constructor.
  - cbn [map] in E. injection E as E _. apply inputs_same; [exact E|apply A; left; reflexivity|apply B; left; reflexivity].
  - cbn [map] in E. injection E as _ E. apply IH; [exact E|intros; apply A; right; assumption|intros; apply B; right; assumption].
Qed.
Lemma same_fine (ks ks' : list node) : Forall2 same_boxes ks ks' -> Forall2 (fun k k' => alike k k' /\ some (n_box k') = some (n_box k) /\ forall a, can_lay sty a k' = can_lay sty a k) ks ks'.
Proof. induction 1 as [|k k' l l' H F IH]; constructor; [|exact IH]. destruct (same_style _ _ H) as (E1 & E2 & E3). split; [split; assumption|]. split; [exact E3|]. intros a. apply can_lay_same, H. Qed.
Lemma measurable_known b u : measurable b u = true -> measurable true u = true.
Proof. unfold measurable. destruct (finite (u_val u)); [|discriminate]. cbn [andb]. destruct (u_kind u); auto. Qed.
Lemma height_measurable a s l : height_ok a Block s l = true -> match st_height s with Len u => measurable true u | Auto => true end = true.
Proof.
  unfold height_ok. destruct (st_height s) as [|u]; [reflexivity|]. rewrite andb_true_iff. intros [H _]. destruct (spec_h a); [apply andb_prop in H; apply H|].
  eapply measurable_known, H.
Qed.
Lemma can_lay_spec (k : node) p : match p with Some u => measurable true u | None => true end = true ->
  can_lay sty (mkAround true true false p) k = can_lay sty (mkAround true true false None) k.
Proof.
  destruct p as [u|]; [|reflexivity]. intros M. destruct k as [s i bx ks]. cbn [can_lay]. destruct (st_display (sty s)) as [dk|]; [|reflexivity]. destruct (kind_of (sty s) i) as [kd|]; [|reflexivity].
  assert (H : forall l, height_ok (mkAround true true false (Some u)) kd (sty s) l = height_ok (mkAround true true false None) kd (sty s) l).
  { intros l. unfold height_ok. cbn [spec_h h_known]. rewrite M. reflexivity. }
  rewrite !H. reflexivity.
Qed.
Lemma block_kind s i kd : block_level s = true -> kind_of s i = Some kd -> kd = Block.
Proof.
  unfold block_level, kind_of. destruct (st_float s); [discriminate|]. destruct (st_display s) as [[]|]; intros H; try discriminate; destruct (st_position s), (s_replaced i); intros E; try discriminate; injection E as <-; reflexivity.
Qed.
Lemma last_block l (k : node) a : block_level (sty (n_style k)) = true -> can_lay sty a k = true -> last_sized sty true (l ++ [k]) = Some true.
Proof.
  intros B C. unfold last_sized. rewrite rev_app_distr. cbn [rev app]. destruct k as [s i bx ks]. cbn [n_style n_intr] in *. cbn [can_lay] in C.
  unfold block_child. cbn [n_style]. unfold block_level in B. destruct (st_display (sty s)) as [dk|] eqn:D; [|discriminate].
  assert (X : match dk with DBlock | DListItem | DTable => true | _ => false end = true) by exact B. rewrite X. cbn [negb andb].
  destruct (kind_of (sty s) i) as [kd|] eqn:K; [|discriminate]. assert (B' : block_level (sty s) = true) by (unfold block_level; rewrite D; exact B). rewrite (block_kind _ _ _ B' K). reflexivity.
Qed.
Lemma first_blocks (g : list node) r : (forall k, In k g -> block_child sty k = true) -> blocks_first sty (g ++ r) = blocks_first sty r.
Proof. induction g as [|k g IH]; intros A; [reflexivity|]. cbn [app blocks_first]. rewrite (A k (or_introl eq_refl)). apply IH. intros x I. apply A. right. exact I. Qed.
Lemma first_around l (g g' r r' : list node) : g <> [] -> g' <> [] -> (forall k, In k g -> block_child sty k = true) -> (forall k, In k g' -> block_child sty k = true) ->
  blocks_first sty r' = blocks_first sty r -> blocks_first sty (l ++ g' ++ r') = blocks_first sty (l ++ g ++ r).
Proof.
  intros N N' A A' E. induction l as [|k l IH]; [cbn [app]; rewrite !first_blocks by assumption; exact E|]. cbn [app blocks_first]. rewrite IH. destruct (block_child sty k); [reflexivity|].
  rewrite !existsb_app. destruct g as [|x g]; [contradiction|]. destruct g' as [|x' g']; [contradiction|]. cbn [existsb]. rewrite (A x (or_introl eq_refl)), (A' x' (or_introl eq_refl)).
  cbn [orb]. rewrite !orb_true_r. reflexivity.
Qed.
Lemma can_lay_plain ws wi wb (g : list node) p : plain (sty ws) -> s_replaced wi = false -> g <> [] -> (forall k, In k g -> block_level (sty (n_style k)) = true) ->
  can_lay sty (mkAround true true false p) (Node ws wi wb g) = forallb (can_lay sty (mkAround true true false None)) g.
Proof.
  intros (P1 & P2 & P3 & P4 & P5 & P6 & P7 & P8) Rp Ng Bl. cbn [can_lay]. rewrite P1.
  assert (K : kind_of (sty ws) wi = Some Block) by (unfold kind_of; rewrite P1, P2, P3, Rp; reflexivity). rewrite K.
  cbn [forallb] in P6, P7, P8. repeat rewrite andb_true_iff in P6. repeat rewrite andb_true_iff in P7. repeat rewrite andb_true_iff in P8.
  destruct P6 as (M1 & M2 & M3 & M4 & _). destruct P7 as (B1 & B2 & B3 & B4 & _). destruct P8 as (D1 & D2 & D3 & D4 & _).
  assert (Na : forall u, nothing u = true -> measurable true u = true) by (intros u X; apply andb_prop in X; apply X).
  assert (Nm : forall v, nothing_or_auto v = true -> measurable_or_auto true v = true) by (intros [|u] X; [reflexivity|apply Na, X]).
  assert (Nb : forall v, no_border v = true -> measurable_border true v = true) by (intros [|u] X; [reflexivity|apply Na, X]).
  assert (Eo : edges_ok (mkAround true true false p) (sty ws) = true).
  { unfold edges_ok. cbn [w_known h_known forallb]. rewrite !Nm, !Nb, !Na by assumption. reflexivity. }
  rewrite Eo. unfold relative, width_ok. rewrite P2, P4, P5. cbn [w_known width_known height_known andb].
  assert (Bc : forall k, In k g -> block_child sty k = true) by exact Bl.
  assert (St : existsb (block_child sty) g = true).
  { destruct g as [|k g0]; [contradiction|]. cbn [existsb]. rewrite (Bc k (or_introl eq_refl)). reflexivity. }
  rewrite St. rewrite <- (app_nil_r g) at 1. rewrite first_blocks by exact Bc. cbn [blocks_first andb].
  assert (Fb : forallb (fun k => if block_child sty k then can_lay sty (mkAround true true false None) k else true) g = forallb (can_lay sty (mkAround true true false None)) g).
  { clear -Bc. induction g as [|k g IH]; [reflexivity|]. cbn [forallb]. rewrite (Bc k (or_introl eq_refl)), IH; [reflexivity|]. intros x I. apply Bc. right. exact I. }
  rewrite Fb. cbn [andb]. destruct (forallb (can_lay sty _) g) eqn:F; [|reflexivity]. cbn [andb]. destruct (exists_last Ng) as (q & k & ->).
  assert (I : In k (q ++ [k])) by (apply in_or_app; right; left; reflexivity).
  rewrite (last_block q k (mkAround true true false None) (Bl k I)); [unfold height_ok; rewrite P5; reflexivity|]. rewrite forallb_forall in F. apply F, I.
Qed.
Lemma can_lay_wrapped (n m : node) : wrapped sty n m -> boxed n -> boxed m -> forall a, can_lay sty a m = can_lay sty a n.
Proof.
  induction 1 as [s i b b' before before' group group' rest rest' ws wi wb E1 E2 E3 Pl Rp Ds Ps Ng Mv Fi La|s i b b' before before' k k' rest rest' E1 W IH E3]; intros Bn Bm a;
    inversion Bn as [? ? ? ? Kn]; subst; inversion Bm as [? ? ? ? Km]; subst.
  - assert (Bl : forall k, In k group -> block_level (sty (n_style k)) = true) by (intros k I; apply (Mv k I)).
    assert (F1 : Forall2 same_boxes before before') by (apply inputs_sames; [exact E1|intros; apply Kn, in_or_app; auto|intros; apply Km, in_or_app; auto]).
    assert (F3 : Forall2 same_boxes rest rest').
    { apply inputs_sames; [exact E3|intros; apply Kn, in_or_app; right; apply in_or_app; auto|intros; apply Km, in_or_app; right; right; assumption]. }
    assert (F2 : Forall2 same_boxes group group').
    { assert (Bw : boxed (Node ws wi wb group')) by (apply Km, in_or_app; right; left; reflexivity). inversion Bw as [? ? ? ? Kw]; subst.
      apply inputs_sames; [exact E2|intros; apply Kn, in_or_app; right; apply in_or_app; auto|exact Kw]. }
    (* the same boxes outside the wrapper *)
    transitivity (can_lay sty a (Node s i (Some b0) (before ++ Node ws wi wb group :: rest))).
    { apply can_lay_children. apply Forall2_app; [apply same_fine, F1|]. constructor; [|apply same_fine, F3]. split; [split; reflexivity|]. split; [reflexivity|]. apply can_lay_children, same_fine, F2. }
    cbn [can_lay]. assert (Dd : exists dk, st_display (sty s) = Some dk /\ (dk = DBlock \/ dk = DListItem)) by (destruct Ds as [Ds|Ds]; rewrite Ds; eauto).
    destruct Dd as (dk & Dk & Dd). rewrite Dk. destruct (kind_of (sty s) i) as [kd|] eqn:K; [|reflexivity].
    assert (Bs : block_level (sty s) = true) by (unfold block_level; rewrite Dk; destruct Dd as [-> | ->]; reflexivity).
    pose proof (block_kind _ _ _ Bs K) as ->.
    assert (R : relative (sty s) = false) by (unfold relative; destruct (st_position (sty s)); try reflexivity; contradiction). rewrite R. cbn [width_known height_known].
    assert (Bw : block_child sty (Node ws wi wb group) = true) by (unfold block_child; cbn [n_style]; rewrite (proj1 Pl); reflexivity).
    assert (Bc : forall k, In k group -> block_child sty k = true) by exact Bl.
    assert (St1 : existsb (block_child sty) (before ++ group ++ rest) = true).
    { apply existsb_exists. destruct group as [|k g]; [contradiction|]. exists k. split; [apply in_or_app; right; left; reflexivity|apply Bc; left; reflexivity]. }
    assert (St2 : existsb (block_child sty) (before ++ Node ws wi wb group :: rest) = true).
    { apply existsb_exists. eexists. split; [apply in_or_app; right; left; reflexivity|exact Bw]. }
    rewrite St1, St2. assert (If : (match dk with DBlock | DListItem => true | _ => false end) = true) by (destruct Dd as [-> | ->]; reflexivity). rewrite If.
    change (before ++ Node ws wi wb group :: rest) with (before ++ [Node ws wi wb group] ++ rest).
    rewrite (first_around before group [Node ws wi wb group] rest rest Ng ltac:(discriminate) Bc); [|intros x [<- |[]]; exact Bw|reflexivity].
    set (E := edges_ok a (sty s) && width_ok a Block (sty s) i && true). set (BF := blocks_first sty (before ++ group ++ rest)).
    set (p := match st_height (sty s) with Auto => None | Len u => Some u end). set (f := fun k => if block_child sty k then _ else true).
    set (H1 := height_ok a Block (sty s) (last_sized sty true (before ++ [Node ws wi wb group] ++ rest))). set (H2 := height_ok a Block (sty s) (last_sized sty true (before ++ group ++ rest))).
    assert (X : H1 = true \/ H2 = true -> forallb f (before ++ [Node ws wi wb group] ++ rest) = forallb f (before ++ group ++ rest)).
    { intros H. assert (M : match p with Some u => measurable true u | None => true end = true).
      { destruct H as [H|H]; apply height_measurable in H; unfold p; destruct (st_height (sty s)); assumption. }
      rewrite !forallb_app. do 2 f_equal. cbn [forallb]. rewrite andb_true_r. unfold f at 1. rewrite Bw. rewrite (can_lay_plain ws wi wb group p Pl Rp Ng Bl).
      clear -Bc M. induction group as [|k g IH]; [reflexivity|]. cbn [forallb]. unfold f at 1. rewrite (Bc k (or_introl eq_refl)), (can_lay_spec k p M), IH; [reflexivity|]. intros y I. apply Bc. right. exact I. }
    assert (Y : forallb f (before ++ group ++ rest) = true -> H1 = H2).
    { intros F. unfold H1, H2. f_equal. destruct rest as [|x rest0].
      - rewrite !app_nil_r. destruct (exists_last Ng) as (q & k & Eg). rewrite Eg, !app_assoc.
        assert (Ik : In k group) by (rewrite Eg; apply in_or_app; right; left; reflexivity).
        assert (C : f k = true) by (rewrite forallb_forall in F; apply F, in_or_app; right; apply in_or_app; left; exact Ik).
        unfold f in C. rewrite (Bc k Ik) in C. rewrite (last_block _ k _ (Bl k Ik) C). unfold last_sized. rewrite rev_app_distr. cbn [rev app]. rewrite <- Eg, Bw. cbn [negb andb n_style n_intr].
        unfold kind_of. destruct Pl as (P1 & P2 & P3 & _). rewrite P1, P2, P3, Rp. reflexivity.
      - unfold last_sized. rewrite !rev_app_distr. cbn [rev]. destruct (rev rest0); reflexivity. }
    destruct (E && (BF && forallb f (before ++ group ++ rest)) && H2) eqn:G2.
    + rewrite !andb_true_iff in G2. destruct G2 as ((Ge & Gb & Gf) & Gh). rewrite (X (or_intror Gh)), Ge, Gb, Gf, (Y Gf), Gh. reflexivity.
    + destruct (E && (BF && forallb f (before ++ [Node ws wi wb group] ++ rest)) && H1) eqn:G1; [|reflexivity]. exfalso.
      rewrite !andb_true_iff in G1. destruct G1 as ((Ge & Gb & Gf) & Gh). rewrite (X (or_introl Gh)) in Gf. rewrite Ge, Gb, Gf in G2. cbn [andb] in G2. rewrite <- (Y Gf), Gh in G2. discriminate.
  - assert (F1 : Forall2 same_boxes before before') by (apply inputs_sames; [exact E1|intros; apply Kn, in_or_app; auto|intros; apply Km, in_or_app; auto]).
    assert (F3 : Forall2 same_boxes rest rest') by (apply inputs_sames; [exact E3|intros; apply Kn, in_or_app; right; right; assumption|intros; apply Km, in_or_app; right; right; assumption]).
    assert (Bk : boxed k) by (apply Kn, in_or_app; right; left; reflexivity). assert (Bk' : boxed k') by (apply Km, in_or_app; right; left; reflexivity).
    apply can_lay_children. apply Forall2_app; [apply same_fine, F1|]. constructor; [|apply same_fine, F3].
    split; [inversion W; split; reflexivity|]. split; [inversion Bk; inversion Bk'; reflexivity|]. apply IH; assumption.
Qed.
(** One of the documents can be laid out exactly when the other can. *)
Theorem C150_succeeds : forall d h5 (n m : node), boxed n -> boxed m -> history sty n -> history sty m -> wrapped sty n m ->
  ((exists n', layout sty d h5 n = (n', Ok tt)) <-> (exists m', layout sty d h5 m = (m', Ok tt))).
Proof.
  intros d h5 n m Bn Bm Hn Hm W. rewrite (C123_exactly_when sty d h5 n Hn), (C123_exactly_when sty d h5 m Hm). unfold can_lay_out.
  rewrite (can_lay_wrapped n m W Bn Bm), (wrapped_style n m W). inversion Bn; inversion Bm; reflexivity.
Qed.
End W.
Print Assumptions C150_wrapper.
Print Assumptions C150_any_history.
Print Assumptions C150_succeeds.

(** ** Examples *)
(** A wrapper around the second and third of four blocks, one level down; the
    last of the wrapped blocks has margins that collapse with what follows, and
    the blocks have contents. *)
Definition wrap_b : doc := el (hpx 10 block_style) [].
Definition wrap_c : doc := el (vmargin 0 7 block_style) [el (hpx 5 block_style) []].
Definition wrap_d : doc := el (vmargin 9 3 block_style) [el (hpx 4 block_style) []; el (hpx 2 block_style) []].
Definition wrap_e : doc := el (vmargin 8 8 (hpx 6 block_style)) [].
Definition wrap_1 : doc := el (vmargin 4 4 block_style) [el block_style ([wrap_b] ++ [wrap_c; wrap_d] ++ [wrap_e]); wrap_e].
Definition wrap_2 : doc := el (vmargin 4 4 block_style) [el block_style ([wrap_b] ++ [el block_style [wrap_c; wrap_d]] ++ [wrap_e]); wrap_e].
Example C150_example : boxed wrap_1 /\ boxed wrap_2 /\ history idsty wrap_1 /\ history idsty wrap_2 /\ wrapped idsty wrap_1 wrap_2
  /\ layout idsty screen false wrap_1 = (out false wrap_1, Ok tt) /\ layout idsty screen false wrap_2 = (out false wrap_2, Ok tt)
  /\ length (drawn 0 0 (page idsty screen false wrap_1)) = 10%nat /\ length (drawn 0 0 (page idsty screen false wrap_2)) = 11%nat
  /\ map (fun u => this (u_top u)) (drawn 0 0 (page idsty screen false wrap_1)) = [4; 4; 4; 14; 14; 28; 28; 32; 42; 56]%Q
  /\ map (fun u => this (u_top u)) (drawn 0 0 (page idsty screen false wrap_2)) = [4; 4; 4; 14; 14; 14; 28; 28; 32; 42; 56]%Q.
Proof.
  split; [solve_boxed|]. split; [solve_boxed|]. split; [apply history_new; solve_new|]. split; [apply history_new; solve_new|]. split.
  { refine (wrapped_below idsty _ _ (Some box0) (Some box0) [] [] _ _ [_] [_] eq_refl _ eq_refl).
    refine (wrapped_here idsty block_style size0 (Some box0) (Some box0) [_] [_] [_; _] [_; _] [_] [_] _ size0 _ eq_refl eq_refl eq_refl _ eq_refl (or_introl eq_refl) _ _ _ _ _).
    - repeat split; vm_compute; reflexivity.
    - discriminate.
    - discriminate.
    - intros k [<- |[<- |[]]]; (split; [reflexivity|]); (split; [intros H; repeat (destruct H as [H|H]; [discriminate|]); destruct H|]); left; exact I.
    - intros k l E. injection E as <- _. right. vm_compute. reflexivity.
    - intros l k E. destruct l as [|x [|y l]]; [discriminate| |destruct l; discriminate]. injection E as _ <-. discriminate. }
  split; [apply ok_layout; vm_compute; reflexivity|]. split; [apply ok_layout; vm_compute; reflexivity|]. repeat split; vm_compute; reflexivity.
Qed.
