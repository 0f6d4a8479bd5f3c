(** * C201: equal items are evenly spaced *)
From Coq Require Import ZArith QArith Qcanon Qround Lia Lqa Bool List.
From Verif Require Import PyNum NumFacts Units BoxModel BoxSpec BoxFacts Engine EngineSpec EngineExamples
  RefLayout RefFacts RefProps HistSpec HistProps MoveSpec MoveProps LocalSpec LocalProps PushSpec PushProps ReorderSpec ReorderProps EvenSpec.
Import ListNotations.
Open Scope Qc_scope.

(** ** Stacking equal boxes *)
Fixpoint run (y step : Qc) (v : used) (vs : list utree) (c : nat) : list utree :=
  match c with O => [] | Datatypes.S c => UNode (move_down y v) vs :: run (y + step) step v vs c end.
Lemma run_spaced step v vs c : forall y, spaced step (run y step v vs c).
Proof.
  assert (E : forall y, slide step (UNode (move_down y v) vs) = UNode (move_down (y + step) v) vs) by (intros y; destruct v; cbn; do 2 f_equal; ring).
  induction c as [|c IH]; intros y; [constructor|]. cbn [run]. destruct c as [|c]; cbn [run]; [constructor|]. rewrite <- E. constructor. rewrite E. apply (IH (y + step)).
Qed.
Lemma run_length step v vs c : forall y, length (run y step v vs c) = c.
Proof. induction c as [|c IH]; intros y; [reflexivity|]. cbn. rewrite IH. reflexivity. Qed.
Lemma run_in step v vs c : forall y t, In t (run y step v vs c) -> exists z, t = UNode (move_down z v) vs.
Proof. induction c as [|c IH]; intros y t H; [contradiction|]. destruct H as [<-|H]; [eauto|apply (IH _ _ H)]. Qed.
Lemma stack_run v vs c l2 : forall top prev, exists y top' prev', stack top prev (repeat (UNode v vs) c ++ l2) = run y (pitch v) v vs c ++ stack top' prev' l2
  /\ (prev = Some (u_cb v) -> y + border_height v = top + pitch v).
Proof.
  assert (P : pitch v = border_height v + qc_maxi (Z2Qc (u_cb v)) (u_mt v)) by reflexivity.
  induction c as [|c IH]; intros top prev.
  - exists (top + pitch v - border_height v), top, prev. cbn. split; [reflexivity|]. intros _. ring.
  - cbn [repeat app stack run]. set (y := top + match prev with None => 0 | Some z => qc_maxi (Z2Qc z) (u_mt v) end).
    destruct (IH (y + border_height v) (Some (u_cb v))) as (y' & top' & prev' & E & F). specialize (F eq_refl). exists y, top', prev'. split.
    + rewrite E. assert (y' = y + pitch v) as ->; [|reflexivity]. transitivity (y' + border_height v - border_height v); [ring|]. rewrite F. ring.
    + intros ->. unfold y. rewrite P. ring.
Qed.
Lemma run_last step v vs c : forall y, last_kid (run y step v vs (Datatypes.S c)) = Some (move_down (y + Z2Qc (Z.of_nat c) * step) v).
Proof.
  induction c as [|c IH]; intros y.
  - cbn. replace (y + Z2Qc 0 * step) with y by (replace (Z2Qc 0) with (0 : Qc) by (apply Qc_is_canon; reflexivity); ring). reflexivity.
  - specialize (IH (y + step)). cbn [run] in IH |- *. unfold last_kid in *. cbn [rev] in *. destruct (rev (run (y + step + step) step v vs c)) as [|t r]; cbn [app] in *.
    + replace (y + Z2Qc (Z.of_nat (Datatypes.S c)) * step) with (y + step + Z2Qc (Z.of_nat c) * step); [exact IH|]. rewrite Nat2Z.inj_succ. unfold Z.succ. rewrite Z2Qc_add. replace (Z2Qc 1) with (1 : Qc) by (apply Qc_is_canon; reflexivity). ring.
    + replace (y + Z2Qc (Z.of_nat (Datatypes.S c)) * step) with (y + step + Z2Qc (Z.of_nat c) * step); [exact IH|]. rewrite Nat2Z.inj_succ. unfold Z.succ. rewrite Z2Qc_add. replace (Z2Qc 1) with (1 : Qc) by (apply Qc_is_canon; reflexivity). ring.
Qed.

Section E.
Context {S : Type} (sty : S -> style) (d : display_t).
Notation node := (node S).
Lemma items_laid a (k : node) u us before group rest : equal_items sty k before group rest -> format sty d a k = UNode u us ->
  exists v vs y r1 r2, us = r1 ++ run y (pitch v) v vs (length group) ++ r2 /\ length r1 = length before /\ length r2 = length rest
    /\ (st_height (sty (n_style k)) = Auto -> rest = [] -> u_h u = option_map border_bottom (last_kid us)).
Proof.
  intros (Ds & Ek & g & Bg & Ng & Al). destruct k as [s i b ks]. cbn [n_style n_kids] in *. subst ks. rewrite format_split.
  assert (Dd : exists dk, st_display (sty s) = Some dk /\ (dk = DBlock \/ dk = DListItem)) by (destruct Ds as [Ds|Ds]; rewrite Ds; eauto).
  destruct Dd as (dk & Dk & Dd). rewrite Dk.
  assert (Bl : forall x, In x group -> block_level (sty (n_style x)) = true).
  { intros x Hx. specialize (Al x Hx). apply inputs_style in Al. rewrite Al. exact Bg. }
  assert (St : stacks_ sty dk (before ++ group ++ rest) = true).
  { assert (X : existsb (fun k => block_level (sty (n_style k))) (before ++ group ++ rest) = true); [|destruct Dd as [-> | ->]; exact X].
    apply existsb_exists. destruct group as [|x group]; [contradiction|]. exists x. split; [apply in_or_app; right; left; reflexivity|]. apply Bl. left. reflexivity. }
  rewrite St. set (inner := inner_of d a dk (sty s) i). unfold kids_of. rewrite !map_app.
  assert (Fg : exists v vs, format sty d inner g = UNode v vs).
  { destruct g as [gs gi gb gk]. cbn [n_style] in Bg. rewrite format_split. unfold block_level in Bg. destruct (st_display (sty gs)) as [gd|]; [|discriminate]. unfold node_of. eauto. }
  destruct Fg as (v & vs & Fg).
  assert (Rp : map (MoveProps.laid_kid sty d inner true) group = repeat (UNode v vs) (length group)).
  { clearbody inner. clear -Al Bl Fg. induction group as [|x group IH]; [reflexivity|]. cbn [map length repeat]. rewrite IH by (intros; first [apply Al|apply Bl]; right; assumption). f_equal.
    unfold MoveProps.laid_kid. rewrite (Bl x (or_introl eq_refl)). cbn [negb andb]. rewrite (format_inputs sty d x g (Al x (or_introl eq_refl))). exact Fg. }
  rewrite Rp. destruct (LocalProps.stack_app (map (MoveProps.laid_kid sty d inner true) before) 0 None) as (r1 & top & prev & L1 & F1). rewrite F1.
  destruct (stack_run v vs (length group) (map (MoveProps.laid_kid sty d inner true) rest) top prev) as (y & top' & prev' & E & _). rewrite E.
  set (r2 := stack top' prev' (map (MoveProps.laid_kid sty d inner true) rest)).
  assert (L2 : length r2 = length rest).
  { unfold r2. destruct (LocalProps.stack_app (map (MoveProps.laid_kid sty d inner true) rest) top' prev') as (q & t1 & p1 & Lq & Fq). specialize (Fq []). rewrite !app_nil_r in Fq. rewrite Fq. cbn [stack]. rewrite ?app_nil_r, Lq, map_length. reflexivity. }
  unfold node_of. cbv zeta. intros X. injection X as <- <-. exists v, vs, y, r1, r2. split; [reflexivity|]. split; [rewrite L1, map_length; reflexivity|]. split; [exact L2|].
  intros Hh ->. cbn [u_h]. destruct r2; [|discriminate L2]. rewrite app_nil_r. unfold hgt. assert (isinl dk = false) as -> by (destruct Dd as [-> | ->]; reflexivity).
  unfold used_block_height, spec_height. rewrite Hh.
  destruct group as [|x group]; [contradiction|]. cbn [length run]. destruct (last_kid (r1 ++ _)) as [w|] eqn:Lk; [reflexivity|]. exfalso. unfold last_kid in Lk. rewrite rev_app_distr in Lk. cbn [rev] in Lk.
  destruct (rev (run _ _ _ _ _)) as [|[] ?]; cbn [app] in Lk; discriminate.
Qed.
(** C201.  Equal blocks that follow each other are laid out the same, each at the same distance below the one
    before.  A block of automatic height that has only such children ends below the last of them. *)
Theorem C201_evenly_spaced h5 (n n' : node) : history sty n -> layout sty d h5 n = (n', Ok tt) ->
  exists t, shows n' (finished h5 d t)
    /\ forall k u us before group rest, place n t k (UNode u us) -> equal_items sty k before group rest ->
       exists step us1 items us2, us = us1 ++ items ++ us2 /\ length us1 = length before /\ length items = length group /\ length us2 = length rest
         /\ spaced step items /\ (forall v vs, In (UNode v vs) items -> step = pitch v)
         /\ (st_height (sty (n_style k)) = Auto -> before = [] -> rest = [] ->
             forall v vs more, items = UNode v vs :: more -> u_h u = Some (border_bottom v + Z2Qc (Z.of_nat (length more)) * step)).
Proof.
  intros Hn Ln. exists (draft sty d n). rewrite <- page_draft. split; [apply (C122_any_history sty); assumption|]. intros k u us before group rest P Eq.
  assert (B : block_level (sty (n_style k)) = true) by (unfold block_level; destruct Eq as ([-> | ->] & _); reflexivity).
  destruct (place_format sty d n _ _ k _ P eq_refl u us eq_refl B) as (a' & t0 & w & F & ->). destruct (items_laid a' k w us before group rest Eq F) as (v & vs & y & r1 & r2 & -> & L1 & L2 & H).
  exists (pitch v), r1, (run y (pitch v) v vs (length group)), r2. split; [reflexivity|]. split; [exact L1|]. split; [apply run_length|]. split; [exact L2|]. split; [apply run_spaced|]. split.
  - intros v' vs' I. apply run_in in I. destruct I as (z & E). injection E as -> _. destruct v. reflexivity.
  - intros Hh -> -> v' vs' more E. destruct r1; [|discriminate L1]. destruct r2; [|discriminate L2]. cbn [app] in H. rewrite app_nil_r in H. specialize (H Hh eq_refl).
    replace (u_h (move_down t0 w)) with (u_h w) by (destruct w; reflexivity). rewrite H.
    destruct (length group) as [|c] eqn:Lg; [discriminate E|]. rewrite run_last. cbn [run] in E. injection E as <- _ <-. rewrite run_length. cbn [option_map]. f_equal.
    unfold border_bottom. destruct v. cbn. ring.
Qed.
End E.
Print Assumptions C201_evenly_spaced.

(** ** Example *)
Open Scope Z_scope.
(** Three equal items with margins of 5px and 3px, 14px apart from each other. *)
Definition item : doc := el (vmargin 5 3 block_style) [el (hpx 9 block_style) []].
Definition items_doc : doc := el block_style [el (hpx 20 block_style) []; el block_style [item; item; item]].
Example C201_example : history idsty items_doc /\ layout idsty screen false items_doc = (out false items_doc, Ok tt)
  /\ exists k u us, place items_doc (draft idsty screen items_doc) k (UNode u us) /\ equal_items idsty k [] [item; item; item] []
     /\ map (fun t => match t with UNode v _ => Some (this (u_top v), this (pitch v)) | _ => None end) us = [Some (0, 14); Some (14, 14); Some (28, 14)]%Q
     /\ match u_h u with Some h => this h | None => 0%Q end = 37%Q.
Proof.
  split; [apply history_new; solve_new|]. split; [apply ok_layout; vm_compute; reflexivity|].
  destruct (draft idsty screen items_doc) as [v vs| |] eqn:E; [|exfalso; revert E; vm_compute; discriminate..].
  assert (X : match vs with _ :: UNode u us :: _ => map (fun t => match t with UNode v _ => Some (this (u_top v), this (pitch v)) | _ => None end) us = [Some (0, 14); Some (14, 14); Some (28, 14)]%Q
     /\ match u_h u with Some h => this h | None => 0%Q end = 37%Q | _ => False end).
  { replace vs with (match draft idsty screen items_doc with UNode _ l => l | _ => [] end) by (rewrite E; reflexivity). vm_compute. split; reflexivity. }
  destruct vs as [|x [|[u us| |] vs]]; try contradiction. exists (el block_style [item; item; item]), u, us. split; [|split; [|exact X]].
  - apply (place_below _ _ _ _ _ _ 1 (el block_style [item; item; item]) (UNode u us)); [reflexivity|reflexivity|apply place_here].
  - split; [left; reflexivity|]. split; [reflexivity|]. exists item. split; [reflexivity|]. split; [discriminate|]. intros z [<-|[<-|[<-|[]]]]; reflexivity.
Qed.
