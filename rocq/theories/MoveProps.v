(** * C126: what relative positioning moves *)
From Coq Require Import ZArith QArith Qcanon Lia Bool List.
From Verif Require Import PyNum NumFacts Units BoxModel BoxSpec Engine EnginePure EngineSpec EngineExamples
  RefLayout RefFacts RefProps HistSpec HistProps MoveSpec.
Import ListNotations.
Open Scope Qc_scope.

(** ** Lengths *)
Lemma len_no_pct d p q u : no_pct u = true -> len d p u = len d q u.
Proof. unfold no_pct, len, exact_len. destruct (u_kind u); try reflexivity; discriminate. Qed.
Lemma len0_no_pct d p q v : no_pct_auto v = true -> len0 d p v = len0 d q v.
Proof. destruct v; [reflexivity|apply len_no_pct]. Qed.
Lemma border_no_pct d p q v : no_pct_border v = true -> border_len d p v = border_len d q v.
Proof. destruct v; [reflexivity|apply len_no_pct]. Qed.
Lemma shift_no_pct d p q e f a b : no_pct_offset a = true -> no_pct_offset b = true -> shift d p e a b = shift d q f a b.
Proof.
  intros A B. destruct a as [| |u], b as [| |v]; cbn in *; try discriminate; try reflexivity; try (f_equal; apply len_no_pct; assumption); apply len_no_pct; assumption.
Qed.
Lemma shift_no_inherit d p e a b : no_inherit a = true -> no_inherit b = true -> shift d p e a b = shift d 0 e a b.
Proof. destruct a, b; try discriminate; reflexivity. Qed.
Lemma spec_height_no_pct d H H' ph s : no_pct_auto (st_height s) = true -> match st_max_height s with None => true | Some u => no_pct u end = true ->
  spec_height d H ph s = spec_height d H' ph s.
Proof.
  unfold spec_height. destruct (st_height s) as [|u]; [reflexivity|]. cbn. intros A B. f_equal.
  rewrite (len_no_pct d _ (match ph with Some pu => len d H' pu | None => H' end) u A). destruct (st_max_height s) as [m|]; [|reflexivity]. rewrite (len_no_pct d H H' m B). reflexivity.
Qed.

(** ** The reference layout in three steps: what the children see, the
    children, the node itself *)
Definition isrel (s : style) : bool := match st_position s with PRelative => true | _ => false end.
Definition isinl (dk : display_k) : bool := match dk with DInline => true | _ => false end.
Definition hedges (d : display_t) (H : Qc) (s : style) : Qc :=
  border_len d H (st_border_left s) + len d H (st_padding_left s) + len d H (st_padding_right s) + border_len d H (st_border_right s).
Definition wmargins (d : display_t) (a : area) (dk : display_k) (s : style) (i : size) : option Qc * Qc * Qc :=
  let W := or0 (a_w a) in
  let l := len0 d W (st_margin_left s) in
  let r := len0 d W (st_margin_right s) in
  if isinl dk then (if s_replaced i then Some (image_width d W (W - hedges d (or0 (a_h a)) s - l - r) s i) else option_map nval (s_width i), l, r)
  else let '(x, y, z) := widths d W (hedges d (or0 (a_h a)) s) s in (Some x, y, z).
Definition hgt (d : display_t) (a : area) (dk : display_k) (s : style) (i : size) (last : option used) : option Qc :=
  if isinl dk then (if s_replaced i then Some (image_height d (or0 (a_h a)) (or0 (fst (fst (wmargins d a dk s i)))) s i) else option_map nval (s_height i))
  else Some (used_block_height d (or0 (a_h a)) (a_spec_h a) s last).
Definition lefts (d : display_t) (a : area) (dk : display_k) (s : style) (i : size) : Qc :=
  if isinl dk && negb (s_replaced i) then 0
  else snd (fst (wmargins d a dk s i)) + border_len d (or0 (a_h a)) (st_border_left s) + len d (or0 (a_h a)) (st_padding_left s).
Definition edges (d : display_t) (a : area) (dk : display_k) (s : style) : Qc :=
  (if isinl dk then len0 d (or0 (a_h a)) (st_margin_top s) else 0) + border_len d (or0 (a_w a)) (st_border_top s) + len d (or0 (a_w a)) (st_padding_top s).
Definition inner_of (d : display_t) (a : area) (dk : display_k) (s : style) (i : size) : area :=
  mkArea (fst (fst (wmargins d a dk s i))) (if isrel s then hgt d a dk s i (Some used0) else Some 0) (lefts d a dk s i)
    (if isrel s then edges d a dk s else 0) (match st_height s with Auto => None | Len u => Some u end).
Definition bottoms (d : display_t) (a : area) (dk : display_k) (s : style) (i : size) : option Qc :=
  if isinl dk && negb (s_replaced i) && (match st_margin_bottom s with Auto => true | Len _ => false end)
  then None else Some (len0 d (or0 (a_h a)) (st_margin_bottom s)).
Definition node_of (d : display_t) (a : area) (dk : display_k) (s : style) (i : size) (stacks : bool) (kids : list utree) : utree :=
  let W := or0 (a_w a) in
  let H := or0 (a_h a) in
  let mb := bottoms d a dk s i in
  let first := if stacks then match kids with UNode u _ :: _ => u_ct u | _ => 0%Z end else 0%Z in
  let cb := match st_height s, last_kid kids with
            | Auto, Some k => if isinl dk then whole_px (or0 mb) else Z.max (whole_px (or0 mb)) (u_cb k)
            | _, _ => whole_px (or0 mb)
            end in
  let dx := if isrel s then shift d (a_left a) (a_w a) (st_left s) (st_right s) else 0 in
  let dy := if isrel s then edges d a dk s + shift d (a_top a) (a_h a) (st_top s) (st_bottom s) else 0 in
  UNode (mkUsed (len0 d H (st_margin_top s)) (snd (wmargins d a dk s i)) mb (snd (fst (wmargins d a dk s i)))
           (border_len d W (st_border_top s)) (border_len d H (st_border_right s)) (border_len d W (st_border_bottom s)) (border_len d H (st_border_left s))
           (len d W (st_padding_top s)) (len d H (st_padding_right s)) (len d W (st_padding_bottom s)) (len d H (st_padding_left s))
           (fst (fst (wmargins d a dk s i))) (hgt d a dk s i (last_kid kids)) (lefts d a dk s i + dx) (edges d a dk s + dy)
           (Z.max (whole_px (len0 d H (st_margin_top s))) first) cb) kids.

Section M.
Context {S : Type} (sty : S -> style).
Notation node := (node S).
Definition stacks_ (dk : display_k) (ks : list node) : bool :=
  match dk with DBlock | DListItem => existsb (fun k => block_level (sty (n_style k))) ks | _ => false end.
Definition laid_kid (d : display_t) (inner : area) (st : bool) (k : node) : utree :=
  if st && negb (block_level (sty (n_style k))) then USkipped else format sty d inner k.
Definition kids_of (d : display_t) (inner : area) (st : bool) (ks : list node) : list utree :=
  if st then stack 0 None (map (laid_kid d inner st) ks) else map (laid_kid d inner st) ks.
Lemma format_split d a s0 i bx ks : format sty d a (Node s0 i bx ks) =
  match st_display (sty s0) with
  | None => UHidden
  | Some dk => node_of d a dk (sty s0) i (stacks_ dk ks) (kids_of d (inner_of d a dk (sty s0) i) (stacks_ dk ks) ks)
  end.
Proof.
  assert (K : forall ar, map (fun k => if block_level (sty (n_style k)) then format sty d ar k else USkipped) ks = map (laid_kid d ar true) ks).
  { intros ar. apply map_ext. intros k. unfold laid_kid. destruct (block_level _); reflexivity. }
  assert (K' : forall ar, map (laid_kid d ar false) ks = map (format sty d ar) ks) by reflexivity.
  cbn [format]. destruct (st_display (sty s0)) as [dk|]; [|reflexivity].
  unfold node_of, bottoms, kids_of, inner_of, hgt, lefts, edges, wmargins, hedges, stacks_, isinl, isrel. cbv zeta.
  destruct dk; cbn [andb]; try (destruct (widths d (or0 (a_w a)) _ (sty s0)) as [[x y] z]); cbn [fst snd]; try reflexivity;
    try (destruct (s_replaced i); reflexivity).
  all: destruct (existsb (fun k => block_level (sty (n_style k))) ks); rewrite ?K; reflexivity.
Qed.

Lemma format_area d w h1 h2 l t1 t2 sp n : no_height_reference (sty (n_style n)) = true ->
  format sty d (mkArea w h1 l t1 sp) n = format sty d (mkArea w h2 l t2 sp) n.
Proof.
  destruct n as [s0 i bx ks]. cbn [n_style]. intros N. rewrite !format_split. destruct (st_display (sty s0)) as [dk|]; [|reflexivity]. set (s := sty s0) in *.
  unfold no_height_reference in N. cbn [forallb] in N. repeat rewrite andb_true_iff in N.
  destruct N as ((((( N1 & N2 & N3 & N4 & _) & N5) & N6 & N7 & _) & N8 & N9 & _) & N10 & N11 & _).
  assert (E1 : hedges d (or0 h1) s = hedges d (or0 h2) s).
  { unfold hedges. rewrite (border_no_pct d _ (or0 h2) _ N6), (border_no_pct d _ (or0 h2) _ N7), (len_no_pct d _ (or0 h2) _ N8), (len_no_pct d _ (or0 h2) _ N9). reflexivity. }
  assert (E2 : wmargins d (mkArea w h1 l t1 sp) dk s i = wmargins d (mkArea w h2 l t2 sp) dk s i) by (unfold wmargins; cbn [a_w a_h]; rewrite E1; reflexivity).
  assert (E3 : forall last, hgt d (mkArea w h1 l t1 sp) dk s i last = hgt d (mkArea w h2 l t2 sp) dk s i last).
  { intros last. unfold hgt. rewrite E2. cbn [a_h a_spec_h]. destruct (isinl dk).
    - destruct (s_replaced i); [|reflexivity]. f_equal. unfold image_height. destruct (st_height s) as [|u]; [reflexivity|]. apply len_no_pct, N1.
    - f_equal. unfold used_block_height. rewrite (spec_height_no_pct d _ (or0 h2) sp s N1 N5), (len0_no_pct d _ (or0 h2) _ N2). reflexivity. }
  assert (E4 : lefts d (mkArea w h1 l t1 sp) dk s i = lefts d (mkArea w h2 l t2 sp) dk s i).
  { unfold lefts. rewrite E2. cbn [a_h]. rewrite (border_no_pct d _ (or0 h2) _ N6), (len_no_pct d _ (or0 h2) _ N8). reflexivity. }
  assert (E5 : edges d (mkArea w h1 l t1 sp) dk s = edges d (mkArea w h2 l t2 sp) dk s).
  { unfold edges. cbn [a_h a_w]. rewrite (len0_no_pct d _ (or0 h2) _ N3). reflexivity. }
  assert (E6 : bottoms d (mkArea w h1 l t1 sp) dk s i = bottoms d (mkArea w h2 l t2 sp) dk s i).
  { unfold bottoms. cbn [a_h]. rewrite (len0_no_pct d _ (or0 h2) _ N4). reflexivity. }
  assert (E7 : inner_of d (mkArea w h1 l t1 sp) dk s i = inner_of d (mkArea w h2 l t2 sp) dk s i) by (unfold inner_of; rewrite E2, E3, E4, E5; reflexivity).
  rewrite E7. unfold node_of. cbv zeta. cbn [a_w a_h a_left a_top]. rewrite E2, E3, E4, E5, E6.
  rewrite (len0_no_pct d (or0 h1) (or0 h2) _ N3), (border_no_pct d (or0 h1) (or0 h2) _ N6), (border_no_pct d (or0 h1) (or0 h2) _ N7),
    (len_no_pct d (or0 h1) (or0 h2) _ N8), (len_no_pct d (or0 h1) (or0 h2) _ N9), (shift_no_pct d t1 t2 h1 h2 _ _ N10 N11). reflexivity.
Qed.

(** ** Making a block relative *)
Lemma relatively_display s : st_display (relatively s) = st_display s. Proof. reflexivity. Qed.
Lemma format_relative d a s s' i bx ks : st_position (sty s) = PStatic -> sty s' = relatively (sty s) -> block_level (sty s) = true ->
  forallb no_inherit [st_left (sty s); st_right (sty s); st_top (sty s); st_bottom (sty s)] = true ->
  forallb (fun k => no_height_reference (sty (n_style k))) ks = true ->
  exists u us, format sty d a (Node s i bx ks) = UNode u us /\ format sty d a (Node s' i bx ks)
    = UNode (move (shift d 0 (a_w a) (st_left (sty s)) (st_right (sty s))) (u_bt u + u_pt u + shift d 0 (a_h a) (st_top (sty s)) (st_bottom (sty s))) u) us.
Proof.
  intros Ps Es Bl Ni Nk. rewrite !format_split, Es, relatively_display. set (s0 := sty s) in *.
  destruct (st_display s0) as [dk|] eqn:Dk; [|unfold block_level in Bl; rewrite Dk in Bl; discriminate].
  assert (Hi : isinl dk = false) by (unfold block_level in Bl; rewrite Dk in Bl; destruct dk; try discriminate; reflexivity).
  cbn [forallb] in Ni. repeat rewrite andb_true_iff in Ni. destruct Ni as (N1 & N2 & N3 & N4 & _).
  assert (R0 : isrel s0 = false) by (unfold isrel; rewrite Ps; reflexivity).
  assert (K : kids_of d (inner_of d a dk (relatively s0) i) (stacks_ dk ks) ks = kids_of d (inner_of d a dk s0 i) (stacks_ dk ks) ks).
  { assert (Km : map (laid_kid d (inner_of d a dk (relatively s0) i) (stacks_ dk ks)) ks = map (laid_kid d (inner_of d a dk s0 i) (stacks_ dk ks)) ks).
    { apply map_ext_in. intros k I. unfold laid_kid. rewrite forallb_forall in Nk. unfold inner_of. cbn [isrel relatively st_position].
      destruct (_ && _); [reflexivity|]. apply format_area, Nk, I. }
    unfold kids_of. rewrite Km. reflexivity. }
  rewrite K. set (kids := kids_of d (inner_of d a dk s0 i) (stacks_ dk ks) ks). unfold node_of. cbv zeta. rewrite R0.
  do 2 eexists. split; [reflexivity|]. cbn [isrel relatively st_position u_bt u_pt move].
  rewrite (shift_no_inherit d (a_left a)) by assumption. rewrite (shift_no_inherit d (a_top a)) by assumption.
  assert (W1 : wmargins d a dk (relatively s0) i = wmargins d a dk s0 i) by reflexivity.
  assert (W2 : forall l, hgt d a dk (relatively s0) i l = hgt d a dk s0 i l) by reflexivity.
  assert (W3 : lefts d a dk (relatively s0) i = lefts d a dk s0 i) by reflexivity.
  assert (W4 : edges d a dk (relatively s0) = edges d a dk s0) by reflexivity.
  assert (W5 : bottoms d a dk (relatively s0) i = bottoms d a dk s0 i) by reflexivity.
  rewrite W1, W2, W3, W4, W5.
  cbn [relatively st_display st_position st_float st_direction st_width st_height st_min_width st_min_height st_max_width st_max_height
    st_margin_top st_margin_right st_margin_bottom st_margin_left st_padding_top st_padding_right st_padding_bottom st_padding_left
    st_border_top st_border_right st_border_bottom st_border_left st_top st_right st_bottom st_left].
  assert (E1 : forall x y : Qc, x + y = x + 0 + y) by (intros; ring). rewrite (E1 (lefts d a dk s0 i)).
  assert (E2 : forall y, edges d a dk s0 + (edges d a dk s0 + y)
    = edges d a dk s0 + 0 + (border_len d (or0 (a_w a)) (st_border_top s0) + len d (or0 (a_w a)) (st_padding_top s0) + y)).
  { intros y. unfold edges. rewrite Hi. ring. }
  rewrite E2. reflexivity.
Qed.
Lemma move_keeps dx dy u : u_mt (move dx dy u) = u_mt u /\ u_cb (move dx dy u) = u_cb u /\ u_ct (move dx dy u) = u_ct u /\ border_height (move dx dy u) = border_height u
  /\ u_bt (move dx dy u) = u_bt u /\ u_pt (move dx dy u) = u_pt u.
Proof. destruct u; repeat split. Qed.
Lemma move_down_move t dx dy u : move_down t (move dx dy u) = move dx dy (move_down t u).
Proof. destruct u. cbn. f_equal. ring. Qed.

(** Two lists of children that differ in one place. *)
Inductive swap (x x' : utree) : utree -> utree -> Prop :=
| swap_node u us u' us' t : x = UNode u us -> x' = UNode u' us' -> u_mt u' = u_mt u -> u_cb u' = u_cb u -> u_ct u' = u_ct u -> border_height u' = border_height u ->
    swap x x' (UNode (move_down t u) us) (UNode (move_down t u') us')
| swap_other : x' = x -> (forall u us, x <> UNode u us) -> swap x x' x x'.
Lemma stack_swap x x' l1 l2 : (exists y y', swap x x' y y') -> forall top prev, exists r1 r2 y y',
  stack top prev (l1 ++ x :: l2) = r1 ++ y :: r2 /\ stack top prev (l1 ++ x' :: l2) = r1 ++ y' :: r2 /\ length r1 = length l1 /\ length r2 = length l2 /\ swap x x' y y'.
Proof.
  intros (y0 & y0' & S0). assert (Ls : forall l top prev, length (stack top prev l) = length l).
  { induction l as [|[u us| |] l IH]; intros top prev; cbn [stack length]; rewrite ?IH; reflexivity. }
  induction l1 as [|z l1 IH]; intros top prev.
  - cbn [app]. inversion S0 as [u us u' us' t -> -> E1 E2 E3 E4|Ex N]; subst.
    + cbn [stack]. rewrite E1, E2, E4. exists []. do 3 eexists. split; [reflexivity|]. split; [reflexivity|]. split; [reflexivity|]. split; [apply Ls|]. econstructor; try reflexivity; assumption.
    + exists [], (stack top prev l2), y0, y0. destruct y0 as [u us| |]; [destruct (N u us eq_refl)| |]; cbn [stack]; rewrite Ls; repeat (split; [reflexivity|]); apply swap_other; [reflexivity|discriminate|reflexivity|discriminate].
  - cbn [app]. destruct z as [u us| |]; cbn [stack].
    + destruct (IH (top + match prev with None => 0 | Some z => qc_maxi (Z2Qc z) (u_mt u) end + border_height u) (Some (u_cb u))) as (r1 & r2 & y & y' & E1 & E2 & E3 & E4 & E5).
      rewrite E1, E2. eexists (_ :: r1), r2, y, y'. split; [reflexivity|]. split; [reflexivity|]. cbn [length]. rewrite E3. auto.
    + destruct (IH top prev) as (r1 & r2 & y & y' & E1 & E2 & E3 & E4 & E5). rewrite E1, E2. exists (UHidden :: r1), r2, y, y'. cbn [length]. rewrite E3. auto.
    + destruct (IH top prev) as (r1 & r2 & y & y' & E1 & E2 & E3 & E4 & E5). rewrite E1, E2. exists (USkipped :: r1), r2, y, y'. cbn [length]. rewrite E3. auto.
Qed.
Lemma move_down_0 u : move_down 0 u = u.
Proof. destruct u. cbn. f_equal. ring. Qed.
Lemma move_down_keeps t u : u_mt (move_down t u) = u_mt u /\ u_cb (move_down t u) = u_cb u /\ u_ct (move_down t u) = u_ct u /\ border_height (move_down t u) = border_height u
  /\ u_bt (move_down t u) = u_bt u /\ u_pt (move_down t u) = u_pt u /\ u_w (move_down t u) = u_w u.
Proof. destruct u; repeat split. Qed.
Lemma kids_swap d inner st l1 k k' l2 : block_level (sty (n_style k')) = block_level (sty (n_style k)) ->
  (exists y y', swap (laid_kid d inner st k) (laid_kid d inner st k') y y') -> exists r1 r2 y y',
  kids_of d inner st (l1 ++ k :: l2) = r1 ++ y :: r2 /\ kids_of d inner st (l1 ++ k' :: l2) = r1 ++ y' :: r2 /\ length r1 = length l1 /\ length r2 = length l2
  /\ swap (laid_kid d inner st k) (laid_kid d inner st k') y y'.
Proof.
  intros Eb Sw. unfold kids_of. rewrite !map_app. cbn [map]. destruct st.
  - destruct (stack_swap _ _ (map (laid_kid d inner true) l1) (map (laid_kid d inner true) l2) Sw 0 None) as (r1 & r2 & y & y' & E). rewrite !map_length in E. exists r1, r2, y, y'. exact E.
  - exists (map (laid_kid d inner false) l1), (map (laid_kid d inner false) l2), (laid_kid d inner false k), (laid_kid d inner false k'). rewrite !map_length.
    repeat (split; [reflexivity|]). destruct Sw as (y & y' & Sw). inversion Sw as [u us u' us' t E1 E2 E3 E4 E5 E6|E1 E2]; subst.
    + rewrite E1, E2. rewrite <- (move_down_0 u), <- (move_down_0 u') at 2. econstructor; eauto.
    + apply swap_other; assumption.
Qed.
Lemma stacks_swap dk l1 k k' l2 : n_style k' = n_style k \/ block_level (sty (n_style k')) = block_level (sty (n_style k)) -> stacks_ dk (l1 ++ k' :: l2) = stacks_ dk (l1 ++ k :: l2).
Proof.
  intros E. assert (Eb : block_level (sty (n_style k')) = block_level (sty (n_style k))) by (destruct E as [-> |E]; auto).
  unfold stacks_. rewrite !existsb_app. cbn [existsb]. rewrite Eb. reflexivity.
Qed.
Lemma last_kid_swap l1 x x' l2 : l2 <> [] -> last_kid (l1 ++ x' :: l2) = last_kid (l1 ++ x :: l2).
Proof.
  intros N. unfold last_kid. rewrite !rev_app_distr. cbn [rev]. destruct (rev l2) as [|z r] eqn:E; [|reflexivity].
  destruct N. rewrite <- (rev_involutive l2), E. reflexivity.
Qed.
Lemma last_kid_end l1 x : last_kid (l1 ++ [x]) = Some (match x with UNode u _ => u | _ => used0 end).
Proof. unfold last_kid. rewrite rev_app_distr. destruct x; reflexivity. Qed.
Lemma node_swap d a dk s i st x x' r1 y y' r2 : swap x x' y y' ->
  (r2 <> [] \/ st_height s <> Auto \/ isinl dk = true \/ (forall u us u' us', x = UNode u us -> x' = UNode u' us' -> u' = u)) ->
  exists v, node_of d a dk s i st (r1 ++ y :: r2) = UNode v (r1 ++ y :: r2) /\ node_of d a dk s i st (r1 ++ y' :: r2) = UNode v (r1 ++ y' :: r2)
    /\ u_w v = fst (fst (wmargins d a dk s i)).
Proof.
  intros Sw C.
  assert (Ef : match r1 ++ y' :: r2 with UNode u _ :: _ => u_ct u | _ => 0%Z end = match r1 ++ y :: r2 with UNode u _ :: _ => u_ct u | _ => 0%Z end).
  { destruct r1; [|reflexivity]. cbn [app]. inversion Sw as [u us u' us' t E1 E2 E3 E4 E5 E6 E7 E8|E1 E2]; [|rewrite E1; reflexivity].
    destruct (move_down_keeps t u) as (_ & _ & -> & _), (move_down_keeps t u') as (_ & _ & -> & _). exact E5. }
  assert (Ec : forall f : option used -> Z, (forall k k', u_cb k = u_cb k' -> f (Some k) = f (Some k')) -> f (last_kid (r1 ++ y' :: r2)) = f (last_kid (r1 ++ y :: r2))).
  { intros f Hf. destruct r2 as [|z r2]; [|rewrite (last_kid_swap r1 y y') by discriminate; reflexivity]. rewrite !last_kid_end. apply Hf.
    inversion Sw as [u us u' us' t E1 E2 E3 E4 E5 E6 E7 E8|E1 E2]; [|rewrite E1; reflexivity].
    destruct (move_down_keeps t u) as (_ & -> & _), (move_down_keeps t u') as (_ & -> & _). exact E4. }
  assert (Eh : hgt d a dk s i (last_kid (r1 ++ y' :: r2)) = hgt d a dk s i (last_kid (r1 ++ y :: r2))).
  { destruct C as [C|[C|[C|C]]].
    - rewrite (last_kid_swap r1 y y' r2 C). reflexivity.
    - unfold hgt, used_block_height, spec_height. destruct (st_height s); [contradiction|reflexivity].
    - unfold hgt. rewrite C. reflexivity.
    - destruct r2 as [|z r2]; [|rewrite (last_kid_swap r1 y y') by discriminate; reflexivity]. rewrite !last_kid_end.
      inversion Sw as [u us u' us' t E1 E2 E3 E4 E5 E6 E7 E8|E1 E2]; [|rewrite E1; reflexivity]. rewrite (C _ _ _ _ E1 E2). reflexivity. }
  unfold node_of. cbv zeta. rewrite Eh, Ef.
  set (fcb := fun l : option used => match st_height s, l with
            | Auto, Some k => if isinl dk then whole_px (or0 (bottoms d a dk s i)) else Z.max (whole_px (or0 (bottoms d a dk s i))) (u_cb k)
            | _, _ => whole_px (or0 (bottoms d a dk s i))
            end).
  change (match st_height s with Auto => match last_kid (r1 ++ y' :: r2) with
      | Some k => if isinl dk then whole_px (or0 (bottoms d a dk s i)) else Z.max (whole_px (or0 (bottoms d a dk s i))) (u_cb k)
      | None => whole_px (or0 (bottoms d a dk s i)) end | Len _ => whole_px (or0 (bottoms d a dk s i)) end) with (fcb (last_kid (r1 ++ y' :: r2))).
  rewrite (Ec fcb).
  - eexists. split; [reflexivity|]. split; reflexivity.
  - intros k k' E. unfold fcb. rewrite E. reflexivity.
Qed.

Lemma made_style p n m : made_relative sty p n m -> n_style m = n_style n.
Proof. intros H. inversion H; reflexivity. Qed.
Lemma moved_used d p n u us u' us' : moved sty d p n (UNode u us) (UNode u' us') -> u' = u /\ forall v, u_w v = u_w u -> moved sty d p n (UNode v us) (UNode v us').
Proof.
  intros H. inversion H as [ps pi pb before s i bx kids after pu us1 u0 us0 us2 E|p0 s i bx before k after u0 us1 t t' us2 E M|p0 n0 t [Q|Q]]; subst; try discriminate.
  - split; [reflexivity|]. intros v Ev. rewrite <- Ev. apply moved_here; assumption.
  - split; [reflexivity|]. intros v _. apply moved_below; assumption.
Qed.
Lemma move_down_w t u : u_w (move_down t u) = u_w u. Proof. destruct u; reflexivity. Qed.
Theorem format_moved p n m : made_relative sty p n m -> forall d a, moved sty d p n (format sty d a n) (format sty d a m).
Proof.
  induction 1 as [ps pi pb before s s' i bx kids after Ps Es Bl Ni Nk Pp Co|p s i bx before k k' after H IH]; intros d a; rewrite !format_split.
  - destruct (st_display (sty ps)) as [dk|] eqn:Dk; [|apply moved_away; auto].
    assert (Eb : block_level (sty s') = block_level (sty s)) by (rewrite Es; reflexivity).
    rewrite (stacks_swap dk before (Node s i bx kids) (Node s' i bx kids) after (or_intror Eb)). set (st := stacks_ dk (before ++ Node s i bx kids :: after)).
    set (inner := inner_of d a dk (sty ps) pi).
    destruct (format_relative d inner s s' i bx kids Ps Es Bl Ni Nk) as (u & us & F1 & F2).
    assert (L1 : laid_kid d inner st (Node s i bx kids) = UNode u us) by (unfold laid_kid; cbn [n_style]; rewrite Bl, andb_false_r; exact F1).
    assert (L2 : laid_kid d inner st (Node s' i bx kids) = format sty d inner (Node s' i bx kids)) by (unfold laid_kid; cbn [n_style]; rewrite Eb, Bl, andb_false_r; reflexivity).
    set (dx := shift d 0 (a_w inner) (st_left (sty s)) (st_right (sty s))) in *.
    set (dy := u_bt u + u_pt u + shift d 0 (a_h inner) (st_top (sty s)) (st_bottom (sty s))) in *.
    destruct (move_keeps dx dy u) as (M1 & M2 & M3 & M4 & M5 & M6).
    destruct (kids_swap d inner st before (Node s i bx kids) (Node s' i bx kids) after Eb) as (r1 & r2 & y & y' & K1 & K2 & Le & Le2 & Sw).
    { rewrite L1, L2, F2. do 2 eexists. eapply (swap_node _ _ u us (move dx dy u) us 0); try reflexivity; assumption. }
    rewrite K1, K2. destruct (node_swap d a dk (sty ps) pi st _ _ r1 y y' r2 Sw) as (v & N1 & N2 & Nw).
    { destruct Co as [Co|[Co|Co]]; [left; destruct r2, after; cbn in Le2; congruence|right; left; exact Co|right; right; left]. injection Co as ->. reflexivity. }
    rewrite N1, N2. inversion Sw as [u1 us1 u2 us2 t E1 E2 _ _ _ _ E7 E8|E1 E2].
    + rewrite L1 in E1. injection E1 as <- <-. rewrite L2, F2 in E2. injection E2 as <- <-. rewrite move_down_move.
      assert (Ex : dx = shift d 0 (u_w v) (st_left (sty s)) (st_right (sty s))) by (rewrite Nw; reflexivity).
      assert (Ey : dy = u_bt (move_down t u) + u_pt (move_down t u) + shift d 0 (Some 0) (st_top (sty s)) (st_bottom (sty s))).
      { destruct (move_down_keeps t u) as (_ & _ & _ & _ & -> & -> & _). unfold dy, inner, inner_of. cbn [a_h]. unfold isrel. rewrite Pp. reflexivity. }
      rewrite Ex, Ey. apply moved_here, Le.
    + destruct (E2 _ _ L1).
  - destruct (st_display (sty s)) as [dk|] eqn:Dk; [|apply moved_away; auto].
    pose proof (made_style _ _ _ H) as Est. rewrite (stacks_swap dk before k k' after (or_introl Est)). set (st := stacks_ dk (before ++ k :: after)).
    set (inner := inner_of d a dk (sty s) i). specialize (IH d inner).
    assert (Lm : moved sty d p k (laid_kid d inner st k) (laid_kid d inner st k')).
    { unfold laid_kid. rewrite Est. destruct (_ && _); [apply moved_away; auto|exact IH]. }
    assert (Sh : (exists y y', swap (laid_kid d inner st k) (laid_kid d inner st k') y y')
      /\ (forall u us u' us', laid_kid d inner st k = UNode u us -> laid_kid d inner st k' = UNode u' us' -> u' = u)).
    { inversion Lm as [? ? ? ? ? ? ? ? ? ? ? ? ? ? ? E0 E1 E2|? ? ? ? ? ? ? ? ? ? ? ? ? ? E0 E1 E2|? ? t Q E0 E1 E2].
      - split; [|congruence]. do 2 eexists. eapply (swap_node _ _ _ _ _ _ 0); reflexivity.
      - split; [|congruence]. do 2 eexists. eapply (swap_node _ _ _ _ _ _ 0); reflexivity.
      - split; [|congruence]. do 2 eexists. apply swap_other; [reflexivity|]. destruct Q as [-> | ->]; discriminate. }
    destruct Sh as [Sh Su].
    destruct (kids_swap d inner st before k k' after ltac:(rewrite Est; reflexivity) Sh) as (r1 & r2 & y & y' & K1 & K2 & Le & Le2 & Sw).
    rewrite K1, K2. destruct (node_swap d a dk (sty s) i st _ _ r1 y y' r2 Sw) as (v & N1 & N2 & Nw); [auto|].
    rewrite N1, N2. apply moved_below; [exact Le|]. inversion Sw as [u1 us1 u2 us2 t E1 E2 _ _ _ _ E7 E8|E1 E2].
    + rewrite E1, E2 in Lm. apply moved_used in Lm. destruct Lm as [-> Lm]. apply Lm, move_down_w.
    + rewrite E1 in *. apply moved_away. destruct (laid_kid d inner st k); [destruct (E2 _ _ eq_refl)|auto|auto].
Qed.
Lemma page_moved p n m : made_relative sty p n m -> forall d h5, moved sty d p n (page sty d h5 n) (page sty d h5 m).
Proof.
  intros H d h5. unfold page. pose proof (format_moved p n m H d (mkArea (Some (nval (disp_width d))) (Some (nval (disp_height d))) 0 0 None)) as Mv.
  set (f1 := format sty d _ n) in *. set (f2 := format sty d _ m) in *. clearbody f1 f2. destruct f1 as [u us| |], f2 as [u' us'| |]; try (inversion Mv; fail); try exact Mv.
  apply moved_used in Mv. destruct Mv as [-> Mv]. destruct u. apply Mv. reflexivity.
Qed.

(** C126. *)
Theorem C126_relative_moves_one_block : forall d h5 p (n m n' m' : node), history sty n -> history sty m -> made_relative sty p n m ->
  layout sty d h5 n = (n', Ok tt) -> layout sty d h5 m = (m', Ok tt) ->
  exists t t', shows n' t /\ shows m' t' /\ moved sty d p n t t'.
Proof.
  intros d h5 p n m n' m' Hn Hm R Ln Lm. exists (page sty d h5 n), (page sty d h5 m).
  split; [apply (C122_any_history sty); assumption|]. split; [apply (C122_any_history sty); assumption|apply page_moved, R].
Qed.
End M.
Print Assumptions C126_relative_moves_one_block.

(** ** Examples *)
(** A block with a border, a padding, offsets and a child, between two blocks. *)
Definition shifted_style : style :=
  s_offsets (OLen (pxu 3)) OAuto OAuto (OLen (pctu 10)) (s_padding (pxu 2) zero_px zero_px zero_px (s_border (BLen (pxu 7)) (BLen zero_px) (BLen zero_px) (BLen zero_px) block_style)).
Definition shifted_doc (s : style) : doc :=
  el block_style [el (hpx 10 block_style) []; el s [el (hpx 20 block_style) []]; el (hpx 10 block_style) []].
Example C126_example : history idsty (shifted_doc shifted_style) /\ history idsty (shifted_doc (relatively shifted_style))
  /\ made_relative idsty [1%nat] (shifted_doc shifted_style) (shifted_doc (relatively shifted_style))
  /\ layout idsty screen false (shifted_doc shifted_style) = (out false (shifted_doc shifted_style), Ok tt)
  /\ layout idsty screen false (shifted_doc (relatively shifted_style)) = (out false (shifted_doc (relatively shifted_style)), Ok tt)
  (* 10% of 1000 to the right, 3 + 7 + 2 down; the next block stays *)
  /\ map (fun k => (this (nval (content_left (bx k))), this (nval (content_top (bx k))))) (n_kids (out false (shifted_doc shifted_style)))
     = [(0, 0); (0, 19); (0, 39)]%Q
  /\ map (fun k => (this (nval (content_left (bx k))), this (nval (content_top (bx k))))) (n_kids (out false (shifted_doc (relatively shifted_style))))
     = [(0, 0); (100, 31); (0, 39)]%Q.
Proof.
  split; [apply history_new; solve_new|]. split; [apply history_new; solve_new|]. split.
  { apply (made_here idsty block_style size0 (Some box0) [el (hpx 10 block_style) []] shifted_style (relatively shifted_style) size0 (Some box0)
      [el (hpx 20 block_style) []] [el (hpx 10 block_style) []]); try reflexivity. left. discriminate. }
  split; [apply ok_layout; vm_compute; reflexivity|]. split; [apply ok_layout; vm_compute; reflexivity|]. split; vm_compute; reflexivity.
Qed.
