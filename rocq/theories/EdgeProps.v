(** * C128, C129: percentages and signs of used values *)
From Coq Require Import String ZArith QArith Qcanon Qround Lia Lqa Bool List.
From Verif Require Import PyNum NumFacts Units BoxModel BoxSpec BoxFacts Engine EnginePure EngineSpec EngineExamples EngineInv EngineTree EngineTotal EngineWidth
  RefLayout RefFacts RefProps HistSpec HistProps MoveProps EdgeSpec.
Import ListNotations.
Open Scope Qc_scope.

(** ** The used values of every box that takes part in layout *)
Inductive placed : utree -> utree -> Prop :=
| placed_node u us t : placed (UNode u us) (UNode (move_down t u) us)
| placed_hidden : placed UHidden UHidden
| placed_skipped : placed USkipped USkipped.
Lemma stack_placed l : forall top prev, Forall2 placed l (stack top prev l).
Proof. induction l as [|[u us| |] l IH]; intros top prev; cbn [stack]; constructor; try apply IH; constructor. Qed.
Lemma placed_refl t : placed t t.
Proof. destruct t as [u us| |]; [|constructor|constructor]. rewrite <- (move_down_0 u) at 2. constructor. Qed.
Lemma forall2_map {A B} (f : A -> B) l (R : B -> utree -> Prop) r : Forall2 R (map f l) r -> Forall2 (fun a t => R (f a) t) l r.
Proof. revert r. induction l as [|a l IH]; intros r H; inversion H; subst; constructor; auto. Qed.
Lemma forall2_same {A B} (R : A -> B -> Prop) (f : A -> B) l : (forall a, R a (f a)) -> Forall2 R l (map f l).
Proof. intros H. induction l; constructor; auto. Qed.
Lemma forall2_both {A B} (R Q : A -> B -> Prop) l r a : Forall2 R l r -> Forall2 Q l r -> In a l -> exists t, In t r /\ R a t /\ Q a t.
Proof.
  induction 1 as [|x y l r H _ IH]; intros F I; [destruct I|]. inversion F; subst. destruct I as [<- |I]; [exists y; cbn; auto|].
  destruct (IH ltac:(assumption) I) as (t & T & T'). exists t. cbn. auto.
Qed.

Section E.
Context {S : Type} (sty : S -> style).
Notation node := (node S).
Lemma kids_placed d inner st ks : Forall2 (fun k t => placed (laid_kid sty d inner st k) t) ks (kids_of sty d inner st ks).
Proof.
  unfold kids_of. destruct st; [apply forall2_map, stack_placed|]. apply forall2_same. intros k. apply placed_refl.
Qed.

(** The same edges, vertical margins and width. *)
Definition alike (u v : used) : Prop :=
  u_mt u = u_mt v /\ u_mb u = u_mb v /\ u_bt u = u_bt v /\ u_br u = u_br v /\ u_bb u = u_bb v /\ u_bl u = u_bl v
  /\ u_pt u = u_pt v /\ u_pr u = u_pr v /\ u_pb u = u_pb v /\ u_pl u = u_pl v /\ u_w u = u_w v.
Lemma alike_refl u : alike u u. Proof. repeat split. Qed.
Lemma alike_down t u : alike (move_down t u) u. Proof. destruct u; repeat split. Qed.
Definition area_of (d : display_t) (op : option node) (a : area) : Prop :=
  match op with
  | None => a_w a = Some (nval (disp_width d)) /\ a_h a = Some (nval (disp_height d))
  | Some p => (exists b, n_box p = Some b /\ is_size (content_width b) (a_w a)) /\ (st_position (sty (n_style p)) <> PRelative -> a_h a = Some 0)
  end.
Inductive subtree : utree -> utree -> Prop :=
| subtree_here t : subtree t t
| subtree_below t u us k : subtree (UNode u us) t -> In k us -> subtree k t.
Definition where_ (op : option node) (t root : utree) : Prop :=
  match op with None => root = t | Some _ => exists u us k, root = UNode u us /\ In k us /\ subtree t k end.
Definition spec_around (op : option node) : option unit_ :=
  match op with None => None | Some p => match st_height (sty (n_style p)) with Auto => None | Len u => Some u end end.
Lemma laid_used_h d h5 (n n' : node) op k : history sty n -> layout sty d h5 n = (n', Ok tt) -> laid sty n' op k ->
  exists a u v us, format sty d a k = UNode u us /\ alike v u /\ shows k (UNode v us) /\ area_of d op a /\ where_ op (UNode v us) (page sty d h5 n')
    /\ (op <> None \/ h5 = false -> u_h v = u_h u) /\ a_spec_h a = spec_around op.
Proof.
  intros Hi H L.
  assert (Sh : shows n' (page sty d h5 n')).
  { pose proof (C122_any_history sty d h5 n n' Hi H) as Sh. replace (page sty d h5 n') with (page sty d h5 n); [exact Sh|].
    unfold page. rewrite (format_inputs sty d n n'); [reflexivity|]. pose proof (layout_inputs sty d h5 n) as I. rewrite H in I. symmetry. exact I. }
  induction L as [D|op p k L IH I D B].
  - unfold page in *. set (a := mkArea _ _ _ _ _) in *. destruct n' as [s i bx ks]. pose proof (format_split sty d a s i bx ks) as F.
    unfold displayed in D. cbn [n_style] in D. destruct (st_display (sty s)) as [dk|]; [|contradiction].
    unfold node_of in F. cbv zeta in F. rewrite F in Sh |- *. exists a. do 3 eexists. split; [exact F|]. split; [|split; [exact Sh|split; [split; reflexivity|split; [reflexivity|split; [|reflexivity]]]]].
    + repeat split.
    + intros [X| ->]; [contradiction|reflexivity].
  - destruct IH as (a & u & v & us & F & Al & Shp & Ar & Sub & _). destruct p as [s i bx ks]. rewrite format_split in F.
    destruct (st_display (sty s)) as [dk|] eqn:Dk; [|discriminate]. set (inner := inner_of d a dk (sty s) i) in *. set (st := stacks_ sty dk ks) in *.
    unfold node_of in F. cbv zeta in F. injection F as Eu Eus. subst us. inversion Shp as [s0 i0 b0 ks0 u0 us0 Hu Fs| |]; subst s0 i0 ks0 u0 us0.
    cbn [n_kids] in I. destruct (forall2_both _ _ _ _ k (kids_placed d inner st ks) Fs I) as (t & It & P & Sk).
    assert (Bk : st && negb (block_level (sty (n_style k))) = false).
    { destruct (block_level (sty (n_style k))) eqn:Bl; [apply andb_false_r|]. rewrite andb_true_r. destruct B as [B|B]; [|unfold block_level, is_block_level in *; congruence].
      unfold st, stacks_. destruct dk; try reflexivity.
      - assert (R : s_replaced i = false).
        { refine (proj1 (laid_width sty d h5 n n' op (Node s i bx ks) H L _)). unfold is_block_level. cbn [n_style]. rewrite Dk. reflexivity. }
        unfold establishes_inline, is_block_container in B. cbn [n_style n_intr n_kids] in B. rewrite Dk, R in B. cbn [negb] in B. apply negb_true_iff in B. exact B.
      - assert (R : s_replaced i = false).
        { refine (proj1 (laid_width sty d h5 n n' op (Node s i bx ks) H L _)). unfold is_block_level. cbn [n_style]. rewrite Dk. reflexivity. }
        unfold establishes_inline, is_block_container in B. cbn [n_style n_intr n_kids] in B. rewrite Dk, R in B. cbn [negb] in B. apply negb_true_iff in B. exact B. }
    unfold laid_kid in P. rewrite Bk in P. assert (Fk : exists u' us', format sty d inner k = UNode u' us').
    { destruct k as [s1 i1 b1 ks1]. rewrite format_split. unfold displayed in D. cbn [n_style] in D. destruct (st_display (sty s1)); [|contradiction]. unfold node_of. cbv zeta. eauto. }
    destruct Fk as (u' & us' & Fk). rewrite Fk in P. inversion P as [u1 us1 tp E1 E2| |]; subst. exists inner, u', (move_down tp u'), us'.
    split; [exact Fk|]. split; [apply alike_down|]. split; [exact Sk|]. split.
    2:{ split; [|split; [intros _; destruct u'; reflexivity|reflexivity]].
        destruct op as [p0|]; cbn [where_] in *; [destruct Sub as (ur & usr & kr & S1 & S2 & S3); exists ur, usr, kr; split; [exact S1|]; split; [exact S2|]; eapply subtree_below; [exact S3|exact It]|].
        do 3 eexists. split; [exact Sub|]. split; [exact It|apply subtree_here]. }
    split.
    + exists b0. split; [reflexivity|]. pose proof (hu_w _ _ Hu) as W. destruct Al as (_ & _ & _ & _ & _ & _ & _ & _ & _ & _ & Aw). rewrite Aw in W. exact W.
    + cbn [n_style]. intros N. unfold inner, inner_of, isrel. cbn [a_h]. destruct (st_position (sty s)); try reflexivity. contradiction.
Qed.

Lemma laid_used d h5 (n n' : node) op k : history sty n -> layout sty d h5 n = (n', Ok tt) -> laid sty n' op k ->
  exists a u v us, format sty d a k = UNode u us /\ alike v u /\ shows k (UNode v us) /\ area_of d op a /\ where_ op (UNode v us) (page sty d h5 n').
Proof. intros Hi H L. destruct (laid_used_h d h5 n n' op k Hi H L) as (a & u & v & us & F & Al & Sh & Ar & Wh & _). exists a, u, v, us. auto. Qed.

(** ** Exact edges *)
Record edges_are (d : display_t) (W H : Qc) (s : style) (b : box) : Prop := {
  ea_pt : nval (padding_top b) = len d W (st_padding_top s); ea_pr : nval (padding_right b) = len d H (st_padding_right s);
  ea_pb : nval (padding_bottom b) = len d W (st_padding_bottom s); ea_pl : nval (padding_left b) = len d H (st_padding_left s);
  ea_bt : nval (border_top_width b) = border_len d W (st_border_top s); ea_br : nval (border_right_width b) = border_len d H (st_border_right s);
  ea_bb : nval (border_bottom_width b) = border_len d W (st_border_bottom s); ea_bl : nval (border_left_width b) = border_len d H (st_border_left s);
  ea_mt : is_num (margin_top b) (len0 d H (st_margin_top s));
  ea_mb : forall u, st_margin_bottom s = Len u -> is_num (margin_bottom b) (len d H u) }.
Lemma laid_edges d h5 (n n' : node) op k : history sty n -> layout sty d h5 n = (n', Ok tt) -> laid sty n' op k ->
  exists a b, n_box k = Some b /\ area_of d op a /\ edges_are d (or0 (a_w a)) (or0 (a_h a)) (sty (n_style k)) b.
Proof.
  intros Hi H L. destruct (laid_used d h5 n n' op k Hi H L) as (a & u & v & us & F & Al & Sh & Ar & _).
  inversion Sh as [s i b ks u0 us0 Hu Fs| |]; subst. exists a, b. split; [reflexivity|]. split; [exact Ar|].
  rewrite format_split in F. destruct (st_display (sty s)) as [dk|]; [|discriminate]. unfold node_of in F. cbv zeta in F. injection F as Eu _.
  destruct Al as (A1 & A2 & A3 & A4 & A5 & A6 & A7 & A8 & A9 & A10 & A11). subst u. cbn [u_mt u_mb u_bt u_br u_bb u_bl u_pt u_pr u_pb u_pl u_w] in *.
  destruct Hu as [H1 H2 H3 H4 H5 H6 H7 H8 H9 H10 H11 H12 H13 H14 H15 H16 H17 H18]. cbn [n_style].
  split; try congruence.
  intros x Ex. rewrite A2 in H3. unfold bottoms in H3. rewrite Ex, andb_false_r in H3. exact H3.
Qed.
Lemma area_width d op a : area_of d op a -> or0 (a_w a) = width_around d op.
Proof.
  destruct op as [p|]; cbn [area_of].
  - intros [(b & B & W) _]. unfold width_around. rewrite B. destruct (a_w a) as [x|]; cbn in W.
    + destruct W as (z & -> & <-). reflexivity.
    + rewrite W. reflexivity.
  - intros [-> _]. reflexivity.
Qed.
Lemma area_height d op a : area_of d op a -> static_around sty op -> or0 (a_h a) = height_around d op.
Proof.
  destruct op as [p|]; cbn [area_of static_around].
  - intros [_ Hh] St. rewrite (Hh St). reflexivity.
  - intros [_ ->] _. reflexivity.
Qed.
Lemma len_percent d x u : is_percentage u = true -> len d x u = percent u x.
Proof. unfold is_percentage, len, exact_len, percent. destruct (u_kind u); try discriminate. reflexivity. Qed.

(** C128. *)
Theorem C128_percentages : forall d h5 (n n' : node) op k b,
  history sty n -> layout sty d h5 n = (n', Ok tt) -> laid sty n' op k -> n_box k = Some b -> static_around sty op ->
  let s := sty (n_style k) in
  let W := width_around d op in
  let H := height_around d op in
  (is_percentage (st_padding_top s) = true -> nval (padding_top b) = percent (st_padding_top s) W)
  /\ (is_percentage (st_padding_bottom s) = true -> nval (padding_bottom b) = percent (st_padding_bottom s) W)
  /\ (is_percentage (st_padding_left s) = true -> nval (padding_left b) = percent (st_padding_left s) H)
  /\ (is_percentage (st_padding_right s) = true -> nval (padding_right b) = percent (st_padding_right s) H)
  /\ (forall u, is_percentage u = true -> st_border_top s = BLen u -> nval (border_top_width b) = percent u W)
  /\ (forall u, is_percentage u = true -> st_border_bottom s = BLen u -> nval (border_bottom_width b) = percent u W)
  /\ (forall u, is_percentage u = true -> st_border_left s = BLen u -> nval (border_left_width b) = percent u H)
  /\ (forall u, is_percentage u = true -> st_border_right s = BLen u -> nval (border_right_width b) = percent u H)
  /\ (forall u, is_percentage u = true -> st_margin_top s = Len u -> is_num (margin_top b) (percent u H))
  /\ (forall u, is_percentage u = true -> st_margin_bottom s = Len u -> is_num (margin_bottom b) (percent u H)).
Proof.
  intros d h5 n n' op k b Hi H L Eb St. destruct (laid_edges d h5 n n' op k Hi H L) as (a & b' & Eb' & Ar & E). rewrite Eb in Eb'. injection Eb' as <-.
  rewrite (area_width d op a Ar), (area_height d op a Ar St) in E. destruct E as [E1 E2 E3 E4 E5 E6 E7 E8 E9 E10]. cbv zeta.
  repeat split; intros *; try (intros P; rewrite <- (len_percent d) by exact P; assumption); intros P Eu; rewrite <- (len_percent d) by exact P.
  - rewrite Eu in E5. exact E5.
  - rewrite Eu in E7. exact E7.
  - rewrite Eu in E8. exact E8.
  - rewrite Eu in E6. exact E6.
  - rewrite Eu in E9. exact E9.
  - apply E10, Eu.
Qed.
Lemma percent_0 u : percent u 0 = 0.
Proof. unfold percent. replace (amount (u_val u) * 0 / Z2Qc 100) with 0 by (unfold Qcdiv; ring). apply Qc_is_canon. reflexivity. Qed.
(** So percentages of vertical margins and of left and right paddings and borders vanish below the root. *)
Theorem C128_vanish : forall d h5 (n n' : node) p k b,
  history sty n -> layout sty d h5 n = (n', Ok tt) -> laid sty n' (Some p) k -> n_box k = Some b -> st_position (sty (n_style p)) <> PRelative ->
  let s := sty (n_style k) in
  (is_percentage (st_padding_left s) = true -> nval (padding_left b) = 0)
  /\ (is_percentage (st_padding_right s) = true -> nval (padding_right b) = 0)
  /\ (forall u, is_percentage u = true -> st_border_left s = BLen u -> nval (border_left_width b) = 0)
  /\ (forall u, is_percentage u = true -> st_border_right s = BLen u -> nval (border_right_width b) = 0)
  /\ (forall u, is_percentage u = true -> st_margin_top s = Len u -> is_num (margin_top b) 0)
  /\ (forall u, is_percentage u = true -> st_margin_bottom s = Len u -> is_num (margin_bottom b) 0).
Proof.
  intros d h5 n n' p k b Hi H L Eb St. pose proof (C128_percentages d h5 n n' (Some p) k b Hi H L Eb St) as P. cbv zeta in P |- *. cbn [height_around] in P.
  destruct P as (_ & _ & P1 & P2 & _ & _ & P3 & P4 & P5 & P6). split; [intros Q; rewrite P1, percent_0; auto|]. split; [intros Q; rewrite P2, percent_0; auto|].
  split; [intros u Q R; rewrite (P3 u Q R); apply percent_0|]. split; [intros u Q R; rewrite (P4 u Q R); apply percent_0|].
  split; intros u Q R; rewrite <- (percent_0 u); auto.
Qed.

(** ** Signs *)
Lemma grid_nonneg q : 0 <= q -> 0 <= to_grid q.
Proof.
  intros Hq. assert (X : (0 <= this (Z2Qc 64 * q))%Q) by (rewrite this_mul, this_Z2Qc; apply Qmult_le_0_compat; [discriminate|exact Hq]).
  apply rhe_mono in X. change (round_half_even 0) with 0%Z in X. unfold to_grid, Qcle. rewrite this_qfrac. change (this 0) with 0%Q. unfold Qle. cbn [Qnum Qden]. lia.
Qed.
Lemma grid_nonpos q : q <= 0 -> to_grid q <= 0.
Proof.
  intros Hq. assert (X : (this (Z2Qc 64 * q) <= 0)%Q).
  { rewrite this_mul, this_Z2Qc. unfold Qcle in Hq. cbn in Hq. assert (X : (inject_Z 64 * - this q >= 0)%Q) by (apply Qmult_le_0_compat; [discriminate|lra]). lra. }
  apply rhe_mono in X. change (round_half_even 0) with 0%Z in X. unfold to_grid, Qcle. rewrite this_qfrac. change (this 0) with 0%Q. unfold Qle. cbn [Qnum Qden]. lia.
Qed.
Lemma mul_nonneg a b : 0 <= a -> 0 <= b -> 0 <= a * b.
Proof. unfold Qcle. rewrite this_mul. intros. apply Qmult_le_0_compat; assumption. Qed.
Lemma div_nonneg a z : 0 <= a -> 0 <= a / Z2Qc (Zpos z).
Proof.
  unfold Qcle. rewrite this_div, this_Z2Qc. intros. apply Qmult_le_0_compat; [assumption|].
  apply Qinv_le_0_compat. change 0%Q with (inject_Z 0). rewrite <- Zle_Qle. lia.
Qed.
Lemma qc_min_nonneg a b : 0 <= a -> 0 <= b -> 0 <= qc_min a b.
Proof. unfold qc_min. destruct (qc_ltb b a); auto. Qed.
Lemma qc_maxi_nonneg a b : 0 <= a -> 0 <= b -> 0 <= qc_maxi a b.
Proof. unfold qc_maxi. destruct (qc_ltb a b); auto. Qed.
Definition display_ok (d : display_t) : Prop := 0 <= nval (dpi d) /\ 0 <= nval (disp_width d) /\ 0 <= nval (disp_height d).
Lemma absolute_nonneg d x u : display_ok d -> 0 <= amount (u_val u) -> absolute u -> 0 <= len d x u.
Proof.
  intros (D1 & D2 & D3) V A. unfold len. apply grid_nonneg. unfold exact_len. unfold absolute in A. destruct (u_kind u) as [|f|s pts|s sc| |s r]; try contradiction.
  - exact V.
  - apply mul_nonneg; [apply mul_nonneg; assumption|apply div_nonneg; assumption].
  - destruct sc; apply div_nonneg, mul_nonneg; try assumption; (apply qc_min_nonneg || apply qc_maxi_nonneg); assumption.
Qed.
Lemma percent_nonneg d x u : 0 <= x -> 0 <= amount (u_val u) -> is_percentage u = true -> 0 <= len d x u.
Proof. intros X V P. rewrite len_percent by exact P. apply grid_nonneg, div_nonneg, mul_nonneg; assumption. Qed.
Lemma font_nonpos d x u : display_ok d -> 0 <= amount (u_val u) -> font_relative u -> len d x u <= 0.
Proof.
  intros (D1 & D2 & D3) V A. unfold len. apply grid_nonpos. unfold exact_len. unfold font_relative in A. destruct (u_kind u) as [|f|s pts|s sc| |s r]; try contradiction.
  set (c := if String.eqb f "em"%string then 1 else if String.eqb f "ex"%string then qfrac 65 100 else qfrac 71 100).
  assert (C : 0 <= c) by (unfold c; destruct (String.eqb f "em"%string); [discriminate|destruct (String.eqb f "ex"%string); discriminate]).
  assert (X : 0 <= amount (u_val u) * c * (nval (dpi d) / Z2Qc 72)) by (apply mul_nonneg; [apply mul_nonneg; assumption|apply div_nonneg; assumption]).
  replace (amount (u_val u) * - c * (nval (dpi d) / Z2Qc 72)) with (- (amount (u_val u) * c * (nval (dpi d) / Z2Qc 72))) by ring. qclra.
Qed.

(** C129: the sign of a used padding, border or vertical margin. *)
Theorem C129_signs : forall d h5 (n n' : node) op k b u x,
  history sty n -> layout sty d h5 n = (n', Ok tt) -> laid sty n' op k -> n_box k = Some b ->
  0 <= nval (dpi d) -> 0 <= nval (disp_width d) -> 0 <= nval (disp_height d) ->
  edge_of (sty (n_style k)) b u x -> 0 <= amount (u_val u) ->
  (absolute u -> 0 <= x) /\ (font_relative u -> x <= 0).
Proof.
  intros d h5 n n' op k b u x Hi H L Eb D1 D2 D3 Ed V. destruct (laid_edges d h5 n n' op k Hi H L) as (a & b' & Eb' & Ar & E). rewrite Eb in Eb'. injection Eb' as <-.
  assert (X : exists y, x = len d y u).
  { destruct E as [E1 E2 E3 E4 E5 E6 E7 E8 E9 E10]. inversion Ed as [A B|A B|A B|A B|v A B C|v A B C|v A B C|v A B C|v y A B C F|v y A B C F]; subst; eauto.
    - rewrite A in E5. eauto.
    - rewrite A in E6. eauto.
    - rewrite A in E7. eauto.
    - rewrite A in E8. eauto.
    - rewrite A in E9. destruct E9 as (z & Z1 & Z2). rewrite B in Z1. injection Z1 as <-. eauto.
    - destruct (E10 u A) as (z & Z1 & Z2). rewrite B in Z1. injection Z1 as <-. eauto. }
  destruct X as (y & ->). assert (Dk : display_ok d) by (split; auto). split; [apply absolute_nonneg; assumption|apply font_nonpos; assumption].
Qed.

(** ** Heights *)
Record tall (u : used) : Prop := {
  tl_h : 0 <= or0 (u_h u); tl_top : 0 <= u_top u; tl_bt : 0 <= u_bt u; tl_bb : 0 <= u_bb u; tl_pt : 0 <= u_pt u; tl_pb : 0 <= u_pb u;
  tl_mt : 0 <= u_mt u; tl_cb : (0 <= u_cb u)%Z }.
Inductive all_tall : utree -> Prop :=
| tall_node u us : tall u -> Forall all_tall us -> all_tall (UNode u us)
| tall_hidden : all_tall UHidden
| tall_skipped : all_tall USkipped.
Lemma add_nonneg a b : 0 <= a -> 0 <= b -> 0 <= a + b. Proof. intros. qclra. Qed.
Lemma whole_nonneg q : (0 <= whole_px q)%Z.
Proof. unfold whole_px. destruct (qc_eqb _ _); lia. Qed.
Lemma tall_down t u : 0 <= t -> tall u -> tall (move_down t u).
Proof. intros T [H1 H2 H3 H4 H5 H6 H7 H8]. destruct u. cbn in *. constructor; cbn; try assumption. apply add_nonneg; assumption. Qed.
Lemma border_height_nonneg u : tall u -> 0 <= border_height u.
Proof. intros [H1 H2 H3 H4 H5 H6 H7 H8]. unfold border_height. repeat apply add_nonneg; assumption. Qed.
Lemma Z2Qc_nonneg z : (0 <= z)%Z -> 0 <= Z2Qc z.
Proof. intros Hz. unfold Qcle. rewrite this_Z2Qc. change (this 0) with (inject_Z 0). rewrite <- Zle_Qle. exact Hz. Qed.
Lemma stack_tall l : Forall all_tall l -> forall top prev, 0 <= top -> (forall z, prev = Some z -> (0 <= z)%Z) -> Forall all_tall (stack top prev l).
Proof.
  induction 1 as [|t l Ht _ IH]; intros top prev T P; [constructor|]. inversion Ht as [u us Hu Hs|HH|HH]; subst; cbn [stack]; constructor; try constructor; try apply IH; try assumption.
  - apply tall_down; [|exact Hu]. apply add_nonneg; [exact T|]. destruct prev as [z|]; [|discriminate]. apply qc_maxi_nonneg; [apply Z2Qc_nonneg, P; reflexivity|apply Hu].
  - apply add_nonneg; [|apply border_height_nonneg, Hu]. apply add_nonneg; [exact T|]. destruct prev as [z|]; [|discriminate]. apply qc_maxi_nonneg; [apply Z2Qc_nonneg, P; reflexivity|apply Hu].
  - intros z E. injection E as <-. apply Hu.
Qed.
Lemma last_tall l : Forall all_tall l -> forall u, last_kid l = Some u -> tall u.
Proof.
  intros F u. unfold last_kid. apply Forall_rev in F. destruct F as [|t r Ht _]; [discriminate|].
  assert (T0 : tall used0) by (constructor; discriminate || lia). destruct Ht as [v us Hv _| |]; intros E; injection E as <-; assumption.
Qed.
Section Tall.
Variable d : display_t.
Hypothesis Dk : display_ok d.
Hypothesis Kw : forall k, 0 <= nval (fixed_size d k).
Lemma size_nonneg x u : 0 <= x -> size_length u -> 0 <= len d x u.
Proof. intros X [V [A|P]]; [apply absolute_nonneg; assumption|apply percent_nonneg; assumption]. Qed.
Lemma size0_nonneg x v : 0 <= x -> size_or_auto v -> 0 <= len0 d x v.
Proof. destruct v; [intros; discriminate|apply size_nonneg]. Qed.
Lemma border_nonneg x v : plain_border v -> 0 <= border_len d x v.
Proof. destruct v as [k|u]; [intros _; apply Kw|]. intros [V A]. apply absolute_nonneg; assumption. Qed.
Lemma image_nonneg H w s i : 0 <= H -> nonneg_heights s i -> (st_height s = Auto -> 0 <= w) -> 0 <= image_height d H w s i.
Proof.
  intros Hh N Hw. unfold image_height. pose proof (nh_height _ _ N) as Nh. pose proof (nh_ih _ _ N) as Ni. pose proof (nh_ir _ _ N) as Nr.
  destruct (st_height s) as [|u]; [|apply size_nonneg; assumption]. specialize (Hw eq_refl).
  assert (G : 0 <= match given (s_ratio i), given (s_height i) with Some r, _ => w * r | None, Some h => h | None, None => qc_min (Z2Qc (Qfloor (this (w / Z2Qc 2)))) (Z2Qc 150) end).
  { unfold given. destruct (s_ratio i) as [r|], (s_height i) as [h|]; cbn in Ni, Nr; repeat match goal with |- context [qc_eqb ?a ?b] => destruct (qc_eqb a b) end;
      try (apply mul_nonneg; assumption); try assumption;
      apply qc_min_nonneg; try discriminate; apply Z2Qc_nonneg; change 0%Z with (Qfloor (inject_Z 0)); apply Qfloor_resp_le; apply (div_nonneg w 2 Hw). }
  destruct (st_width s); [|exact G]. destruct (s_height i) as [h|]; [exact Ni|exact G].
Qed.
Lemma format_tall (n : node) : every_node (fun s i => nonneg_heights (sty s) i) n -> forall a, 0 <= or0 (a_h a) -> (forall u, a_spec_h a = Some u -> size_length u) ->
  all_tall (format sty d a n).
Proof.
  induction n as [s i bx ks IH] using node_ind'. intros Ev a Ha Hs. inversion Ev as [s0 i0 bx0 ks0 N Nk]; subst. rewrite format_split.
  destruct (st_display (sty s)) as [dk|] eqn:Dd; [|constructor]. set (inner := inner_of d a dk (sty s) i). set (st := stacks_ sty dk ks).
  assert (Hr : isrel (sty s) = false) by (pose proof (nh_static _ _ N) as X; unfold isrel; destruct (st_position (sty s)); try reflexivity; contradiction).
  assert (K : Forall all_tall (kids_of sty d inner st ks)).
  { assert (Km : Forall all_tall (map (laid_kid sty d inner st) ks)).
    { apply Forall_forall. intros t It. apply in_map_iff in It. destruct It as (k & <- & Ik). unfold laid_kid. destruct (_ && _); [constructor|].
      apply IH; [exact Ik|apply Nk, Ik| |].
      - unfold inner, inner_of. cbn [a_h]. rewrite Hr. discriminate.
      - unfold inner, inner_of. cbn [a_spec_h]. pose proof (nh_height _ _ N) as Nh. destruct (st_height (sty s)) as [|u0]; [discriminate|]. intros u E. injection E as <-. exact Nh. }
    unfold kids_of. destruct st; [|exact Km]. apply stack_tall; [exact Km|discriminate|discriminate]. }
  set (kids := kids_of sty d inner st ks) in *. clearbody kids. unfold node_of. cbv zeta. constructor; [|exact K]. rewrite Hr. pose proof N as N'. destruct N' as [N1 N2 N3 N4 N5 N6 N7 N8 N9 N10 N11 N12 N13].
  assert (Hpt : 0 <= len d (or0 (a_w a)) (st_padding_top (sty s))) by (apply absolute_nonneg; [exact Dk|apply N9|apply N9]).
  assert (Hpb : 0 <= len d (or0 (a_w a)) (st_padding_bottom (sty s))) by (apply absolute_nonneg; [exact Dk|apply N10|apply N10]).
  assert (Hbt : 0 <= border_len d (or0 (a_w a)) (st_border_top (sty s))) by (apply border_nonneg, N7).
  assert (Hmt : 0 <= len0 d (or0 (a_h a)) (st_margin_top (sty s))) by (apply size0_nonneg; assumption).
  constructor; cbn [u_h u_top u_bt u_bb u_pt u_pb u_mt u_cb]; try assumption.
  - unfold hgt. destruct dk; cbn [isinl]; cbn [or0];
      try (unfold used_block_height, spec_height; destruct (st_height (sty s)) as [|u] eqn:Eh;
           [destruct (last_kid kids) as [lu|] eqn:El;
              [destruct (last_tall _ K _ El) as [L1 L2 L3 L4 L5 L6 L7 L8]; unfold border_bottom; repeat apply add_nonneg; assumption
              |apply size0_nonneg; assumption]
           |assert (X : 0 <= len d (match a_spec_h a with Some pu => len d (or0 (a_h a)) pu | None => or0 (a_h a) end) u)
              by (apply size_nonneg; [destruct (a_spec_h a) as [pu|]; [apply size_nonneg; [exact Ha|apply Hs; reflexivity]|exact Ha]|exact N2]);
            destruct (st_max_height (sty s)) as [m|]; [apply qc_min_nonneg; [exact X|apply size_nonneg; assumption]|exact X]]; fail).
    destruct (s_replaced i) eqn:Er; cbn [or0].
    + apply image_nonneg; [exact Ha|exact N|]. intros Eh. specialize (N13 Dd eq_refl Eh). unfold wmargins, isinl. rewrite Er. cbn [fst or0]. unfold image_width.
      destruct (st_width (sty s)) as [|u]; [destruct N13 as (w & -> & Nw); exact Nw|apply absolute_nonneg; [exact Dk|apply N13|apply N13]].
    + destruct (s_height i) as [x|]; cbn; [exact N11|discriminate].
  - apply add_nonneg; [|discriminate]. unfold edges. repeat apply add_nonneg; try assumption. destruct (isinl dk); [exact Hmt|discriminate].
  - apply border_nonneg, N8.
  - pose proof (whole_nonneg (or0 (bottoms d a dk (sty s) i))) as Wn. destruct (st_height (sty s)); [|exact Wn]. destruct (last_kid kids); [|exact Wn]. destruct (isinl dk); [exact Wn|lia].
Qed.
End Tall.
Lemma subtree_tall t t0 : subtree t t0 -> all_tall t0 -> all_tall t.
Proof. induction 1 as [|t u us k _ IH I]; [auto|]. intros T. specialize (IH T). inversion IH as [u' us' _ F| |]; subst. rewrite Forall_forall in F. apply F, I. Qed.

(** C129: heights. *)
Theorem C129_heights : forall d h5 (n n' : node) op k b x,
  history sty n -> layout sty d h5 n = (n', Ok tt) -> laid sty n' op k -> n_box k = Some b ->
  0 <= nval (dpi d) -> 0 <= nval (disp_width d) -> 0 <= nval (disp_height d) -> (forall kw, 0 <= nval (fixed_size d kw)) ->
  every_node (fun s i => nonneg_heights (sty s) i) n -> op <> None \/ h5 = false ->
  content_height b = LNum x -> 0 <= nval x.
Proof.
  intros d h5 n n' op k b x Hi H L Eb D1 D2 D3 Kw Ev Ro Ex.
  destruct (laid_used d h5 n n' op k Hi H L) as (a & u & v & us & F & Al & Sh & Ar & Wh).
  assert (Ep : page sty d h5 n' = page sty d h5 n).
  { unfold page. rewrite (format_inputs sty d n' n); [reflexivity|]. pose proof (layout_inputs sty d h5 n) as I. rewrite H in I. exact I. }
  rewrite Ep in Wh.
  assert (Th : 0 <= or0 (u_h v)).
  { unfold page in Wh. set (ar := mkArea _ _ _ _ _) in Wh.
    assert (Ft : all_tall (format sty d ar n)) by (apply format_tall; [split; auto|exact Kw|exact Ev|exact D3|discriminate]).
    destruct (format sty d ar n) as [[mt mr mb ml bt br bb bl pt pr pb pl w h lf tp ct cb] us0| |].
    2,3: exfalso; destruct op; cbn [where_] in Wh; [destruct Wh as (? & ? & ? & X & _); discriminate X|discriminate Wh].
    inversion Ft as [u0 us1 Tu Fs| |]; subst. destruct op as [p|]; cbn [where_] in Wh.
    - destruct Wh as (ur & usr & kr & S1 & S2 & S3). injection S1 as <- <-. rewrite Forall_forall in Fs. assert (T : all_tall (UNode v us)) by (apply (subtree_tall _ _ S3), Fs, S2). inversion T as [u1 us1 Tv _| |]; subst. apply Tv.
    - destruct Ro as [Ro| ->]; [contradiction|]. injection Wh as <- <-. apply Tu. }
  inversion Sh as [s i b0 ks u0 us0 Hu _| |]; subst. cbn in Eb. injection Eb as ->.
  pose proof (hu_h _ _ Hu) as Hh. rewrite Ex in Hh. destruct (u_h v) as [q|]; cbn in Hh; [|discriminate].
  destruct Hh as (z & Z1 & <-). injection Z1 as <-. exact Th.
Qed.
End E.
Print Assumptions C128_percentages.
Print Assumptions C128_vanish.
Print Assumptions C129_signs.
Print Assumptions C129_heights.

(** ** Examples *)
(** A child with 10% everywhere in a static parent of width 1000: 100 px above
    and below, nothing at the sides. *)
Definition pct_style : style :=
  s_margin (Len (pctu 10)) (Len zero_px) (Len (pctu 10)) (Len zero_px)
    (s_padding (pctu 10) (pctu 10) (pctu 10) (pctu 10) (s_border (BLen (pctu 10)) (BLen (pctu 10)) (BLen (pctu 10)) (BLen (pctu 10)) block_style)).
Definition pct_doc : doc := el block_style [el pct_style []].
Lemma laid_first n k ks : n_kids n = k :: ks -> displayed idsty n -> displayed idsty k -> is_block_level (n_style k) = true -> laid idsty n (Some n) k.
Proof. intros E Dn Dk B. eapply EngineSpec.laid_kid; [apply laid_root, Dn|rewrite E; left; reflexivity|exact Dk|right; exact B]. Qed.
Example C128_example : history idsty pct_doc /\ layout idsty screen true pct_doc = (out true pct_doc, Ok tt)
  /\ laid idsty (out true pct_doc) (Some (out true pct_doc)) (kid 0 (out true pct_doc))
  /\ static_around idsty (Some (out true pct_doc))
  /\ is_percentage (st_padding_top (n_style (kid 0 (out true pct_doc)))) = true
  /\ this (width_around screen (Some (out true pct_doc))) = 1000%Q
  /\ (let b := bx (kid 0 (out true pct_doc)) in
      map (fun x => this (nval x)) [padding_top b; padding_bottom b; padding_left b; padding_right b; border_top_width b; border_left_width b] = [100; 100; 0; 0; 100; 0]%Q
      /\ map lq [margin_top b; margin_bottom b] = [Some 0; Some 0]%Q).
Proof.
  split; [apply history_new; solve_new|]. split; [vm_compute; reflexivity|]. split.
  { eapply laid_first with (ks := []); [vm_compute; reflexivity| | |vm_compute; reflexivity]; unfold displayed; vm_compute; discriminate. }
  split; [vm_compute; discriminate|]. split; [vm_compute; reflexivity|]. split; [vm_compute; reflexivity|]. split; vm_compute; reflexivity.
Qed.

(** Upper padding in em, lower in px: the signs differ. *)
Definition sign_style : style := s_padding (emu 2) zero_px (pxu 2) zero_px block_style.
Definition sign_doc : doc := el block_style [el sign_style []].
Example C129_example : history idsty sign_doc /\ layout idsty screen true sign_doc = (out true sign_doc, Ok tt)
  /\ laid idsty (out true sign_doc) (Some (out true sign_doc)) (kid 0 (out true sign_doc))
  /\ (let b := bx (kid 0 (out true sign_doc)) in
      edge_of sign_style b (emu 2) (nval (padding_top b)) /\ edge_of sign_style b (pxu 2) (nval (padding_bottom b))
      /\ font_relative (emu 2) /\ absolute (pxu 2) /\ nval (padding_top b) < 0 /\ 0 < nval (padding_bottom b)).
Proof.
  split; [apply history_new; solve_new|]. split; [vm_compute; reflexivity|]. split.
  { eapply laid_first with (ks := []); [vm_compute; reflexivity| | |vm_compute; reflexivity]; unfold displayed; vm_compute; discriminate. }
  cbv zeta. split; [exact (edge_pt sign_style _)|]. split; [exact (edge_pb sign_style _)|]. split; [exact I|]. split; [exact I|]. split; vm_compute; reflexivity.
Qed.

(** Blocks around a word with a known height and an image whose height follows from its
    intrinsic width; the widths need not be sensible. *)
Definition tall_doc : doc :=
  el (s_size (Len (pxu (-50))) Auto block_style)
     [el (s_margin (Len (pctu 5)) (Len zero_px) (Len (pxu 4)) (Len zero_px) block_style)
         [Node (s_display (Some DInline) block_style) (mkSize None (Some (NI 12)) false false None false) (Some box0) [];
          Node (s_display (Some DInline) block_style) (mkSize (Some (NI 40)) None false false (Some (NI 2)) true) (Some box0) []]].
Example C129_heights_example : history idsty tall_doc /\ layout idsty screen false tall_doc = (out false tall_doc, Ok tt)
  /\ laid idsty (out false tall_doc) (Some (out false tall_doc)) (kid 0 (out false tall_doc))
  /\ every_node (fun s i => nonneg_heights (idsty s) i) tall_doc
  /\ lq (content_height (bx (kid 0 (out false tall_doc)))) = Some 80%Q /\ (forall kw, 0 <= nval (fixed_size screen kw)).
Proof.
  split; [apply history_new; solve_new|]. split; [vm_compute; reflexivity|]. split.
  { eapply laid_first with (ks := []); [vm_compute; reflexivity| | |vm_compute; reflexivity]; unfold displayed; vm_compute; discriminate. }
  split; [|split; [vm_compute; reflexivity|intros []; vm_compute; discriminate]].
  assert (Ps : forall z, (0 <= z)%Z -> plain_length (pxu z)).
  { intros z Hz. split; [|exact I]. unfold pxu. cbn. apply Z2Qc_nonneg, Hz. }
  assert (Ss : forall z, (0 <= z)%Z -> size_length (pxu z)).
  { intros z Hz. destruct (Ps z Hz) as [A B]. split; auto. }
  assert (Sp : size_length (pctu 5)) by (split; [vm_compute; discriminate|right; reflexivity]).
  assert (W : forall s i, In s [n_style tall_doc; n_style (kid 0 tall_doc); s_display (Some DInline) block_style] ->
    nonneg_num (s_height i) -> nonneg_num (s_ratio i) ->
    (st_display s = Some DInline -> s_replaced i = true -> exists w, s_width i = Some w /\ 0 <= nval w) -> nonneg_heights s i).
  { intros s i Is Hh Hr Hi. cbn [In] in Is. destruct Is as [<- |[<- |[<- |[]]]]; constructor; try exact Hh; try exact Hr; try exact I; try discriminate;
      try (apply Ps; lia); try (apply Ss; lia); try exact Sp; cbn; auto. }
  constructor; [apply W; [left; reflexivity|exact I|exact I|discriminate]|]. intros k [<- |[]].
  constructor; [apply W; [right; left; reflexivity|exact I|exact I|discriminate]|]. intros k [<- |[<- |[]]]; (constructor; [|intros k []]).
  - apply W; [right; right; left; reflexivity|vm_compute; discriminate|exact I|discriminate].
  - apply W; [right; right; left; reflexivity|exact I|vm_compute; discriminate|]. intros _ _. eexists. split; [reflexivity|vm_compute; discriminate].
Qed.
