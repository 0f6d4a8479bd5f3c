(** * C178: written percentages *)
From Coq Require Import ZArith QArith Qcanon Qabs Lia Lqa Bool String Ascii List.
From Verif Require Import PyNum NumFacts Units UnitsSpec UnitsFacts UnitsProps BoxModel BoxSpec BoxFacts Engine EnginePure EngineSpec EngineSim EngineExamples EngineInv EngineTree EngineTotal EngineWidth
  Float64 PyStr Colors ColorSpec Values Parser ParseSpec Choices Shorthand Decl DeclSpec DeclFacts DeclProps Computed ComputedSpec ComputedFacts ComputedProps
  DeclProps3 FloatSpec FloatFacts FloatTextProps RefLayout RefFacts RefProps HistSpec HistProps MoveSpec MoveProps EdgeSpec EdgeProps UnitsParseProps ReadSpec ReadProps WrittenSpec WrittenProps
  AcceptSpec AcceptProps GrammarSpec GrammarProps ShortSpec ShortProps TableSpec TableProps EditSpec EditProps ScriptSpec ScriptProps ShareSpec.
Import ListNotations.
Open Scope string_scope.
Open Scope Qc_scope.

(** ** The box: a length of any kind *)
Lemma laid_share ho d h5 (n n' : node css) op k p u : history (declared_style ho) n -> layout (declared_style ho) d h5 n = (n', Ok tt) -> laid (declared_style ho) n' op k ->
  (exists b l, part p b = Some l) -> style_len (declared_style ho (n_style k)) p = Some u ->
  of_width p = true \/ static_around (declared_style ho) op ->
  match p with
  | L_width => block_level (declared_style ho (n_style k)) = true /\ st_min_width (declared_style ho (n_style k)) = Auto /\ st_max_width (declared_style ho (n_style k)) = None
  | L_height => block_level (declared_style ho (n_style k)) = true /\ st_max_height (declared_style ho (n_style k)) = None /\ (op <> None \/ h5 = false)
  | _ => True
  end ->
  exists b x, n_box k = Some b /\ part p b = Some (LNum x) /\ nval x = len d (refers_to ho d op p) u.
Proof.
  intros Hi H L Pp Sl St Cond. set (sty := declared_style ho) in *.
  destruct (laid_used_h sty d h5 n n' op k Hi H L) as (a & x & v & us & F & (A1 & A2 & A3 & A4 & A5 & A6 & A7 & A8 & A9 & A10 & A11) & Sh & Ar & _ & Ah & As).
  inversion Sh as [s i b ks u0 us0 Hu Fs| |]; subst. cbn [n_style n_box] in *. exists b.
  pose proof (area_width sty d op a Ar) as Aw. pose proof (area_height sty d op a Ar) as Ahh.
  rewrite format_split in F. destruct (st_display (sty s)) as [dk|] eqn:Dk; [|discriminate]. unfold node_of in F. cbv zeta in F. injection F as Eu _.
  subst x. cbn [u_mt u_mb u_bt u_br u_bb u_bl u_pt u_pr u_pb u_pl u_w u_h] in *.
  destruct Hu as [H1 H2 H3 H4 H5 H6 H7 H8 H9 H10 H11 H12 H13 H14 H15 H16 H17 H18].
  unfold style_len in Sl. rewrite Aw in A3, A5, A7, A9.
  destruct p; try (exfalso; destruct Pp as (b0 & l0 & Pp); discriminate Pp); cbn [part ComputedSpec.shows of_width] in *.
  - destruct s0; try (exfalso; destruct Pp as (b0 & l0 & Pp); discriminate Pp); (destruct St as [St|St]; [discriminate St|]); unfold refers_to; cbn [of_width].
    + destruct (st_margin_top (sty s)) as [|u1]; [discriminate|]. injection Sl as ->. destruct H1 as (x & -> & X). exists x. split; [reflexivity|]. split; [reflexivity|]. rewrite X, A1, (Ahh St). reflexivity.
    + unfold bottoms in A2. destruct (st_margin_bottom (sty s)) as [|u1]; [discriminate|]. injection Sl as ->. rewrite andb_false_r in A2. rewrite A2 in H3. destruct H3 as (x & -> & X).
      exists x. split; [reflexivity|]. split; [reflexivity|]. rewrite X, (Ahh St). reflexivity.
  - destruct s0; injection Sl as Sl; eexists; (split; [reflexivity|]; split; [reflexivity|]); unfold refers_to; cbn [of_width]; [rewrite H9, A7|rewrite H10, A8|rewrite H11, A9|rewrite H12, A10]; rewrite Sl; try reflexivity;
      (destruct St as [St|St]; [discriminate St|]); rewrite (Ahh St); reflexivity.
  - destruct s0; eexists; (split; [reflexivity|]; split; [reflexivity|]); unfold refers_to; cbn [of_width]; [rewrite H5, A3|rewrite H6, A4|rewrite H7, A5|rewrite H8, A6];
      match goal with |- border_len d _ ?w = _ => destruct w as [kw|u1]; [discriminate|] end; injection Sl as ->; try reflexivity;
      (destruct St as [St|St]; [discriminate St|]); rewrite (Ahh St); reflexivity.
  - destruct Cond as (Bl & Mn & Mx). destruct (st_width (sty s)) as [|u1] eqn:Ew; [discriminate|]. injection Sl as ->.
    assert (W : u_w v = Some (len d (width_around d op) u)).
    { rewrite A11. unfold wmargins. unfold block_level in Bl. rewrite Dk in Bl. destruct dk; try discriminate Bl; cbn [isinl]; unfold widths; rewrite Ew; unfold limited_width; rewrite Mn, Mx, Aw;
        destruct (qc_ltb _ _), (st_direction (sty s)), (st_margin_left (sty s)), (st_margin_right (sty s)); reflexivity. }
    rewrite W in H13. destruct H13 as (x & -> & X). exists x. auto.
  - destruct Cond as (Bl & Mx & Ro). destruct (st_height (sty s)) as [|u1] eqn:Ew; [discriminate|]. injection Sl as ->. destruct St as [St|St]; [discriminate St|].
    assert (W : u_h v = Some (len d (refers_to ho d op L_height) u)).
    { rewrite (Ah Ro). unfold hgt. unfold block_level in Bl. rewrite Dk in Bl. rewrite (Ahh St), As. unfold refers_to, spec_around. cbn [of_width]. fold sty.
      destruct dk; try discriminate Bl; cbn [isinl]; unfold used_block_height, spec_height; rewrite Ew, Mx; (destruct op as [q|]; [destruct (st_height (sty (n_style q)))|]); reflexivity. }
    rewrite W in H14. destruct H14 as (x & -> & X). exists x. auto.
Qed.

(** ** The declaration *)
Lemma written_unit ho c E p y w : valid_order ho -> scripted ho c E -> E p = Give (VStr y) -> units (VStr y) = Ok w -> (exists b l, part p b = Some l) ->
  exists u, style_len (declared_style ho c) p = Some u /\ forall d x, len d x u = len d x w.
Proof.
  intros V Sc G U Pp. destruct (scripted_style ho _ E V Sc) as (st & Ds & Ls & Sh & R).
  assert (Q : engine_reads p = true) by (destruct Pp as (b0 & l0 & Pp0); destruct p; try discriminate Pp0; reflexivity).
  assert (Mv : means p (over Reset (E p)) (VUnit w)).
  { rewrite G. cbn [over]. apply (means_given p _ 0%nat _ 0%nat). apply computed_written; [apply engine_not_quotes, Q|].
    destruct Pp as (b0 & l0 & Pp0). destruct (part_first p b0 l0 Pp0) as [vs Fi]. unfold validate. rewrite Fi. cbn [first_valid run_validator]. rewrite U. reflexivity. }
  assert (Sv : exists v, ComputedSpec.shows st p = Some v) by (destruct Pp as (b0 & l0 & Pp0); destruct p; try discriminate Pp0; try (destruct s; try discriminate Pp0); eexists; reflexivity).
  destruct Sv as [v Sv]. rewrite Ds. destruct (R p _ v Q Mv Sv) as [[-> |(u & z & -> & X & A)] Fw]; unfold style_len; rewrite Sv; [exists w; auto|]. injection X as <-. exists u. split; [reflexivity|].
  intros d x. apply len_alike; [exact (Ls p u Q Sv)|apply Fw; reflexivity|exact A].
Qed.
Lemma pct_found s q : decimal_text s q -> (Qabs q <= qpow2 1000)%Q -> exists r, units (VStr (s ++ "%")) = Ok (mkU KPct (PF (Fin r))) /\ nearest_double q r.
Proof. intros Nt B. destruct (decimal_lengths s q Nt B) as (r & Nr & _ & U). exists r. split; [apply U; cbn; tauto|exact Nr]. Qed.
Lemma pct_error d y r q : (Qabs (this r - q) <= qpow2 (-53) * Qabs q + qpow2 (-1022))%Q ->
  (Qabs (this (len d y (mkU KPct (PF (Fin r)))) - q * this y / 100) <= (1 # 128) + Qabs (this y / 100) * (qpow2 (-53) * Qabs q + qpow2 (-1022)))%Q.
Proof.
  intros X. unfold len. pose proof (grid_error (exact_len d y (mkU KPct (PF (Fin r))))) as Ge.
  assert (Ex : (this (exact_len d y (mkU KPct (PF (Fin r)))) == this r * (this y / 100))%Q) by (unfold exact_len; cbn [u_kind u_val amount]; rewrite this_div, this_mul, this_Z2Qc; field).
  rewrite Ex in Ge. set (g := this (to_grid _)) in *. set (a := this r) in *. set (f := (this y / 100)%Q) in *. set (t := (qpow2 (-53) * Qabs q + qpow2 (-1022))%Q) in *.
  assert (E2 : (q * this y / 100 == q * f)%Q) by (unfold f; field). rewrite E2. clearbody g a f t. clear E2 Ex.
  assert (E3 : (g - q * f == (g - a * f) + (a - q) * f)%Q) by ring. rewrite E3. eapply Qle_trans; [apply Qabs_triangle|]. rewrite (Qabs_Qmult (a - q) f), (Qmult_comm (Qabs (a - q))).
  pose proof (Qabs_nonneg f). nra.
Qed.

(** C178. *)
Theorem C178_written_percentage : forall ho d h5 (n n' : node css) op k E p s q,
  valid_order ho -> history (declared_style ho) n -> scripted ho (n_style k) E -> E p = Give (VStr (s ++ "%")) ->
  decimal_text s q -> (Qabs q <= qpow2 1000)%Q ->
  layout_css ho d h5 n = (n', Ok tt) -> laid (declared_style ho) n' op k -> of_width p = true \/ static_around (declared_style ho) op ->
  decides ho (n_style k) (match op with None => true | _ => false end) h5 p -> (exists b l, part p b = Some l) ->
  let y := this (refers_to ho d op p) in
  exists b x, n_box k = Some b /\ part p b = Some (LNum x)
    /\ (Qabs (this (nval x) - q * y / 100) <= (1 # 128) + Qabs (y / 100) * (qpow2 (-53) * Qabs q + qpow2 (-1022)))%Q.
Proof.
  intros ho d h5 n n' op k E p s q V Hi Sc G Nt B H L St De Pp y.
  destruct (pct_found s q Nt B) as (r & U & Nr). destruct (written_unit ho _ E p _ _ V Sc G U Pp) as (u & Sl & Lu).
  destruct (scripted_style ho _ E V Sc) as (st & Ds & _ & Sh & _).
  assert (Same : forall p0 v0 v1, reads ho (n_style k) p0 v0 -> ComputedSpec.shows st p0 = Some v1 -> v1 = v0).
  { unfold reads. intros p0 v0 v1 E1 E2. apply Sh in E2. cbn [get_prop] in E1. rewrite E2 in E1. injection E1 as <-. reflexivity. }
  destruct (laid_share ho d h5 n n' op k p u Hi H L Pp Sl St) as (b & x & Bk & Px & Nx).
  - rewrite Ds. assert (Blk : reads_block ho (n_style k) -> block_level st = true).
    { intros Rb. unfold block_level. destruct Rb as [Rb|[Rb|Rb]]; pose proof (Same L_display _ _ Rb eq_refl) as X; destruct (st_display st) as [[]|]; try discriminate X; reflexivity. }
    destruct p; try exact Logic.I; cbn [decides] in De.
    + destruct De as (D1 & D2 & D3). split; [apply Blk, D1|]. split.
      * pose proof (Same L_min_width _ _ D2 eq_refl) as X. destruct (st_min_width st); [reflexivity|discriminate X].
      * pose proof (Same L_max_width _ _ D3 eq_refl) as X. destruct (st_max_width st); [discriminate X|reflexivity].
    + destruct De as (D1 & D2 & D3). split; [apply Blk, D1|]. split.
      * pose proof (Same L_max_height _ _ D2 eq_refl) as X. destruct (st_max_height st); [discriminate X|reflexivity].
      * destruct op; [left; discriminate|right; exact D3].
  - exists b, x. split; [exact Bk|]. split; [exact Px|]. rewrite Nx, Lu. apply pct_error, nearest_error; assumption.
Qed.
(** Percentage heights do not nest: inside a block whose height is a percentage, a percentage height is 0. *)
Theorem C178_nested : forall ho d h5 (n n' : node css) op k F E s q s' q',
  valid_order ho -> history (declared_style ho) n ->
  scripted ho (n_style op) F -> F L_height = Give (VStr (s' ++ "%")) -> decimal_text s' q' -> (Qabs q' <= qpow2 1000)%Q ->
  scripted ho (n_style k) E -> E L_height = Give (VStr (s ++ "%")) -> decimal_text s q -> (Qabs q <= qpow2 1000)%Q ->
  layout_css ho d h5 n = (n', Ok tt) -> laid (declared_style ho) n' (Some op) k -> static_around (declared_style ho) (Some op) ->
  decides ho (n_style k) false h5 L_height ->
  exists b x, n_box k = Some b /\ content_height b = LNum x /\ nval x = 0.
Proof.
  intros ho d h5 n n' op k F E s q s' q' V Hi Sc' G' Nt' B' Sc G Nt B H L St De.
  assert (Pp : exists b l, part L_height b = Some l) by (exists box0; eexists; reflexivity).
  destruct (pct_found s' q' Nt' B') as (r' & U' & Nr'). destruct (written_unit ho _ F L_height _ _ V Sc' G' U' Pp) as (u' & Sl' & Lu').
  destruct (pct_found s q Nt B) as (r & U & Nr). destruct (written_unit ho _ E L_height _ _ V Sc G U Pp) as (u & Sl & Lu).
  destruct (scripted_style ho _ E V Sc) as (st & Ds & _ & Sh & _).
  assert (Same : forall p0 v0 v1, reads ho (n_style k) p0 v0 -> ComputedSpec.shows st p0 = Some v1 -> v1 = v0).
  { unfold reads. intros p0 v0 v1 E1 E2. apply Sh in E2. cbn [get_prop] in E1. rewrite E2 in E1. injection E1 as <-. reflexivity. }
  assert (Z0 : forall a, len d 0 (mkU KPct a) = 0) by (intros a; rewrite len_percent by reflexivity; apply percent_0).
  assert (R0 : refers_to ho d (Some op) L_height = 0).
  { unfold refers_to. cbn [of_width]. unfold style_len in Sl'. cbn [ComputedSpec.shows] in Sl'. destruct (st_height (declared_style ho (n_style op))) as [|x]; [reflexivity|]. injection Sl' as ->. rewrite Lu'. apply Z0. }
  destruct (laid_share ho d h5 n n' (Some op) k L_height u Hi H L Pp Sl (or_intror St)) as (b & x & Bk & Px & Nx).
  - rewrite Ds. cbn [decides] in De. destruct De as (D1 & D2 & D3). split; [|split; [|left; discriminate]].
    + unfold block_level. destruct D1 as [Rb|[Rb|Rb]]; pose proof (Same L_display _ _ Rb eq_refl) as X; destruct (st_display st) as [[]|]; try discriminate X; reflexivity.
    + pose proof (Same L_max_height _ _ D2 eq_refl) as X. destruct (st_max_height st); [discriminate X|reflexivity].
  - exists b, x. split; [exact Bk|]. cbn [part] in Px. injection Px as Px. split; [exact Px|]. rewrite Nx, R0, Lu. apply Z0.
Qed.
Print Assumptions C178_written_percentage.
Print Assumptions C178_nested.

(** ** Example *)
Definition sets (l : list (longhand * string)) : list op := map (fun x => OpSet (Long (fst x)) (VStr (snd x))) l.
Fixpoint lasts (l : list (longhand * string)) (q : longhand) : change :=
  match l with [] => Keep | (r, t) :: l => over (if longhand_eq_dec q r then Give (VStr t) else Keep) (lasts l q) end.
Definition takes (x : longhand * string) : bool :=
  match validate (ho_set plain_order) (choices_of (fst x)) 0 (VStr (snd x)) with Ok (_, m) => Nat.eqb m 0 && negb (if longhand_eq_dec (fst x) L_quotes then true else false) | Err _ => false end.
Lemma sets_program l : forallb takes l = true -> program (sets l) (lasts l) (map (fun _ => None) l).
Proof.
  induction l as [|[r t] l IH]; intros H; [constructor; intros q; reflexivity|]. cbn [forallb] in H. apply andb_true_iff in H. destruct H as [H1 H2].
  cbn [sets map fst snd]. eapply program_step; [|apply (IH H2)|intros q; cbn [lasts]; reflexivity]. apply operate_set. unfold takes in H1. cbn [fst snd] in H1.
  destruct (validate _ _ _ _) as [[w m]|] eqn:Va; [|discriminate H1]. destruct (longhand_eq_dec r L_quotes) as [|NQ]; [rewrite andb_false_r in H1; discriminate H1|]. rewrite andb_true_r in H1. apply Nat.eqb_eq in H1. subst m.
  apply assign_long; [exact NQ|exact (example_written r _ w NQ Va)|destruct (longhand_eq_dec r r); [reflexivity|contradiction]|]. intros q N. destruct (longhand_eq_dec q r); [contradiction|reflexivity].
Qed.
Lemma sets_scripted l : forallb takes l = true -> scripted plain_order (declared (sets l)) (lasts l).
Proof.
  intros H. exists (sets l), (map (fun _ => None) l). split; [|split; [|split; [exact (sets_program l H)|reflexivity]]].
  - apply Forall_forall. intros o I. apply in_map_iff in I. destruct I as (x & <- & _). apply text_library.
  - intros I. apply in_map_iff in I. destruct I as (x & X & _). discriminate X.
Qed.
Definition share_root := [(L_display, "block"); (L_height, "200px")].
Definition share_half := [(L_display, "block"); (L_width, "10px"); (L_width, "25%"); (L_height, "50%"); (L_padding STop, "12.5%")].
Definition share_doc : node css :=
  Node (declared (sets share_root)) size0 (Some box0) [Node (declared (sets share_half)) size0 (Some box0) [Node (declared (sets share_half)) size0 (Some box0) []]].
Definition share_laid : node css := fst (layout_css plain_order screen false share_doc).
Definition kid1 (n : node css) : node css := match n_kids n with k :: _ => k | [] => n end.
Definition share_sizes (k : node css) := option_map (fun b => (lq (content_width b), lq (content_height b), this (nval (padding_top b)))) (n_box k).
Example C178_example :
  history (declared_style plain_order) share_doc /\ layout_css plain_order screen false share_doc = (share_laid, Ok tt)
  /\ scripted plain_order (n_style (kid1 share_laid)) (lasts share_half) /\ scripted plain_order (n_style (kid1 (kid1 share_laid))) (lasts share_half)
  /\ lasts share_half L_width = Give (VStr ("25" ++ "%")) /\ lasts share_half L_height = Give (VStr ("50" ++ "%")) /\ lasts share_half (L_padding STop) = Give (VStr ("12.5" ++ "%"))
  /\ decimal_text "25" 25%Q /\ decimal_text "50" 50%Q
  /\ laid (declared_style plain_order) share_laid (Some share_laid) (kid1 share_laid)
  /\ laid (declared_style plain_order) share_laid (Some (kid1 share_laid)) (kid1 (kid1 share_laid))
  /\ static_around (declared_style plain_order) (Some (kid1 share_laid)) /\ static_around (declared_style plain_order) (Some share_laid)
  /\ decides plain_order (n_style (kid1 share_laid)) false false L_width /\ decides plain_order (n_style (kid1 (kid1 share_laid))) false false L_height
  /\ map (fun p => this (refers_to plain_order screen (Some share_laid) p)) [L_width; L_height; L_padding STop] = [1000; 200; 1000]%Q
  /\ share_sizes (kid1 share_laid) = Some (Some 250, Some 100, 125)%Q /\ share_sizes (kid1 (kid1 share_laid)) = Some (Some (125 # 2), Some 0, 125 # 4)%Q.
Proof.
  split; [apply history_new; solve_new|]. split; [unfold share_laid; rewrite (surjective_pairing (layout_css _ _ _ _)) at 1; f_equal; vm_compute; reflexivity|].
  assert (S : scripted plain_order (declared (sets share_half)) (lasts share_half)) by (apply sets_scripted; vm_compute; reflexivity).
  split; [replace (n_style (kid1 share_laid)) with (declared (sets share_half)) by (vm_compute; reflexivity); exact S|].
  split; [replace (n_style (kid1 (kid1 share_laid))) with (declared (sets share_half)) by (vm_compute; reflexivity); exact S|].
  split; [reflexivity|]. split; [reflexivity|]. split; [reflexivity|].
  split. { exists "", "", false, "25", "25", "", "", 0%Z, "". split; [reflexivity|]. split; [reflexivity|]. split; [left; auto|]. split; [left; split; [repeat constructor|reflexivity]|]. split; [left; auto|split; reflexivity]. }
  split. { exists "", "", false, "50", "50", "", "", 0%Z, "". split; [reflexivity|]. split; [reflexivity|]. split; [left; auto|]. split; [left; split; [repeat constructor|reflexivity]|]. split; [left; auto|split; reflexivity]. }
  assert (L1 : laid (declared_style plain_order) share_laid (Some share_laid) (kid1 share_laid)).
  { eapply EngineSpec.laid_kid; [apply laid_root; vm_compute; discriminate|vm_compute; left; reflexivity|vm_compute; discriminate|vm_compute; right; reflexivity]. }
  split; [exact L1|].
  split; [eapply EngineSpec.laid_kid; [exact L1|vm_compute; left; reflexivity|vm_compute; discriminate|vm_compute; right; reflexivity]|].
  split; [vm_compute; discriminate|]. split; [vm_compute; discriminate|].
  split; [split; [left|split]; vm_compute; reflexivity|]. split; [split; [left|split]; vm_compute; reflexivity|].
  split; [vm_compute; reflexivity|]. split; vm_compute; reflexivity.
Qed.
