(** * C198: undoing edits *)
From Coq Require Import ZArith QArith Qcanon Bool String Ascii List Lia.
From Verif Require Import PyNum NumFacts PyStr StrFacts Units BoxModel Engine Values Parser Choices Shorthand Decl DeclSpec DeclFacts DeclProps DeclNorm DeclProps2 DeclErrors ParseSpec ParserSpec
  EngineSim Computed ComputedSpec ComputedFacts ComputedProps TableSpec TableProps EditSpec EditProps UndoSpec.
Import ListNotations.
Open Scope string_scope.

Section Undo.
Context (ho : hash_order) (V : valid_order ho) (a : css) (n : nat) (R : reachable ho a n) (c1 : css).
(** The longhand is as in [a]: unset, or an equal value that was there before
    undoing, or unset where the initial value is equal. *)
Definition back (c : css) (q : longhand) : Prop :=
  match c_store a q with
  | None => c_store c q = None
  | Some v => (exists w, c_store c q = Some w /\ (v = w \/ (equals v w /\ c_store c1 q = Some w)))
              \/ (c_store c q = None /\ same_value v (initial_of ho q) = true)
  end.
Lemma restore_step c k q : has_layout c -> (forall v, c_store a q = Some v -> fixed_point v) -> (back c q \/ c_store c q = c_store c1 q) ->
  exists c', run_op ho (restore a q) c k = (c', k, Ok tt) /\ has_layout c' /\ back c' q /\ forall r, r <> q -> c_store c' r = c_store c r.
Proof.
  intros L F B. unfold restore, back in *. destruct (c_store a q) as [v|] eqn:A; cbn [run_op].
  - destruct (stored_validated ho a n q v V R A) as (x & i & j & E). pose proof (validate_again ho q i x v j V E (fixed_point_reassignable v (F v eq_refl)) k) as W.
    destruct (set_long_accepts ho q v c k v k L W) as (c' & E' & L'). exists c'. split; [exact E'|]. split; [exact L'|].
    apply set_long_ok in E'. destruct E' as (w & W' & D). rewrite W in W'. injection W' as <-. destruct D as [[Q ->]|[Q ->]].
    + split; [|reflexivity]. unfold stored_or_initial in Q. destruct (c_store c q) as [y|] eqn:Y; [|right; auto].
      destruct B as [[(w & E1 & B)|[E1 _]]|B]; [left; exists w; auto|discriminate|]. left. exists y. split; [reflexivity|]. right.
      cbn [same_value] in Q. split; [apply py_eqb_spec, Q|symmetry; exact B].
    + rewrite mark_dirty_store. split; [left; exists v; rewrite store_same; auto|]. intros r Hr. apply store_other, Hr.
  - destruct (del_long_ok q c k) as (c' & E). pose proof (del_long_store q c k) as S. pose proof (del_long_layout q c k L) as L'. rewrite E in S, L'. cbn [fst] in S, L'.
    exists c'. split; [exact E|]. split; [exact L'|]. split; [rewrite S, lh_eqb_refl; reflexivity|]. intros r Hr. rewrite S, lh_eqb_neq by exact Hr. reflexivity.
Qed.
Lemma restore_all qs : restorable a qs -> forall c k, has_layout c -> (forall q, back c q \/ c_store c q = c_store c1 q) ->
  exceptions ho (map (restore a) qs) c k = map (fun _ => None) qs
  /\ (forall q, back (fst (run_ops ho (map (restore a) qs) c k)) q \/ (~ In q qs /\ c_store (fst (run_ops ho (map (restore a) qs) c k)) q = c_store c q))
  /\ exists k', run_ops ho (map (restore a) qs) c k = (fst (run_ops ho (map (restore a) qs) c k), k').
Proof.
  induction qs as [|q qs IH]; intros F c k L B; cbn [map exceptions run_ops].
  - split; [reflexivity|]. split; [|exists k; reflexivity]. intros q. right. split; [intros []|reflexivity].
  - destruct (restore_step c k q L (fun v => F q v (or_introl eq_refl)) (B q)) as (c' & E & L' & B' & O). rewrite E.
    assert (BB : forall r, back c' r \/ c_store c' r = c_store c1 r).
    { intros r. destruct (longhand_eq_dec r q) as [->|N]; [left; exact B'|]. unfold back. rewrite (O r N). apply B. }
    destruct (IH (fun r v I => F r v (or_intror I)) c' k L' BB) as (X & Y & Z). split; [rewrite X; reflexivity|]. split; [|exact Z].
    intros r. destruct (Y r) as [Y1|[Y1 Y2]]; [left; exact Y1|]. destruct (longhand_eq_dec r q) as [->|N].
    + left. unfold back in *. rewrite Y2. exact B'.
    + right. split; [intros [->|I]; [apply N; reflexivity|apply Y1, I]|]. rewrite Y2. apply O, N.
Qed.
Lemma back_all qs c k : restorable a qs -> has_layout c1 -> (forall q, ~ In q qs -> c_store c1 q = c_store a q) ->
  c = fst (run_ops ho (map (restore a) qs) c1 k) -> exceptions ho (map (restore a) qs) c1 k = map (fun _ => None) qs /\ forall q, back c q.
Proof.
  intros F L O ->. destruct (restore_all qs F c1 k L (fun q => or_intror eq_refl)) as (X & Y & _). split; [exact X|].
  intros q. destruct (Y q) as [Y1|[Y1 Y2]]; [exact Y1|]. unfold back. rewrite Y2, (O q Y1). destruct (c_store a q) as [v|]; [|reflexivity]. left. exists v. auto.
Qed.
Lemma back_reads c k : reachable ho c k -> (forall q, back c q) -> reads_equal ho a c.
Proof.
  intros RC B q. destruct (get_long_ok ho a n q V R) as (x & X & X'). destruct (get_long_ok ho c k q V RC) as (y & Y & Y').
  exists x, y. cbn [get_prop]. rewrite X, Y. split; [reflexivity|]. split; [reflexivity|]. pose proof (B q) as BQ. unfold back in BQ.
  destruct (follower_cases q) as [[[s ->]| ->]|[W F]].
  - rewrite (initial_spec _ _ V) in BQ. cbn in BQ. rewrite (get_long_color _ _ _ V) in X. rewrite (get_long_color _ _ _ V) in Y. injection X as <-. injection Y as <-.
    destruct (c_store a (L_border_color s)) as [v|].
    + destruct BQ as [(w & -> & [->|[E _]])|[_ E]]; [left; reflexivity|right; exact E|discriminate].
    + rewrite BQ. pose proof (B L_color) as BC. unfold back in BC. rewrite (initial_spec _ _ V) in BC. cbn in BC. destruct (c_store a L_color) as [v|]; [|rewrite BC; left; reflexivity].
      destruct BC as [(w & -> & [->|[E _]])|[-> E]]; [left; reflexivity|right; exact E|right; apply py_eqb_spec, E].
  - pose proof (direction_stored ho a n V R) as DA. pose proof (direction_stored ho c k V RC) as DC. rewrite (get_long_text_align _ _ V DA) in X. rewrite (get_long_text_align _ _ V DC) in Y. injection X as <-. injection Y as <-.
    rewrite (initial_spec _ _ V) in BQ. cbn in BQ. destruct (c_store a L_text_align) as [v|].
    + destruct BQ as [(w & -> & [->|[E _]])|[_ E]]; [left; reflexivity|right; exact E|discriminate].
    + rewrite BQ. pose proof (B L_direction) as BD. unfold back in BD. rewrite (initial_spec _ _ V) in BD. cbn in BD. left. destruct (c_store a L_direction) as [v|] eqn:EV; [|rewrite BD; reflexivity].
      destruct (DA v EV) as [->| ->]; destruct BD as [(w & EW & [<-|[E _]])|[EW E]]; rewrite EW; try reflexivity; try discriminate;
        destruct (DC w EW) as [->| ->]; try reflexivity; apply py_eqb_spec in E; discriminate.
  - rewrite (get_long_plain _ _ _ V F) in X. rewrite (get_long_plain _ _ _ V F) in Y. injection X as <-. injection Y as <-. rewrite (initial_spec _ _ V), W in BQ. cbn [same_value] in BQ. destruct (c_store a q) as [v|]; [|rewrite BQ; left; reflexivity].
    destruct BQ as [(w & -> & [->|[E _]])|[-> E]]; [left; reflexivity|right; exact E|right; apply py_eqb_spec, E].
Qed.
End Undo.

(** C198.  After any edits, assigning the old values again, or deleting where
    there was none, raises nothing and every longhand reads as before. *)
Theorem C198_undo : forall ho a n l c1 n1 qs, valid_order ho -> reachable ho a n -> run_ops ho l a n = (c1, n1) -> has_layout c1 ->
  (forall q, ~ In q qs -> c_store c1 q = c_store a q) -> restorable a qs ->
  exceptions ho (map (restore a) qs) c1 n1 = map (fun _ => None) qs
  /\ reads_equal ho a (fst (run_ops ho (map (restore a) qs) c1 n1)).
Proof.
  intros ho a n l c1 n1 qs V R E L O F. destruct (back_all ho V a n R c1 qs _ n1 F L O eq_refl) as [X B]. split; [exact X|].
  destruct R as [l0 R0]. destruct (run_ops ho (map (restore a) qs) c1 n1) as [c k] eqn:E2. cbn [fst] in *.
  assert (RC : reachable ho c k) by (exists (l0 ++ l ++ map (restore a) qs)%list; rewrite run_ops_app, R0, run_ops_app, E; exact E2).
  apply (back_reads ho V a n (ex_intro _ l0 R0) c1 c k RC B).
Qed.
Print Assumptions C198_undo.

(** C198, the page: a document whose declarations were edited and the edits
    undone is laid out as before. *)
Theorem C198_layout : forall ho d html5 n m, valid_order ho -> same_document (undone ho) n m ->
  same_result (layout_css ho d html5 n) (layout_css ho d html5 m).
Proof.
  intros ho d html5 n m V. apply layouts_same. intros a b (l0 & l & qs & k & c1 & n1 & LO & L1 & E0 & E1 & L & O & F & ->). unfold declared_style.
  assert (R : reachable ho a k) by (exists l0; exact E0).
  destruct (back_all ho V a k R c1 qs _ n1 F L O eq_refl) as [_ B]. destruct (run_ops ho (map (restore a) qs) c1 n1) as [c k2] eqn:E2. cbn [fst] in *.
  assert (RC : reachable ho c k2) by (exists (l0 ++ l ++ map (restore a) qs)%list; rewrite run_ops_app, E0, run_ops_app, E1; exact E2).
  assert (SA : stored_library a).
  { pose proof (library_run_ops ho V l0 fresh_css first_free LO) as X. rewrite E0 in X. apply X. intros ? ? _ Y. discriminate Y. }
  assert (S1 : stored_library c1) by (pose proof (library_run_ops ho V l a k L1 SA) as X; rewrite E1 in X; exact X).
  destruct (computed_view ho a V (reachable_stored ho a k V R)) as (s & -> & X), (computed_view ho c V (reachable_stored ho c k2 V RC)) as (t & -> & Y).
  apply shows_alike. intros q v w E GA GB. apply X in GA. apply Y in GB. pose proof (back_reads ho V a k R c1 c k2 RC B q) as (x & y & X1 & Y1 & Q).
  cbn [get_prop] in X1, Y1. rewrite GA in X1. rewrite GB in Y1. injection X1 as <-. injection Y1 as <-.
  destruct (engine_plain q E) as (OL & FO & _). rewrite (get_long_plain _ _ _ V FO) in GA. rewrite (get_long_plain _ _ _ V FO) in GB. injection GA as GA. injection GB as GB.
  assert (FF : forall c0 k0 u, reachable ho c0 k0 -> c_store c0 q = Some u -> (forall z, u = VUnit z -> library_unit z) -> fine q u).
  { intros c0 k0 u R0 S0 LU. split; [|exact LU]. destruct (reachable_stored ho c0 k0 V R0 q u S0) as (v0 & i & j & VA). apply (validated_kind ho q i v0 u j V OL VA). }
  apply (fine_alike q v w E); [| |exact Q].
  - subst v. destruct (c_store a q) as [u|] eqn:S; [|apply fine_initial, E]. apply (FF a k u R S). intros z ->. exact (SA q z E S).
  - subst w. pose proof (B q) as BQ. unfold back in BQ. destruct (c_store c q) as [u|] eqn:S; [|apply fine_initial, E]. apply (FF c k2 u RC S). intros z ->.
    destruct (c_store a q) as [v0|] eqn:S0; [|discriminate]. destruct BQ as [(w & EW & [->|[_ EC]])|[EW _]]; [| |discriminate].
    + injection EW as <-. exact (SA q z E S0).
    + injection EW as <-. exact (S1 q z E EC).
Qed.
Print Assumptions C198_layout.

(** Edits of margins, width, color and a failing one, and how they are undone. *)
Definition before : list op := [OpSet (Long L_width) (VStr "50%"); OpSet (Dir D_margin) (VTuple [VInt 5; VStr "auto"]); OpSet (Long L_color) (VStr "red")].
Definition edits : list op := [OpUpdate [("margin_top", VStr "1em"); ("width", VNone)]; OpSetItem "display" (VStr "block"); OpDel (Long L_color); OpSet (Long L_height) (VStr "tall")].
Definition edited : list longhand := [L_margin STop; L_width; L_display; L_color].
Definition made (l : list op) (c : css * nat) : css * nat := run_ops plain_order l (fst c) (snd c).
Definition fresh0 : css * nat := (fresh_css, first_free).
Example C198_example : exists a n c1 n1, run_ops plain_order before fresh_css first_free = (a, n) /\ run_ops plain_order edits a n = (c1, n1) /\ has_layout c1
  /\ (forall q, ~ In q edited -> c_store c1 q = c_store a q) /\ restorable a edited
  /\ get_prop plain_order c1 (Long L_width) = Ok (RValue (VStr "auto"))
  /\ get_prop plain_order (fst (run_ops plain_order (map (restore a) edited) c1 n1)) (Long L_width) = Ok (RValue (VUnit (mkU KPct (PF (Fin (Z2Qc 50)))))).
Proof.
  exists (fst (made before fresh0)), (snd (made before fresh0)), (fst (made edits (made before fresh0))), (snd (made edits (made before fresh0))).
  split; [apply surjective_pairing|]. split; [apply surjective_pairing|]. split; [vm_compute; discriminate|]. split.
  { intros q H. destruct q; try match goal with s : side |- _ => destruct s end; try (exfalso; apply H; cbn; tauto); vm_compute; reflexivity. }
  split; [|split; vm_compute; reflexivity].
  intros q v H. repeat destruct H as [<-|H]; try destruct H; vm_compute; intros E; try discriminate E; injection E as <-; exact I.
Qed.
Lemma plain_library v : (forall l, ~ members v l) -> (forall u, v <> VUnit u) -> library_value v.
Proof. intros N1 N2 u X. inversion X as [|x y l z M]; subst; [destruct (N2 u); reflexivity|destruct (N1 l M)]. Qed.
Ltac plain_value := apply plain_library; [intros l [M|[M|M]]; discriminate|discriminate].
Example C198_layout_example : exists a b, undone plain_order a b /\ c_store a L_width <> None /\ c_store b L_width <> None.
Proof.
  destruct C198_example as (a & n & c1 & n1 & E0 & E1 & L & O & F & _ & G). exists a, (fst (run_ops plain_order (map (restore a) edited) c1 n1)).
  split; [|split].
  - exists before, edits, edited, n, c1, n1. split; [|split].
    + repeat constructor; cbn [library_op]; try plain_value. intros u X. inversion X as [|x y l z M I W]; subst. destruct M as [M|[M|M]]; try discriminate M. injection M as <-.
      assert (P : library_value (VInt 5)) by plain_value. repeat destruct I as [<-|I]; try destruct I; [apply P, W|apply (text_library _ _ W)].
    + repeat constructor; cbn [library_op]; try plain_value. intros name v I. destruct I as [I|[I|[]]]; injection I as <- <-; plain_value.
    + auto 10.
  - assert (X : a = fst (run_ops plain_order before fresh_css first_free)) by (rewrite E0; reflexivity). rewrite X. vm_compute. discriminate.
  - cbn [get_prop] in G. intros N. rewrite (get_long_plain _ _ _ plain_valid), N in G by (intros [x H]; inversion H). discriminate G.
Qed.
(** Equal, not identical: an entry with the initial value is not written again,
    so keys() can differ; the value read is the same. *)
Definition zero_entry : css * nat := made [OpSet (Long (L_margin STop)) (VInt 5); OpSet (Long (L_margin STop)) (VInt 0)] fresh0.
Definition zero_undone : css * nat := made [restore (fst zero_entry) (L_margin STop)] (made [OpDel (Long (L_margin STop))] zero_entry).
Example C198_entry : c_store (fst zero_entry) (L_margin STop) <> None /\ c_store (fst zero_undone) (L_margin STop) = None.
Proof. split; [vm_compute; discriminate|vm_compute; reflexivity]. Qed.
(** The condition on the values is needed: border-spacing cannot be assigned what it reads. *)
Definition spaced : css * nat := made [OpSet (Long L_border_spacing) (VStr "1px 2px")] fresh0.
Example C198_blocked : let c := made [OpDel (Long L_border_spacing)] spaced in
  exceptions plain_order [restore (fst spaced) L_border_spacing] (fst c) (snd c) <> [None] /\ c_store (fst spaced) L_border_spacing <> None.
Proof. split; vm_compute; discriminate. Qed.
