(** * C210: only the last child of a row matters to anything outside *)
From Coq Require Import ZArith QArith Qcanon Qround Lia Lqa Bool List.
From Verif Require Import PyNum NumFacts Units BoxModel BoxSpec BoxFacts Engine EngineSpec EngineExamples
  RefLayout RefFacts RefProps OkSpec OkFacts HistSpec HistProps MoveSpec MoveProps LocalProps PushSpec PushProps PixelSpec OkProps SymProps DrawnSpec RowSpec RowProps LoneSpec.
Import ListNotations.
Open Scope Qc_scope.

Section T.
Context {S : Type} (sty : S -> style).
Notation node := (node S).
Notation kid d inner st := (MoveProps.laid_kid sty d inner st).
Notation repl := (rows_replaced sty).
Notation result := (same_but_replaced sty).
Lemma repl_style (n m : node) : repl n m -> n_style m = n_style n. Proof. intros []; reflexivity. Qed.
Lemma repl_root (n : node) x m y : result n x m y -> same_root x y. Proof. intros []; cbn; auto. Qed.
Lemma repl_down r (n : node) u us m v vs : result n (UNode u us) m (UNode v vs) -> result n (UNode (move_down r u) us) m (UNode (move_down r v) vs).
Proof. intros H. inversion H; subst; [constructor; assumption|apply same_row; assumption]. Qed.
Lemma repl_exists (ks qs : list node) : Forall2 repl ks qs -> existsb (fun k => block_level (sty (n_style k))) qs = existsb (fun k => block_level (sty (n_style k))) ks.
Proof. induction 1 as [|k q ks qs H _ IH]; [reflexivity|]. cbn. rewrite IH, (repl_style _ _ H). reflexivity. Qed.
Lemma repl_map (f : node -> utree) ks qs : (forall k q, In k ks -> repl k q -> result k (f k) q (f q)) -> Forall2 repl ks qs -> all4 result ks (map f ks) qs (map f qs).
Proof. intros G H. induction H as [|k q ks qs H _ IH]; cbn; constructor; [apply G; [left; reflexivity|exact H]|apply IH; intros; apply G; [right|]; assumption]. Qed.
Lemma repl_stack (f : node -> utree) ks qs : (forall k q, In k ks -> repl k q -> result k (f k) q (f q)) -> Forall2 repl ks qs ->
  forall top p, all4 result ks (stack top p (map f ks)) qs (stack top p (map f qs)).
Proof.
  intros G H. induction H as [|k q ks qs H _ IH]; intros top p; cbn [map stack]; [constructor|]. pose proof (G k q (or_introl eq_refl) H) as R. pose proof (repl_root _ _ _ _ R) as E.
  assert (J : forall top p, all4 result ks (stack top p (map f ks)) qs (stack top p (map f qs))) by (apply IH; intros; apply G; [right|]; assumption).
  destruct (f k) as [u us| |], (f q) as [v vs| |]; try contradiction; cbn [stack]; [|constructor; [exact R|apply J]..]. cbn in E. subst v. constructor; [apply repl_down, R|apply J].
Qed.
Lemma repl_roots ks us qs ws : all4 result ks us qs ws -> Forall2 same_root us ws.
Proof. induction 1; constructor; [eapply repl_root; eassumption|assumption]. Qed.
Lemma row_flat dk s (ks : list node) : st_display (sty s) = Some dk -> row sty s ks -> stacks_ sty dk ks = false.
Proof.
  intros D Rw. unfold stacks_. unfold row in Rw. rewrite D in Rw. destruct dk; try reflexivity; clear -Rw; (induction ks as [|k ks IHk]; [reflexivity|]; cbn; rewrite (Rw k (or_introl eq_refl)); apply IHk; intros x I; apply Rw; right; exact I).
Qed.
Lemma format_replaced d (n : node) : forall m a, repl n m -> result n (format sty d a n) m (format sty d a m).
Proof.
  induction n as [s i b ks IH] using node_ind'. intros m a H. inversion H as [? ? ? b' ? ks' F|? ? ? b' l l' k k' R R' K]; subst; rewrite !format_split; (destruct (st_display (sty s)) as [dk|] eqn:D; [|constructor; reflexivity]).
  - assert (St : stacks_ sty dk ks' = stacks_ sty dk ks) by (unfold stacks_; destruct dk; try reflexivity; apply repl_exists, F). rewrite St. set (st := stacks_ sty dk ks). set (inner := inner_of d a dk (sty s) i).
    assert (G : forall k q, In k ks -> repl k q -> result k (kid d inner st k) q (kid d inner st q)).
    { intros k q I M. unfold MoveProps.laid_kid. rewrite (repl_style _ _ M). destruct (st && _); [constructor; symmetry; apply (repl_style _ _ M)|]. apply IH; assumption. }
    assert (A : all4 result ks (kids_of sty d inner st ks) ks' (kids_of sty d inner st ks')) by (unfold kids_of; destruct st; [apply repl_stack|apply repl_map]; assumption).
    pose proof (repl_roots _ _ _ _ A) as Ro. unfold node_of. cbv zeta. rewrite (last_same_all _ _ Ro).
    replace (if st then match kids_of sty d inner st ks' with UNode u _ :: _ => u_ct u | _ => 0%Z end else 0%Z) with (if st then match kids_of sty d inner st ks with UNode u _ :: _ => u_ct u | _ => 0%Z end else 0%Z); [apply same_kept; exact A|].
    destruct st; [|reflexivity]. destruct Ro as [|x y r r' Hx _]; [reflexivity|]. destruct x, y; try contradiction; [cbn in Hx; subst|..]; reflexivity.
  - rewrite (row_flat dk s _ D R), (row_flat dk s _ D R'). set (inner := inner_of d a dk (sty s) i).
    assert (G : result k (kid d inner false k) k' (kid d inner false k')) by (unfold MoveProps.laid_kid; cbn [andb]; apply IH; [apply in_app_iff; right; left; reflexivity|exact K]).
    unfold kids_of. rewrite !map_app. cbn [map]. unfold node_of. cbv zeta. rewrite (last_same (map (kid d inner false) l) _ (map (kid d inner false) l') _ (repl_root _ _ _ _ G)).
    apply same_row; try assumption; apply map_length.
Qed.
(** C210.  Children of a row other than the last one have no influence on anything outside of them: replaced by any others (or none, or more), all other
    boxes of the document are the same. *)
Theorem C210_last_counts d h5 (n m n' m' : node) : history sty n -> history sty m -> rows_replaced sty n m ->
  layout sty d h5 n = (n', Ok tt) -> layout sty d h5 m = (m', Ok tt) -> exists t t', shows n' t /\ shows m' t' /\ same_but_replaced sty n t m t'.
Proof.
  intros Hn Hm H Ln Lm. exists (page sty d h5 n), (page sty d h5 m). split; [apply (C122_any_history sty); assumption|]. split; [apply (C122_any_history sty); assumption|].
  rewrite !page_draft. unfold draft. pose proof (format_replaced d n m (mkArea (Some (nval (disp_width d))) (Some (nval (disp_height d))) 0 0 None) H) as R. revert R.
  generalize (format sty d (mkArea (Some (nval (disp_width d))) (Some (nval (disp_height d))) 0 0 None) n), (format sty d (mkArea (Some (nval (disp_width d))) (Some (nval (disp_height d))) 0 0 None) m).
  intros x y R. inversion R; subst; cbn [finished]; [apply same_kept|apply same_row|apply same_hidden|apply same_skipped]; assumption.
Qed.
End T.
Print Assumptions C210_last_counts.

(** ** Example *)
Open Scope Z_scope.
(** A line of three words, and one with only the last of them after a much higher one. *)
Definition long_line : list doc := [a_word 30 12; a_word 44 13; a_word 7 9].
Definition high_line : list doc := [a_word 5 500; a_word 7 9].
Example C210_example : history idsty (rdoc long_line) /\ history idsty (rdoc high_line) /\ rows_replaced idsty (rdoc long_line) (rdoc high_line)
  /\ layout idsty screen false (rdoc long_line) = (out false (rdoc long_line), Ok tt) /\ layout idsty screen false (rdoc high_line) = (out false (rdoc high_line), Ok tt).
Proof.
  do 2 (split; [apply history_new; solve_new|]). split; [|split; apply ok_layout; vm_compute; reflexivity].
  unfold rdoc, el. apply replaced_node. constructor; [|constructor; [apply replaced_node; constructor|constructor]].
  apply (replaced_row idsty _ _ _ _ [a_word 30 12; a_word 44 13] [a_word 5 500] (a_word 7 9) (a_word 7 9)).
  1, 2: cbn; intros k I; repeat (destruct I as [<-|I]; [reflexivity|]); destruct I.
  apply replaced_node. constructor.
Qed.
