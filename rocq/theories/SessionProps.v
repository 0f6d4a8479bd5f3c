(** * A session of edits and layouts in Python's floats: C184 *)
From Coq Require Import ZArith QArith Qabs Qcanon Bool String List Lia Permutation.
From Verif Require Import PyNum NumFacts Float64 Units FloatUnits UnitsSpec FloatSpec BoxModel BoxFacts BoxSpec Engine EngineSpec EngineFSpec EngineGSpec EngineExamples EngineArith EngineGProps EngineFProps Values Parser Shorthand Choices Decl DeclFacts DeclSpec ParserFacts GrammarSpec Computed ComputedSpec ComputedFacts ComputedProps DeclProps3 WrapSpec HistSpec HistProps TableSpec TableProps EditSpec EditProps RefLayout RefProps ScriptSpec ScriptProps PyPageSpec PyPageProps SessionSpec.
Import ListNotations.
Open Scope string_scope.
Open Scope Q_scope.

Lemma measured_node {S} s i bx (ks : list (node S)) : measured (Node s i bx ks) <-> (forall b x, bx = Some b -> In x (numbers b) -> on_grid (nval x)) /\ Forall measured ks.
Proof.
  split.
  - intros M. split; [intros b x E I; exact (M [] _ b x eq_refl E I)|]. apply Forall_forall. intros k Ik p m b x P E I. apply In_nth_error in Ik. destruct Ik as [j J].
    apply (M (j :: p) m b x); [cbn [get_path n_kids]; rewrite J; exact P|exact E|exact I].
  - intros [Mb Mk] [|j p] m b x P E I; cbn [get_path n_kids] in P; [injection P as <-; exact (Mb b x E I)|].
    destruct (nth_error ks j) as [k|] eqn:J; [|discriminate]. apply nth_error_In in J. rewrite Forall_forall in Mk. exact (Mk k J p m b x P E I).
Qed.
Lemma edits_measured {S} : (forall n m : node S, edited n m -> measured n -> measured m) /\ (forall ks ks' : list (node S), kids_edited ks ks' -> Forall measured ks -> Forall measured ks').
Proof.
  apply edits_min.
  - intros s i s' i' bx ks ks' _ IH M. apply measured_node in M. destruct M as [Mb Mk]. apply measured_node. auto.
  - auto.
  - intros k k' ks ks' _ IH1 _ IH2 M. inversion M; subst. constructor; auto.
  - intros k ks ks' _ IH M. inversion M; subst. auto.
  - intros k ks ks' N _ IH M. constructor; [apply new_measured, N|auto].
  - intros ks ks' ks'' _ IH P M. eapply Permutation_Forall; [exact P|auto].
Qed.
Lemma state_layout ho sty d h5 B n : valid_order ho -> 300 <= B -> pixel_display B d -> pixel_state ho sty B n -> room B n -> measured n ->
  layoutA float_arith (declared_style ho) d h5 n = layout_css ho d h5 n.
Proof.
  intros V HB [Md Pd] [N Z D P] R M. apply (C138_plain_documents (declared_style ho) d B h5 n); try assumption.
  intros p m H. destruct (P p m H) as [A S]. split; [|exact S]. destruct (scripted_path ho sty n D p m H) as [E Sc]. exact (declaration_plain ho d B _ E V Sc (room_bound B n HB R) A).
Qed.
Lemma session_history ho n : valid_order ho -> session ho n -> history (declared_style ho) n /\ measured n.
Proof.
  intros V. induction 1 as [n N|n m _ [H M] E|sty d h5 B n _ [H M] HB Pd P R].
  - split; [apply history_new, N|apply new_measured, N].
  - split; [exact (history_edit _ n m H E)|exact (proj1 edits_measured n m E M)].
  - rewrite (state_layout ho sty d h5 B n V HB Pd P R M). split; [apply history_layout, H|]. apply C107_layout_units; [apply Pd|apply P|exact M].
Qed.
(** C184.  At any point of a session the outcome of the next layout is that of
    exact arithmetic, ... *)
Theorem C184_outcome : forall ho sty d h5 B n, valid_order ho -> session ho n ->
  300 <= B -> pixel_display B d -> pixel_state ho sty B n -> room B n ->
  layoutA float_arith (declared_style ho) d h5 n = layout_css ho d h5 n.
Proof. intros ho sty d h5 B n V H HB Pd P R. destruct (session_history ho n V H) as [_ M]. exact (state_layout ho sty d h5 B n V HB Pd P R M). Qed.
(** ... and if it completes, the page is the reference layout of what was
    written last: nothing is left of the earlier states. *)
Theorem C184_page : forall ho sty d h5 B n n', valid_order ho -> session ho n ->
  300 <= B -> pixel_display B d -> pixel_state ho sty B n -> room B n ->
  layoutA float_arith (declared_style ho) d h5 n = (n', Ok tt) -> RefLayout.shows n' (page sty d h5 n).
Proof.
  intros ho sty d h5 B n n' V H HB Pd P R L. destruct (session_history ho n V H) as [Hi M]. rewrite (state_layout ho sty d h5 B n V HB Pd P R M) in L.
  apply (C177_page ho); try assumption. apply P.
Qed.
Print Assumptions C184_outcome.
Print Assumptions C184_page.
(** Example: the document of C182 is laid out, its block gets another width, a
    second block is put before it, and it is laid out again. *)
Definition se_ops : list op := [OpSet (Long L_display) (VStr "block"); OpSet (Long L_width) (VStr "150px"); OpSet (Long L_height) (VInt 30)].
Definition se_laid : node css := fst (layoutA float_arith (declared_style plain_order) screen false py_doc).
Definition se_edit (n : node css) : node css :=
  match n with Node _ _ (Some b) [Node _ _ (Some b') []] => Node (declared py_root) size0 (Some b) [Node (declared py_ops) size0 (Some box0) []; Node (declared se_ops) size0 (Some b') []] | _ => n end.
Lemma se_edited n : (match n with Node _ _ (Some _) [Node _ _ (Some _) []] => true | _ => false end) = true ->
  edited n (se_edit n) /\ exists b b', se_edit n = Node (declared py_root) size0 (Some b) [Node (declared py_ops) size0 (Some box0) []; Node (declared se_ops) size0 (Some b') []].
Proof.
  destruct n as [s i [b|] [|[s' i' [b'|] [|k ks]] [|l ls]]]; try discriminate. intros _. cbn [se_edit]. split; [|eauto].
  constructor. apply edited_add; [constructor; intros ? []|]. apply edited_keep; [|apply edited_end]. constructor. apply edited_end.
Qed.
Lemma se_path b b' p m : get_path p (Node (declared py_root) size0 (Some b) [Node (declared py_ops) size0 (Some box0) []; Node (declared se_ops) size0 (Some b') []]) = Some m ->
  n_intr m = size0 /\ n_box m <> None /\ (n_style m = declared py_root \/ n_style m = declared py_ops \/ n_style m = declared se_ops).
Proof.
  destruct p as [|[|[|j]] [|k p]]; cbn [get_path n_kids nth_error]; intros H; try (injection H as <-; cbn [n_intr n_style n_box]; split; [reflexivity|]; split; [discriminate|]; auto); try discriminate H;
    first [destruct j; discriminate H|destruct k; discriminate H].
Qed.
Definition se_doc : node css := se_edit se_laid.
Example C184_example : exists sty, session plain_order se_doc /\ 300 <= 1000 /\ pixel_display 1000 screen /\ pixel_state plain_order sty 1000 se_doc /\ room 1000 se_doc
  /\ snd (layoutA float_arith (declared_style plain_order) screen false se_doc) = Ok tt
  /\ map (fun u => (this (u_left u), this (u_top u), option_map this (u_w u), this (u_bt u))) (drawn 0 0 (page sty screen false se_doc))
     = [(0, 4, Some 1000, 0); (0, 6, Some 100, 2); (0, 26, Some 150, 0)].
Proof.
  destruct C182_example as (sty0 & D0 & HB & Pd & [N0 Z0 P0] & R0 & _).
  destruct (se_edited se_laid ltac:(vm_compute; reflexivity)) as (Ed & b & b' & E). fold se_doc in Ed, E.
  destruct (py_effect py_root) as [F1 S1]; [|intros N; cbn in N; intuition discriminate| |].
  { constructor; [apply text_library|constructor]. }
  { constructor; [discriminate|constructor]. }
  destruct (py_effect py_ops) as [F2 S2]; [|intros N; cbn in N; intuition discriminate| |].
  { repeat constructor; try apply text_library. intros u W. inversion W as [|x v k y M I W']; subst. destruct M as [M|[M|M]]; discriminate M. }
  { repeat constructor; discriminate. }
  destruct (py_effect se_ops) as [F3 S3]; [|intros N; cbn in N; intuition discriminate| |].
  { repeat constructor; try apply text_library. intros u W. inversion W as [|x v k y M I W']; subst. destruct M as [M|[M|M]]; discriminate M. }
  { repeat constructor; discriminate. }
  destruct (C177_styled _ _ _ plain_valid S1) as [s1 T1], (C177_styled _ _ _ plain_valid S2) as [s2 T2], (C177_styled _ _ _ plain_valid S3) as [s3 T3].
  set (sty := fun c : css => match c_store c L_width, c_store c (L_margin STop) with Some _, Some _ => s2 | Some _, None => s3 | _, _ => s1 end).
  assert (D : scripted_document plain_order sty se_doc).
  { rewrite E. constructor; [exists F1; split; [exact S1|exact T1]|]. intros k [<- |[<- | []]]; (constructor; [|intros ? []]); [exists F2; split; [exact S2|exact T2]|exists F3; split; [exact S3|exact T3]]. }
  exists sty. split.
  { apply (session_edit _ se_laid); [|exact Ed]. unfold se_laid. apply (session_layout _ sty0 screen false 1000 py_doc); [apply session_new, N0|exact HB|exact Pd| |exact R0].
    split; [apply new_stale, N0|exact Z0|exact D0|exact P0]. }
  split; [exact HB|]. split; [exact Pd|]. split.
  { split.
    - rewrite E. intros p q m k H Bm. exfalso. apply se_path in H. tauto.
    - rewrite E. intros p m H. destruct (se_path _ _ _ _ H) as [-> _]. split; [discriminate|]. split; discriminate.
    - exact D.
    - rewrite E. intros p m H. destruct (se_path _ _ _ _ H) as [-> [_ [->|[->| ->]]]]; (split; [|repeat split; discriminate]); (split; [apply all_whole_pixel; vm_compute; reflexivity|intros []; vm_compute; discriminate]). }
  split; [vm_compute; discriminate|]. split; [vm_compute; reflexivity|].
  rewrite <- (scripted_page plain_order sty screen false se_doc plain_valid D). vm_compute. reflexivity.
Qed.
