(** * The page Python computes for a pixel document: C182 *)
From Coq Require Import ZArith QArith Qabs Qcanon Bool String List Lia Lqa.
From Verif Require Import PyNum NumFacts Float64 Units FloatUnits UnitsSpec FloatSpec BoxModel BoxFacts BoxSpec Engine EngineSpec EngineFSpec EngineGSpec EngineExamples EngineArith EngineGProps EngineFProps Values Parser Shorthand Choices Decl DeclFacts DeclSpec ParserFacts GrammarSpec Computed ComputedSpec ComputedFacts ComputedProps DeclProps3 WrapSpec HistSpec HistProps TableSpec TableProps EditSpec EditProps RefLayout RefProps ScriptSpec ScriptProps PyPageSpec.
Import ListNotations.
Open Scope string_scope.
Open Scope Q_scope.

Lemma count_pos {S} (n : node S) : (1 <= count n)%nat.
Proof. destruct n as [s i b ks]. cbn [count]. lia. Qed.
Lemma height_pos {S} (n : node S) : (1 <= height n)%nat.
Proof. destruct n as [s i b ks]. cbn [height]. lia. Qed.
Lemma room_bound {S} B (n : node S) : 300 <= B -> room B n -> B <= qpow2 47.
Proof.
  unfold room. intros HB R. pose proof (count_pos n) as C. pose proof (height_pos n) as H.
  assert (C1 : 1 <= inject_Z (Z.of_nat (count n))) by (change 1 with (inject_Z 1); rewrite <- Zle_Qle; lia).
  assert (H1 : 1 <= inject_Z (Z.of_nat (height n))) by (change 1 with (inject_Z 1); rewrite <- Zle_Qle; lia).
  set (x := inject_Z (Z.of_nat (count n))) in *. set (y := inject_Z (Z.of_nat (height n))) in *. clearbody x y.
  assert (Y : 1 <= y * y) by nra. set (w := y * y) in *. clearbody w.
  assert (X : 1 <= x * w) by nra. assert (E : 140 * x * w * B == 140 * (x * w) * B) by ring. rewrite E in R. set (t := x * w) in *. clear E. clearbody t.
  assert (Z0 : B <= t * B) by nra.
  
  assert (P : qpow2 46 <= qpow2 47) by (vm_compute; discriminate). lra.
Qed.
Lemma new_boxes {S} (n : node S) : brand_new n -> forall p m, get_path p n = Some m -> n_box m = Some box0.
Proof.
  induction n as [s i b ks IH] using node_ind'. intros N p m H. inversion N as [? ? ? K]; subst. destruct p as [|j p]; cbn [get_path n_kids] in H; [injection H as <-; reflexivity|].
  destruct (nth_error ks j) as [k|] eqn:E; [|discriminate]. apply nth_error_In in E. exact (IH k E (K k E) p m H).
Qed.
Lemma new_stale {S} (n : node S) : brand_new n -> no_stale_boxes n.
Proof. intros N p q m k P B. rewrite (new_boxes n N p m P) in B. discriminate. Qed.
Lemma new_boxed {S} (n : node S) : brand_new n -> boxed n.
Proof. intros N. induction N as [s i ks K IH]. constructor. exact IH. Qed.
Lemma new_measured {S} (n : node S) : brand_new n -> measured n.
Proof.
  intros N p m b x P Bx I. rewrite (new_boxes n N p m P) in Bx. injection Bx as <-. vm_compute in I.
  exists 0%Z. repeat destruct I as [<- | I]; try contradiction; apply Qc_is_canon; vm_compute; reflexivity.
Qed.
Lemma pixel_plain d B u : B <= qpow2 47 -> pixel_length B u -> plain_length d B u.
Proof. intros H (p & v & -> & M & F & L). apply (C138_pixel_lengths d B p v); assumption. Qed.
Lemma in_lenauto v u : In u (of_lenauto v) -> show_lenauto v = VUnit u.
Proof. destruct v as [|x]; cbn; [intros []|intros [<-|[]]; reflexivity]. Qed.
Lemma in_option v u : In u (of_option v) -> or_none VUnit v = VUnit u.
Proof. destruct v as [x|]; cbn; [intros [<-|[]]; reflexivity|intros []]. Qed.
Lemma in_border v u : In u (of_border v) -> show_bwidth v = VUnit u.
Proof. destruct v as [k|x]; cbn; [intros []|intros [<-|[]]; reflexivity]. Qed.
Lemma in_offset v u : In u (of_offset v) -> show_offset v = VUnit u.
Proof. destruct v as [| |x]; cbn; [intros []|intros []|intros [<-|[]]; reflexivity]. Qed.
Lemma lengths_shown s u : In u (lengths_of s) -> exists q, engine_reads q = true /\ ComputedSpec.shows s q = Some (VUnit u).
Proof.
  unfold lengths_of. rewrite !in_app_iff.
  intros [[H|[H|[H|H]]]|[[H|H]|[[H|[H|[H|H]]]|[H|[[H|[H|[H|H]]]|[H|[H|[H|H]]]]]]]].
  - exists L_width. split; [reflexivity|]. cbn. rewrite (in_lenauto _ _ H). reflexivity.
  - exists L_height. split; [reflexivity|]. cbn. rewrite (in_lenauto _ _ H). reflexivity.
  - exists L_min_width. split; [reflexivity|]. cbn. rewrite (in_lenauto _ _ H). reflexivity.
  - exists L_min_height. split; [reflexivity|]. cbn. rewrite (in_lenauto _ _ H). reflexivity.
  - exists L_max_width. split; [reflexivity|]. cbn. rewrite (in_option _ _ H). reflexivity.
  - exists L_max_height. split; [reflexivity|]. cbn. rewrite (in_option _ _ H). reflexivity.
  - exists (L_margin STop). split; [reflexivity|]. cbn. rewrite (in_lenauto _ _ H). reflexivity.
  - exists (L_margin SRight). split; [reflexivity|]. cbn. rewrite (in_lenauto _ _ H). reflexivity.
  - exists (L_margin SBottom). split; [reflexivity|]. cbn. rewrite (in_lenauto _ _ H). reflexivity.
  - exists (L_margin SLeft). split; [reflexivity|]. cbn. rewrite (in_lenauto _ _ H). reflexivity.
  - destruct H as [<-|[<-|[<-|[<-|[]]]]]; [exists (L_padding STop)|exists (L_padding SRight)|exists (L_padding SBottom)|exists (L_padding SLeft)]; split; reflexivity.
  - exists (L_border_width STop). split; [reflexivity|]. cbn. rewrite (in_border _ _ H). reflexivity.
  - exists (L_border_width SRight). split; [reflexivity|]. cbn. rewrite (in_border _ _ H). reflexivity.
  - exists (L_border_width SBottom). split; [reflexivity|]. cbn. rewrite (in_border _ _ H). reflexivity.
  - exists (L_border_width SLeft). split; [reflexivity|]. cbn. rewrite (in_border _ _ H). reflexivity.
  - exists (L_offset STop). split; [reflexivity|]. cbn. rewrite (in_offset _ _ H). reflexivity.
  - exists (L_offset SRight). split; [reflexivity|]. cbn. rewrite (in_offset _ _ H). reflexivity.
  - exists (L_offset SBottom). split; [reflexivity|]. cbn. rewrite (in_offset _ _ H). reflexivity.
  - exists (L_offset SLeft). split; [reflexivity|]. cbn. rewrite (in_offset _ _ H). reflexivity.
Qed.
Lemma declaration_plain ho d B c E : valid_order ho -> scripted ho c E -> B <= qpow2 47 -> pixel_declaration ho B c -> plain_style d B (declared_style ho c).
Proof.
  intros V Sc HB [P I]. destruct (scripted_style ho c E V Sc) as (st & -> & _ & Sh & _).
  assert (O : forall s o, ComputedSpec.shows st (L_offset s) = Some (show_offset o) -> o <> OInherit) by (intros s o H ->; apply Sh in H; exact (I s H)).
  split; [|split; [exact (O STop _ eq_refl)|split; [exact (O SRight _ eq_refl)|split; [exact (O SBottom _ eq_refl)|exact (O SLeft _ eq_refl)]]]].
  intros u H. apply pixel_plain; [exact HB|]. destruct (lengths_shown st u H) as (q & Q & S). exact (P q u Q (Sh _ _ S)).
Qed.
Lemma scripted_path ho sty n : scripted_document ho sty n -> forall p m, get_path p n = Some m -> exists E, scripted ho (n_style m) E.
Proof.
  induction n as [c i b ks IH] using node_ind'. intros D p m H. inversion D as [? ? ? ? (E & Sc & _) K]; subst. destruct p as [|j p]; cbn [get_path n_kids] in H; [injection H as <-; exists E; exact Sc|].
  destruct (nth_error ks j) as [k|] eqn:G; [|discriminate]. apply nth_error_In in G. exact (IH k G (K k G) p m H).
Qed.

(** C182.  Python's floats: the outcome is that of exact arithmetic, ... *)
Theorem C182_outcome : forall ho sty d h5 B n, valid_order ho -> scripted_document ho sty n ->
  300 <= B -> pixel_display B d -> pixel_document ho B n -> room B n ->
  layoutA float_arith (declared_style ho) d h5 n = layout_css ho d h5 n.
Proof.
  intros ho sty d h5 B n V D HB [Md Pd] [N Z P] R. apply (C138_plain_documents (declared_style ho) d B h5 n); try assumption.
  - apply new_measured, N.
  - intros p m H. destruct (P p m H) as [A S]. split; [|exact S]. destruct (scripted_path ho sty n D p m H) as [E Sc]. exact (declaration_plain ho d B _ E V Sc (room_bound B n HB R) A).
  - apply new_stale, N.
Qed.
(** ... and the boxes are those of the reference layout of what was written. *)
Theorem C182_page : forall ho sty d h5 B n n', valid_order ho -> scripted_document ho sty n ->
  300 <= B -> pixel_display B d -> pixel_document ho B n -> room B n ->
  layoutA float_arith (declared_style ho) d h5 n = (n', Ok tt) -> laid_out_as 0 0 n' (page sty d h5 n).
Proof.
  intros ho sty d h5 B n n' V D HB Pd P R L. rewrite (C182_outcome ho sty d h5 B n V D HB Pd P R) in L.
  apply (C177_absolute ho); try assumption. apply new_boxed, (pd_new _ _ _ P).
Qed.
Print Assumptions C182_outcome.
Print Assumptions C182_page.
(** Example: a block with a width, margins and a border, written as texts and
    numbers, in a block. *)
Definition py_root : list op := [OpSet (Long L_display) (VStr "block")].
Definition py_ops : list op := [OpSet (Long L_display) (VStr "block"); OpSet (Long L_width) (VStr "100px"); OpSet (Long (L_margin STop)) (VInt 4); OpSet (Long (L_border_width STop)) (VStr "2.0px"); OpSet (Long L_height) (VStr "20")].
Definition py_doc : node css := Node (declared py_root) size0 (Some box0) [Node (declared py_ops) size0 (Some box0) []].
Definition whole (u : unit_) : bool :=
  match u_kind u, u_val u with KPx, PI z => (Z.abs z <? 1000)%Z | KPx, PF (Fin q) => (Z.abs (Qnum (this q)) <? 1000)%Z && Pos.eqb (Qden (this q)) 1 | _, _ => false end.
Lemma whole_binary z : (Z.abs z < 1000)%Z -> binary64 (Z2Qc z) /\ Qabs (this (Z2Qc z)) + 1 <= 1000.
Proof.
  intros H. rewrite this_Z2Qc. change (Qabs (inject_Z z)) with (inject_Z (Z.abs z)). split.
  - split; [exists z, 0%Z; split; [lia|]; split; [lia|]; rewrite this_Z2Qc; change (qpow2 0) with 1%Q; ring|]. rewrite this_Z2Qc. change (Qabs (inject_Z z)) with (inject_Z (Z.abs z)).
    apply Qlt_trans with (inject_Z 1000); [rewrite <- Zlt_Qlt; exact H|reflexivity].
  - change 1%Q with (inject_Z 1). rewrite <- inject_Z_plus. change 1000%Q with (inject_Z 1000). rewrite <- Zle_Qle. lia.
Qed.
Lemma whole_pixel u : whole u = true -> pixel_length 1000 u.
Proof.
  destruct u as [[] p]; try discriminate. unfold whole. cbn [u_kind u_val]. intros H. destruct p as [z|[q| | ]]; try discriminate.
  - apply Z.ltb_lt in H. exists (PI z), (Z2Qc z). split; [reflexivity|]. split; [constructor|]. apply whole_binary, H.
  - apply andb_prop in H. destruct H as [H D]. apply Z.ltb_lt in H. apply Pos.eqb_eq in D. exists (PF (Fin q)), q. split; [reflexivity|]. split; [constructor|].
    assert (E : q = Z2Qc (Qnum (this q))). { apply Qc_is_canon. rewrite this_Z2Qc. destruct q as [[a b] C]. cbn in *. subst b. reflexivity. }
    rewrite E. apply whole_binary, H.
Qed.
Definition all_whole (c : css) : bool :=
  forallb (fun q => match get_long plain_order c q with Ok (VUnit u) => whole u | _ => true end)
    ([L_width; L_height; L_min_width; L_min_height; L_max_width; L_max_height; L_display; L_position; L_float; L_direction]
     ++ flat_map (fun s => [L_margin s; L_padding s; L_border_width s; L_offset s]) [STop; SRight; SBottom; SLeft]).
Lemma all_whole_pixel c : all_whole c = true -> forall q u, engine_reads q = true -> get_long plain_order c q = Ok (VUnit u) -> pixel_length 1000 u.
Proof.
  intros H q u Q G. apply whole_pixel. unfold all_whole in H. rewrite forallb_forall in H. specialize (H q). rewrite G in H. apply H.
  destruct q; try discriminate Q; try (cbn; tauto); destruct s; cbn; tauto.
Qed.
Lemma py_scripted l : Forall library_op l -> with_layouts l -> (exists F rs, program l F rs) -> exists F, scripted plain_order (declared l) F.
Proof. intros L W (F & rs & P). exists F, l, rs. split; [exact L|]. split; [exact W|]. split; [exact P|reflexivity]. Qed.
Lemma py_effect l : Forall library_op l -> with_layouts l -> Forall spares_quotes l -> exists F, scripted plain_order (declared l) F.
Proof. intros L W Q. apply py_scripted; [exact L|exact W|]. apply C166_total, Q. Qed.
Lemma py_path p m : get_path p py_doc = Some m -> n_intr m = size0 /\ (n_style m = declared py_root \/ n_style m = declared py_ops).
Proof.
  destruct p as [|[|j] [|k p]]; unfold py_doc; cbn [get_path n_kids nth_error]; intros H; try (injection H as <-; cbn [n_intr n_style]; auto); try discriminate H.
  - destruct k; discriminate H.
  - destruct j; discriminate H.
  - destruct j; discriminate H.
Qed.
Example C182_example : exists sty, scripted_document plain_order sty py_doc /\ 300 <= 1000 /\ pixel_display 1000 screen /\ pixel_document plain_order 1000 py_doc /\ room 1000 py_doc
  /\ snd (layoutA float_arith (declared_style plain_order) screen false py_doc) = Ok tt
  /\ map (fun u => (this (u_left u), this (u_top u), option_map this (u_w u), this (u_bt u))) (drawn 0 0 (page sty screen false py_doc))
     = [(0, 4, Some 1000, 0); (0, 6, Some 100, 2)].
Proof.
  destruct (py_effect py_root) as [F S1]; [|intros N; cbn in N; intuition discriminate| |].
  { constructor; [apply text_library|constructor]. }
  { constructor; [discriminate|constructor]. }
  destruct (py_effect py_ops) as [E S2]; [|intros N; cbn in N; intuition discriminate| |].
  { repeat constructor; try apply text_library. intros u W. inversion W as [|x v k y M I W']; subst. destruct M as [M|[M|M]]; discriminate M. }
  { repeat constructor; discriminate. }
  destruct (C177_styled _ _ _ plain_valid S1) as [s1 T1], (C177_styled _ _ _ plain_valid S2) as [s2 T2].
  set (sty := fun c : css => match c_store c L_width with Some _ => s2 | None => s1 end).
  assert (D : scripted_document plain_order sty py_doc).
  { constructor; [exists F; split; [exact S1|exact T1]|]. intros k [<- | []]. constructor; [exists E; split; [exact S2|exact T2]|intros ? []]. }
  exists sty. split; [exact D|]. split; [vm_compute; discriminate|]. split.
  { split; [exact g_screen|]. split; [vm_compute; discriminate|]. split; [vm_compute; discriminate|]. intros []; vm_compute; discriminate. }
  split.
  { split.
    - solve_new.
    - intros p m H. destruct (py_path p m H) as [-> _]. split; [discriminate|]. split; discriminate.
    - intros p m H. destruct (py_path p m H) as [-> [->| ->]]; (split; [|repeat split; discriminate]); (split; [apply all_whole_pixel; vm_compute; reflexivity|intros []; vm_compute; discriminate]). }
  split; [vm_compute; discriminate|]. split; [vm_compute; reflexivity|].
  rewrite <- (scripted_page plain_order sty screen false py_doc plain_valid D). vm_compute. reflexivity.
Qed.
