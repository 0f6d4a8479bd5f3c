(** * What anonymize() returns: C183 *)
From Coq Require Import ZArith QArith Qcanon Bool List.
From Verif Require Import PyNum Units BoxModel Engine EngineExamples RefLayout Anonymize AnonSpec.
Import ListNotations.

Section Anon.
Context {S : Type} (sty : S -> style).
Notation node := (node S).
Lemma level_same (s : style) : block_level s = is_block_level s.
Proof. unfold block_level, is_block_level. destruct (st_display s) as [[]|]; reflexivity. Qed.
Lemma not_in_blocks (k : node) : ~ in_blocks sty k -> is_block_level (sty (n_style k)) = false.
Proof. unfold in_blocks. rewrite level_same. destruct (is_block_level _); [intros H; contradiction H; reflexivity|reflexivity]. Qed.
Lemma rest_run l ks : Forall (fun k => ~ in_blocks sty k) l -> forall a, l <> [] -> rest sty (l ++ ks) a = rest sty ks (Some (match a with Some x => x ++ l | None => l end)).
Proof.
  induction 1 as [|k l H F IH]; intros a N; [contradiction|]. cbn [app rest]. rewrite (not_in_blocks k H). destruct l as [|k' l].
  - destruct a; reflexivity.
  - rewrite IH by discriminate. destruct a as [x|]; [rewrite <- app_assoc|]; reflexivity.
Qed.
Lemma rest_tail l : Forall (fun k => ~ in_blocks sty k) l -> forall a, rest sty l a = [].
Proof. induction 1 as [|k l H F IH]; intros a; [reflexivity|]. cbn [rest]. rewrite (not_in_blocks k H). apply IH. Qed.
Lemma rest_grouped ks : forall a, match a with
  | None => grouped sty ks (rest sty ks None)
  | Some l => l <> [] -> Forall (fun k => ~ in_blocks sty k) l -> grouped sty (l ++ ks) (rest sty ks (Some l)) end.
Proof.
  induction ks as [|k ks IH]; intros a.
  - destruct a as [l|]; cbn [rest]; [intros _ F; rewrite app_nil_r; constructor; exact F|constructor; constructor].
  - cbn [rest]. destruct (is_block_level (sty (n_style k))) eqn:L.
    + assert (B : in_blocks sty k) by (unfold in_blocks; rewrite level_same; exact L). destruct a as [l|].
      * intros N F. apply grouped_run; [exact N|exact F|exact B|exact (IH None)].
      * apply grouped_block; [exact B|exact (IH None)].
    + assert (B : ~ in_blocks sty k) by (unfold in_blocks; rewrite level_same, L; discriminate). destruct a as [l|].
      * intros N F. change (k :: ks) with ([k] ++ ks). rewrite app_assoc. apply (IH (Some (l ++ [k]))); [destruct l; discriminate|].
        apply Forall_app. split; [exact F|constructor; [exact B|constructor]].
      * apply (IH (Some [k])); [discriminate|constructor; [exact B|constructor]].
Qed.
(** C183: anonymize() groups the nodes in this way, and there is no other. *)
Theorem C183_anonymize : forall ks cs, anonymize sty ks = cs <-> grouped sty ks cs.
Proof.
  intros ks cs. rewrite anonymize_rest. split; [intros <-; exact (rest_grouped ks None)|].
  induction 1 as [l F|k ks cs B G IH|l k ks cs N F B G IH].
  - apply rest_tail, F.
  - cbn [rest]. unfold in_blocks in B. rewrite level_same in B. rewrite B, IH. reflexivity.
  - rewrite (rest_run l (k :: ks) F None N). cbn [rest]. unfold in_blocks in B. rewrite level_same in B. rewrite B, IH. reflexivity.
Qed.
(** Nothing is lost or reordered but the nodes after the last block. *)
Theorem C183_members : forall ks, exists tail, ks = flat_map members (anonymize sty ks) ++ tail /\ Forall (fun k => ~ in_blocks sty k) tail.
Proof.
  intros ks. pose proof (proj1 (C183_anonymize ks _) eq_refl) as G. induction G as [l F|k ks cs B G (t & -> & F)|l k ks cs N F' B G (t & -> & F)].
  - exists l. split; [reflexivity|exact F].
  - exists t. split; [reflexivity|exact F].
  - exists t. split; [cbn; rewrite <- app_assoc; reflexivity|exact F].
Qed.
(** The loop of layout_box() over the containers is the loop of [Engine.v]. *)
Theorem C183_loop : forall lay ks b off bm, flow sty lay ks false b off bm
  = let '(cs, b', r) := flow_containers lay (anonymize sty ks) b off bm in (mutated sty ks cs, b', r).
Proof. intros. apply flow_anonymize. Qed.
End Anon.
Print Assumptions C183_anonymize.
Print Assumptions C183_members.
Print Assumptions C183_loop.
(** Text, text, block, block, text. *)
Definition an_text : doc := el (s_display (Some DInline) block_style) [].
Definition an_block (z : Z) : doc := el (hpx z block_style) [].
Example C183_example : anonymize idsty [an_text; an_text; an_block 1; an_block 2; an_text] = [Anon [an_text; an_text]; Block (an_block 1); Block (an_block 2)].
Proof. reflexivity. Qed.
