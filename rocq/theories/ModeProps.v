(** * C179: what the HTML5 mode changes *)
From Coq Require Import ZArith QArith Qcanon Bool List.
From Verif Require Import PyNum NumFacts Units BoxModel BoxFacts Engine EngineSpec EngineExamples EngineInv HistSpec HistProps ModeSpec.
Import ListNotations.
Open Scope Qc_scope.

Section Mode.
Context {S : Type} (sty : S -> style).
Notation node := (node S).
Lemma same_refl (b : box) : same_but_height b b. Proof. split; reflexivity. Qed.
Lemma same_root_refl (n : node) : same_but_root_height n n.
Proof. unfold same_but_root_height. destruct (n_box n); repeat split. Qed.

(** C179: any document in any state. *)
Theorem C179_modes : forall d (n a b : node) x y, layout sty d false n = (a, x) -> layout sty d true n = (b, y) ->
  x = y /\ (if is_ok x then same_but_root_height a b else a = b)
  /\ (x = Ok tt -> exists bx h, n_box b = Some bx /\ content_height bx = LNum h /\ nval h = nval (disp_height d) - Z2Qc (collapse_top bx) - Z2Qc (collapse_bottom bx)).
Proof.
  intros d n a b x y La Lb. unfold layout in La, Lb. destruct (n_box n) as [b0|] eqn:Bn.
  2:{ injection La as <- <-. injection Lb as <- <-. split; [reflexivity|]. split; [reflexivity|discriminate]. }
  unfold mbind in La, Lb. destruct (mmod reset n) as [n1 [[]|e]]; [|injection La as <- <-; injection Lb as <- <-; split; [reflexivity|]; split; [reflexivity|discriminate]].
  destruct (layout_box sty (height n) d dummy_font CBView n1) as [n2 [[]|e]]; [|injection La as <- <-; injection Lb as <- <-; split; [reflexivity|]; split; [reflexivity|discriminate]].
  unfold finish_root in La, Lb. destruct (n_box n2) as [b2|] eqn:B2; [|injection La as <- <-; injection Lb as <- <-; split; [reflexivity|]; split; [reflexivity|discriminate]].
  set (n3 := set_content_top _ n2) in *.
  assert (B3 : exists b3, n_box n3 = Some b3 /\ collapse_top b3 = collapse_top b2 /\ collapse_bottom b3 = collapse_bottom b2).
  { unfold n3, set_content_top. destruct n2 as [s i bx ks]. cbn in B2. subst bx. cbn. destruct b2; cbn. destruct (neqb _ _); eexists; split; try reflexivity; split; reflexivity. }
  destruct B3 as (b3 & B3 & Ct & Cb). cbv beta iota delta [mret] in La. injection La as <- <-. clearbody n3.
  destruct n3 as [s i bx ks]. cbn in B3. subst bx. cbn in Lb. injection Lb as <- <-. split; [reflexivity|]. split.
  - split; [reflexivity|]. split; [reflexivity|]. split; [reflexivity|]. cbn. destruct b3; split; reflexivity.
  - intros _. eexists. eexists. split; [reflexivity|]. destruct b3; cbn in *. subst. split; [reflexivity|]. rewrite !nval_sub. reflexivity.
Qed.
End Mode.
Print Assumptions C179_modes.
(** A page whose root has margins of 5 px above and 3 px below, on a display 600 px high; and one that cannot be laid out. *)
Definition mode_doc : doc := el (vmargin 5 3 block_style) [el (hpx 20 block_style) []].
Definition mode_bad : doc := el block_style [el (s_position PAbsolute block_style) []].
Example C179_example :
  layout idsty screen false mode_doc = (out false mode_doc, Ok tt) /\ layout idsty screen true mode_doc = (out true mode_doc, Ok tt)
  /\ lq (content_height (bx (out false mode_doc))) = Some (20 # 1) /\ lq (content_height (bx (out true mode_doc))) = Some (592 # 1)
  /\ snd (layout idsty screen false mode_bad) = Err NotImplementedError.
Proof. split; [apply ok_layout; vm_compute; reflexivity|]. split; [apply ok_layout; vm_compute; reflexivity|]. split; [|split]; vm_compute; reflexivity. Qed.
