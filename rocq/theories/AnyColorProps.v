(** * C162: every text is decided by the colour parser *)
From Coq Require Import ZArith QArith Qcanon Bool String Ascii List Lia.
From Verif Require Import PyNum NumFacts Units Float64 PyStr StrFacts Colors Values Parser ParserFacts
  ColorText ColorSpec ColorProps ReadSpec ReadProps FuncSpec FuncProps DeclErrors RaiseProps AnyColorSpec.
Import ListNotations.
Open Scope string_scope.

Lemma shape base s : In base ["rgb"; "hsl"] -> startswith base s = true ->
  (exists name t, In name ["rgb"; "rgba"; "hsl"; "hsla"] /\ (String.length t <= 1)%nat /\ s = name ++ t)
  \/ exists name x ts y, opened name x /\ commas_ok ts /\ ts <> [] /\ s = applied name x ts y.
Proof.
  intros B H. destruct B as [<- |[<- |[]]]; [|apply hsl_shape, H].
  destruct s as [|c1 [|c2 [|c3 s]]]; cbn [startswith] in H; rewrite ?andb_false_r in H; try discriminate.
  apply andb_prop in H. destruct H as [H1 H]. apply andb_prop in H. destruct H as [H2 H]. apply andb_prop in H. destruct H as [H3 _].
  apply Ascii.eqb_eq in H1, H2, H3. subst.
  destruct s as [|x s]; [left; exists "rgb", ""; cbn; repeat split; auto|]. destruct (Ascii.eqb_spec x "a") as [->|X].
  - destruct (after_name "rgba" s) as [L|(x & ts & y & -> & C & N)]; [cbn; auto| |].
    + left. exists "rgba", s. split; [cbn; auto|]. split; [exact L|reflexivity].
    + right. exists "rgba", x, ts, y. split; [left; cbn; auto|]. auto.
  - destruct (after_name "rgb" (String x s)) as [L|(x' & ts & y & E & C & N)]; [cbn; auto| |].
    + left. exists "rgb", (String x s). split; [cbn; auto|]. split; [exact L|reflexivity].
    + right. injection E as -> E. exists "rgb", x', ts, y. split; [right; split; [cbn; auto|exact X]|]. split; [exact C|]. split; [exact N|]. unfold applied. rewrite E. reflexivity.
Qed.
Lemma shape_color n base s v m : In base ["rgb"; "hsl"] -> startswith base s = true -> color n (VStr s) = Ok (v, m) -> color_of n s v m.
Proof.
  intros B S H. destruct (shape base s B S) as [(name & t & I & L & ->)|(name & x & ts & y & O & C & N & ->)].
  - rewrite (C160_short n name t I L) in H. discriminate.
  - destruct (C160_accepted n name x ts y O C N) as [A1 A2]. destruct (A2 _ H) as (c & E). injection E as -> ->. constructor; [exact O|exact C|]. apply A1, H.
Qed.
Lemma spelled name hex v : same_entry (name, hex) (name, v) = true -> let '(r, g, b) := v in spells hex r g b.
Proof.
  unfold same_entry. destruct v as [[r g] b]. intros H. apply andb_prop in H. destruct H as [_ H].
  destruct (list_ascii_of_string hex) as [|c1 [|c2 [|c3 [|c4 [|c5 [|c6 [|? ?]]]]]]] eqn:L; try discriminate.
  destruct (hex_value c1) as [x1|] eqn:E1; [|discriminate]. destruct (hex_value c2) as [x2|] eqn:E2; [|discriminate].
  destruct (hex_value c3) as [x3|] eqn:E3; [|discriminate]. destruct (hex_value c4) as [x4|] eqn:E4; [|discriminate].
  destruct (hex_value c5) as [x5|] eqn:E5; [|discriminate]. destruct (hex_value c6) as [x6|] eqn:E6; [|discriminate].
  apply andb_prop in H. destruct H as [H H3]. apply andb_prop in H. destruct H as [H1 H2]. apply Z.eqb_eq in H1, H2, H3.
  exists c1, c2, c3, c4, c5, c6, x1, x2, x3, x4, x5, x6. split; [rewrite <- L; symmetry; apply string_of_list_ascii_of_string|]. repeat (split; [eassumption||congruence|]). congruence.
Qed.
(** C162. *)
Theorem C162_accepted : forall n s v m, color n (VStr s) = Ok (v, m) <-> color_of n s v m.
Proof.
  intros n s v m. split.
  - intros H. destruct s as [|c s]; [discriminate|]. destruct (Ascii.eqb_spec c "#") as [->|NH].
    { assert (E : String "#" s = hash (list_ascii_of_string s)) by (unfold hash; rewrite string_of_list_ascii_of_string; reflexivity).
      rewrite E in *. rewrite C89_hash in H. destruct (hex_color _) as [w|] eqn:W; [|discriminate]. injection H as <- <-. constructor. exact W. }
    destruct (startswith "rgb" (String c s)) eqn:R; [apply (shape_color n "rgb"); [cbn; auto|exact R|exact H]|].
    destruct (startswith "hsl" (String c s)) eqn:L; [apply (shape_color n "hsl"); [cbn; auto|exact L|exact H]|].
    assert (RA : startswith "rgba" (String c s) = false) by (destruct (startswith "rgba" _) eqn:X; [apply (startswith_prefix "rgb" "a") in X; congruence|reflexivity]).
    assert (LA : startswith "hsla" (String c s) = false) by (destruct (startswith "hsla" _) eqn:X; [apply (startswith_prefix "hsl" "a") in X; congruence|reflexivity]).
    unfold color, color_text in H. rewrite (proj2 (Ascii.eqb_neq c "#") NH), RA, R, LA, L in H.
    destruct (assoc (lower (String c s)) NAMED_COLOR) as [[[r g] b]|] eqn:X; cbn [bindr] in H; [|discriminate].
    unfold named_color in H. rewrite X in H. injection H as <- <-.
    destruct (css_only _ _ X) as (hex & J). destruct (css_in _ _ J) as (w & W1 & W). assert (w = (r, g, b)) as -> by congruence.
    apply (of_name n (lower (String c s)) hex); [exact J|exact (spelled _ _ _ W)|].
    apply entry_plain in W. unfold plain_name in W.
    apply andb_prop in W. destruct W as [W _]. apply andb_prop in W. destruct W as [W _]. apply andb_prop in W. destruct W as [W _].
    rewrite (same_lower _ W). apply String.eqb_refl.
  - intros [l w W|name x ts y c O C D|name hex r g b t I S E].
    + rewrite C89_hash, W. reflexivity.
    + apply C160_accepted; [exact O|exact C|destruct D; discriminate|exact D].
    + exact (C11_names n name hex r g b t I S E).
Qed.
Print Assumptions C162_accepted.
Theorem C162_rejected : forall n s,
  (color n (VStr s) = Err IndexError <-> s = "")
  /\ (color n (VStr s) = Err OverflowError <-> overflowing s)
  /\ (color n (VStr s) = Err ValueError <-> s <> "" /\ ~ overflowing s /\ forall v m, ~ color_of n s v m).
Proof.
  intros n s.
  assert (OV : overflowing s -> color n (VStr s) = Err OverflowError).
  { intros (name & x & ts & y & O & C & V & ->). apply C160_rejected; [exact O|exact C|destruct V; discriminate|exact V]. }
  destruct (color n (VStr s)) as [[v m]|e] eqn:E.
  - split; [split; [discriminate|intros ->; discriminate]|]. split; [split; [discriminate|exact OV]|].
    split; [discriminate|]. intros (_ & _ & X). destruct (X v m). apply C162_accepted, E.
  - assert (NC : forall v m, ~ color_of n s v m) by (intros v m X; apply C162_accepted in X; congruence).
    destruct (color_raises n (VStr s) e E) as [->|[[EV ->]|(name & x & ts & y & O & C & V & EV & ->)]].
    + split; [split; [discriminate|intros ->; discriminate E]|]. split; [split; [discriminate|exact OV]|].
      split; [|reflexivity]. intros _. split; [intros ->; discriminate E|]. split; [intros X; discriminate (OV X)|exact NC].
    + injection EV as ->. split; [split; reflexivity|]. split; [split; [discriminate|exact OV]|]. split; [discriminate|]. intros (X & _). contradiction.
    + injection EV as ->. assert (W : overflowing (applied name x ts y)) by (exists name, x, ts, y; auto).
      split; [split; [discriminate|intros X; rewrite X in E; discriminate E]|]. split; [split; [intros _; exact W|reflexivity]|].
      split; [discriminate|]. intros (_ & X & _). contradiction.
Qed.
Print Assumptions C162_rejected.
(** Values other than text. *)
Theorem C162_values : forall n v, (forall s, v <> VStr s) ->
  (exists o c, v = VColor o c /\ color n v = Ok (v, n)) \/ ((forall o c, v <> VColor o c) /\ color n v = Err ValueError).
Proof.
  intros n v S. destruct v; try (right; split; [discriminate|reflexivity]); [destruct (S s eq_refl)|]. left. eexists _, _. split; reflexivity.
Qed.
Print Assumptions C162_values.
Example C162_example : (exists v, color_of 7 "#f00a" v 8) /\ (exists v, color_of 7 "hsla[ 9,9,9%,nan]" v 8) /\ (exists v, color_of 7 "DarkSlateGrey" v 7)
  /\ (forall v m, ~ color_of 7 "RGB(1,2,3)" v m) /\ color 7 (VStr "RGB(1,2,3)") = Err ValueError.
Proof.
  split; [eexists; apply C162_accepted; vm_compute; reflexivity|]. split; [eexists; apply C162_accepted; vm_compute; reflexivity|].
  split; [eexists; apply C162_accepted; vm_compute; reflexivity|]. split; [|vm_compute; reflexivity].
  intros v m H. apply C162_accepted in H. vm_compute in H. discriminate.
Qed.
