(** * Properties C09-C14, C89-C92: colours *)
From Coq Require Import ZArith QArith Qcanon Qround Bool String Ascii List Lia Lqa.
From Verif Require Import PyNum NumFacts Float64 PyStr StrFacts TextFacts Colors Values Parser ColorSpec ColorFacts ColorText.
Import ListNotations.
Open Scope string_scope.
Open Scope Z_scope.

(** ** C09: '#RGB' is '#RRGGBB' and '#RGBA' is '#RRGGBBAA' *)
Lemma is_hex_some c : is_hex c <-> exists x, hex_value c = Some x.
Proof. unfold is_hex. destruct (hex_value c); split; intros H; [eauto|discriminate|congruence|destruct H; discriminate]. Qed.
Theorem C09_short_long n a b c d :
  color n (VStr (hash [a; b; c])) = color n (VStr (hash [a; a; b; b; c; c]))
  /\ color n (VStr (hash [a; b; c; d])) = color n (VStr (hash [a; a; b; b; c; c; d; d]))
  /\ ((exists r, color n (VStr (hash [a; b; c])) = Ok r) <-> is_hex a /\ is_hex b /\ is_hex c)
  /\ ((exists r, color n (VStr (hash [a; b; c; d])) = Ok r) <-> is_hex a /\ is_hex b /\ is_hex c /\ is_hex d).
Proof.
  rewrite !color_hash. cbn [hex_color]. split; [reflexivity|]. split; [reflexivity|]. rewrite !pair_twice, !is_hex_some. split; split.
  - intros (r & H). destruct (hex_value a), (hex_value b), (hex_value c); try discriminate. repeat split; eexists; reflexivity.
  - intros ((x & ->) & (y & ->) & (z & ->)). eexists. reflexivity.
  - intros (r & H). destruct (hex_value a), (hex_value b), (hex_value c), (hex_value d); try discriminate. repeat split; eexists; reflexivity.
  - intros ((x & ->) & (y & ->) & (z & ->) & (w & ->)). eexists. reflexivity.
Qed.
Print Assumptions C09_short_long.
Example C09_example : exists r, color 0 (VStr "#f80") = Ok r /\ color 0 (VStr "#ff8800") = Ok r /\ color 0 (VStr "#f8g") = Err ValueError.
Proof. eexists. split; [vm_compute; reflexivity|]. split; vm_compute; reflexivity. Qed.

(** ** C10: hexadecimal digits denote their components *)
Definition all_hex (l : list ascii) : Prop := forall c, In c l -> is_hex c.
(** C10: digit pairs denote their components, in range.  Missing: the converse
    (only hexadecimal digits are accepted), which is false, see C10_refuted; C89
    is the exact language. *)
Theorem C10_digits_partial n a a' b b' c c' d d' : all_hex [a; a'; b; b'; c; c'; d; d'] ->
  exists x x' y y' z z' w w' alpha,
    hex_value a = Some x /\ hex_value a' = Some x' /\ hex_value b = Some y /\ hex_value b' = Some y'
    /\ hex_value c = Some z /\ hex_value c' = Some z' /\ hex_value d = Some w /\ hex_value d' = Some w'
    /\ (let r := 16 * x + x' in let g := 16 * y + y' in let bl := 16 * z + z' in
        color n (VStr (hash [a; a'; b; b'; c; c'])) = Ok (VColor (OId n) (Rgb (PI r) (PI g) (PI bl) (PF (Fin 1%Qc))), S n)
        /\ color n (VStr (hash [a; a'; b; b'; c; c'; d; d'])) = Ok (VColor (OId n) (Rgb (PI r) (PI g) (PI bl) (PF (Fin alpha))), S n)
        /\ 0 <= r <= 255 /\ 0 <= g <= 255 /\ 0 <= bl <= 255
        /\ b64 (16 * w + w' # 255) = Fin alpha /\ unit_interval alpha).
Proof.
  intros H. assert (G : forall e, In e [a; a'; b; b'; c; c'; d; d'] -> exists x, hex_value e = Some x) by (intros e I; apply is_hex_some, H, I).
  destruct (G a ltac:(cbn; auto 10)) as (x & A), (G a' ltac:(cbn; auto 10)) as (x' & A'), (G b ltac:(cbn; auto 10)) as (y & B), (G b' ltac:(cbn; auto 10)) as (y' & B'), (G c ltac:(cbn; auto 10)) as (z & C), (G c' ltac:(cbn; auto 10)) as (z' & C'), (G d ltac:(cbn; auto 10)) as (w & D), (G d' ltac:(cbn; auto 10)) as (w' & D').
  pose proof (hex_range _ _ A). pose proof (hex_range _ _ A'). pose proof (hex_range _ _ B). pose proof (hex_range _ _ B').
  pose proof (hex_range _ _ C). pose proof (hex_range _ _ C'). pose proof (hex_range _ _ D). pose proof (hex_range _ _ D').
  destruct (alpha_range (16 * w + w')) as (al & E & U); [lia|].
  exists x, x', y, y', z, z', w, w', al. repeat (split; [assumption|]). cbv zeta.
  rewrite !color_hash. cbn [hex_color]. unfold pair_value. rewrite A, A', B, B', C, C', D, D'. split; [reflexivity|]. split; [cbn [byte_color]; rewrite E; reflexivity|]. split; [lia|]. split; [lia|]. split; [lia|]. split; [exact E|exact U].
Qed.
Print Assumptions C10_digits_partial.
Example C10_example : all_hex (list_ascii_of_string "12abCDf0").
Proof. intros c H. assert (X : forallb (fun c => match hex_value c with Some _ => true | None => false end) (list_ascii_of_string "12abCDf0") = true) by reflexivity. rewrite forallb_forall in X. specialize (X c H). unfold is_hex. destruct (hex_value c); [discriminate|discriminate X]. Qed.
(** A sign or a blank in place of a digit is accepted too. *)
Theorem C10_refuted : exists c, color 0 (VStr "#-f-f-f") = Ok (VColor (OId 0) c, 1%nat) /\ c = Rgb (PI (-15)) (PI (-15)) (PI (-15)) opaque /\ ~ is_hex "-".
Proof. eexists. split; [vm_compute; reflexivity|]. split; [reflexivity|]. intros H. apply H. reflexivity. Qed.
Print Assumptions C10_refuted.

(** ** C89: exactly which texts starting with '#' are colours *)
Theorem C89_hash n l :
  color n (VStr (hash l)) = match hex_color l with Some v => Ok (VColor (OId n) (byte_color v), S n) | None => Err ValueError end.
Proof. apply color_hash. Qed.
Print Assumptions C89_hash.
Example C89_example : hex_color (list_ascii_of_string "f +812") = Some (15, 8, 18, None) /\ hex_color (list_ascii_of_string "f+8120") = None.
Proof. split; reflexivity. Qed.

(** ** C11: named colours *)
Definition lower_letter (c : ascii) : bool := let x := Z.of_N (N_of_ascii c) in (97 <=? x) && (x <=? 122).
Lemma same_letter_lower a b : lower_letter b = true -> same_letter a b = Ascii.eqb (lower_char a) b.
Proof.
  intros H. assert (X : implb (lower_letter b) (Bool.eqb (same_letter a b) (Ascii.eqb (lower_char a) b)) = true).
  { clear H. revert a b. apply (every_pair (fun a b => implb (lower_letter b) (Bool.eqb (same_letter a b) (Ascii.eqb (lower_char a) b)))). vm_compute. reflexivity. }
  rewrite H in X. apply Bool.eqb_prop, X.
Qed.
Lemma same_lower name : all_chars lower_letter name = true -> forall s, same_ignoring_case s name = String.eqb (lower s) name.
Proof.
  induction name as [|b name IH]; intros H [|a s]; cbn [same_ignoring_case lower String.eqb]; try reflexivity.
  cbn [all_chars] in H. apply andb_prop in H. destruct H as [H1 H2]. rewrite (same_letter_lower _ _ H1), (IH H2). destruct (Ascii.eqb (lower_char a) b); reflexivity.
Qed.
Definition plain_name (name : string) : bool :=
  all_chars lower_letter name && negb (startswith "rgb" name) && negb (startswith "hsl" name) && negb (String.eqb name "").
(** The model's table is the specification's (in another order). *)
Definition same_entry (p : string * string) (q : string * (Z * Z * Z)) : bool :=
  let '(name, hex) := p in let '(key, (r, g, b)) := q in
  String.eqb name key && plain_name name
  && match list_ascii_of_string hex with
     | [c1; c2; c3; c4; c5; c6] =>
         match hex_value c1, hex_value c2, hex_value c3, hex_value c4, hex_value c5, hex_value c6 with
         | Some x1, Some x2, Some x3, Some x4, Some x5, Some x6 => (r =? 16 * x1 + x2) && (g =? 16 * x3 + x4) && (b =? 16 * x5 + x6)
         | _, _, _, _, _, _ => false
         end
     | _ => false
     end.
Lemma css_in name hex : In (name, hex) css_colors -> exists v, assoc name NAMED_COLOR = Some v /\ same_entry (name, hex) (name, v) = true.
Proof.
  intros I. assert (X : forallb (fun p => match assoc (fst p) NAMED_COLOR with Some v => same_entry p (fst p, v) | None => false end) css_colors = true) by (vm_compute; reflexivity).
  rewrite forallb_forall in X. specialize (X _ I). cbn [fst] in X. destruct (assoc name NAMED_COLOR) as [v|]; [|discriminate]. eauto.
Qed.
Lemma assoc_in {A} k (l : list (string * A)) v : assoc k l = Some v -> In (k, v) l.
Proof. induction l as [|[k' w] l IH]; cbn; [discriminate|]. destruct (String.eqb_spec k k') as [->|]; intros H; [left; congruence|right; auto]. Qed.
Lemma css_only name v : assoc name NAMED_COLOR = Some v -> exists hex, In (name, hex) css_colors.
Proof.
  intros I. apply assoc_in in I. assert (X : forallb (fun p => match assoc (fst p) css_colors with Some _ => true | None => false end) NAMED_COLOR = true) by (vm_compute; reflexivity).
  rewrite forallb_forall in X. specialize (X _ I). cbn [fst] in X. destruct (assoc name css_colors) as [hex|] eqn:E; [|discriminate]. exists hex. apply assoc_in, E.
Qed.
Lemma spells_unique hex r g b : spells hex r g b -> forall name v, same_entry (name, hex) (name, v) = true -> v = (r, g, b).
Proof.
  intros (c1 & c2 & c3 & c4 & c5 & c6 & x1 & x2 & x3 & x4 & x5 & x6 & -> & E1 & E2 & E3 & E4 & E5 & E6 & -> & -> & ->) name [[r' g'] b'] H.
  unfold same_entry in H. apply andb_prop in H. destruct H as [_ H]. rewrite list_ascii_of_string_of_list_ascii in H. rewrite E1, E2, E3, E4, E5, E6 in H.
  apply andb_prop in H. destruct H as [H H3]. apply andb_prop in H. destruct H as [H1 H2]. apply Z.eqb_eq in H1, H2, H3. subst. reflexivity.
Qed.
Lemma startswith_lower p s : all_chars (fun c => Ascii.eqb (lower_char c) c) p = true -> startswith p s = true -> startswith p (lower s) = true.
Proof.
  revert s. induction p as [|a p IH]; intros s H S; [reflexivity|]. destruct s as [|b s]; [discriminate|]. cbn [startswith lower] in *.
  cbn [all_chars] in H. apply andb_prop in H, S. destruct H as [H1 H2], S as [S1 S2]. apply Ascii.eqb_eq in S1. subst b. rewrite (IH _ H2 S2), andb_true_r.
  apply Ascii.eqb_eq in H1. rewrite H1. apply Ascii.eqb_refl.
Qed.
Lemma startswith_prefix p q s : startswith (p ++ q) s = true -> startswith p s = true.
Proof.
  revert s. induction p as [|a p IH]; intros s H; [reflexivity|]. destruct s as [|b s]; [discriminate|]. cbn [append startswith] in *. apply andb_prop in H. destruct H as [-> H]. apply IH, H.
Qed.
Lemma entry_plain name hex v : same_entry (name, hex) (name, v) = true -> plain_name name = true.
Proof. unfold same_entry. destruct v as [[r g] b]. intros H. apply andb_prop in H. destruct H as [H _]. apply andb_prop in H. apply H. Qed.
Theorem C11_names n name hex r g b s :
  In (name, hex) css_colors -> spells hex r g b -> same_ignoring_case s name = true ->
  color n (VStr s) = Ok (VColor (ONamed name) (Rgb (PI r) (PI g) (PI b) (PF (Fin 1%Qc))), n).
Proof.
  intros I S C. destruct (css_in _ _ I) as (v & A & E). pose proof (entry_plain _ _ _ E) as P.
  rewrite (spells_unique _ _ _ _ S _ _ E) in A. unfold plain_name in P. apply andb_prop in P. destruct P as [P P4]. apply andb_prop in P. destruct P as [P P3].
  apply andb_prop in P. destruct P as [P1 P2]. rewrite (same_lower _ P1) in C. apply String.eqb_eq in C. apply negb_true_iff in P2, P3, P4.
  assert (N : forall p q, all_chars (fun c => Ascii.eqb (lower_char c) c) (p ++ q) = true -> startswith p name = false -> startswith (p ++ q) s = false).
  { intros p q L F. destruct (startswith (p ++ q) s) eqn:X; [|reflexivity]. apply (startswith_lower _ _ L) in X. rewrite C in X. apply startswith_prefix in X. congruence. }
  unfold color, color_text. destruct s as [|c s]; [cbn in C; subst name; discriminate|].
  assert (Ascii.eqb c "#" = false) as ->. { destruct (Ascii.eqb_spec c "#") as [->|]; [|reflexivity]. rewrite <- C in P1. discriminate. }
  pose proof (N "rgb" "a" eq_refl P2) as S1. pose proof (N "rgb" "" eq_refl P2) as S2. pose proof (N "hsl" "a" eq_refl P3) as S3. pose proof (N "hsl" "" eq_refl P3) as S4.
  cbn [append] in S1, S2, S3, S4. rewrite S1, S2, S3, S4.
  rewrite C, A. cbn [bindr]. unfold named_color. rewrite A. reflexivity.
Qed.
Print Assumptions C11_names.
Example C11_example : In ("rebeccapurple", "663399") css_colors /\ spells "663399" 102 51 153 /\ same_ignoring_case "RebeccaPURPLE" "rebeccapurple" = true.
Proof.
  split; [apply assoc_in; reflexivity|]. split; [|reflexivity].
  exists "6"%char, "6"%char, "3"%char, "3"%char, "9"%char, "9"%char, 6, 6, 3, 3, 9, 9. repeat split.
Qed.
Lemma one_part body : all_chars ident_char body = true -> split_on "," body = [body].
Proof.
  intros A. apply split_on_none. revert A. apply all_chars_impl.
  by_chars (fun c => implb (ident_char c) (negb (Ascii.eqb c ","))). intros H. rewrite H in X. exact X.
Qed.
Lemma all_chars_take f k s : all_chars f s = true -> all_chars f (take k s) = true.
Proof. revert s. induction k as [|k IH]; intros [|c s] H; cbn in *; try reflexivity. apply andb_prop in H. destruct H as [-> H]. apply IH, H. Qed.
Lemma all_chars_drop f k s : all_chars f s = true -> all_chars f (drop k s) = true.
Proof. revert s. induction k as [|k IH]; intros [|c s] H; cbn in *; try reflexivity; try exact H. apply andb_prop in H. apply IH, H. Qed.
Theorem C11_only n s r : all_chars ident_char s = true -> color n (VStr s) = Ok r ->
  exists name hex, In (name, hex) css_colors /\ same_ignoring_case s name = true.
Proof.
  intros A H. assert (I : forall k, all_chars ident_char (inner k s) = true) by (intros k; apply all_chars_drop, all_chars_take, A).
  unfold color, color_text in H. destruct s as [|c s]; [discriminate|].
  assert (Ascii.eqb c "#" = false) as E. { destruct (Ascii.eqb_spec c "#") as [->|]; [discriminate|reflexivity]. }
  rewrite E in H. cbv zeta in H.
  destruct (startswith "rgba" _); [rewrite (one_part _ (I 5%nat)) in H; discriminate|].
  destruct (startswith "rgb" _); [rewrite (one_part _ (I 4%nat)) in H; discriminate|].
  destruct (startswith "hsla" _); [rewrite (one_part _ (I 5%nat)) in H; discriminate|].
  destruct (startswith "hsl" _); [rewrite (one_part _ (I 4%nat)) in H; discriminate|].
  destruct (assoc (lower (String c s)) NAMED_COLOR) as [v|] eqn:X; [|discriminate].
  destruct (css_only _ _ X) as (hex & J). exists (lower (String c s)), hex. split; [exact J|].
  destruct (css_in _ _ J) as (w & _ & W). apply entry_plain in W. unfold plain_name in W.
  apply andb_prop in W. destruct W as [W _]. apply andb_prop in W. destruct W as [W _]. apply andb_prop in W. destruct W as [W _].
  rewrite (same_lower _ W). apply String.eqb_refl.
Qed.
Print Assumptions C11_only.
Example C11_only_example : all_chars ident_char "Navy" = true /\ (exists r, color 0 (VStr "Navy") = Ok r) /\ color 0 (VStr "navyblue") = Err ValueError.
Proof. split; [reflexivity|]. split; [eexists; vm_compute; reflexivity|vm_compute; reflexivity]. Qed.

(** ** C12: hsl to rgb *)
Lemma ratio60 hue H k : (hue / Z2Qc 60 = H)%Qc -> (hue = Z2Qc 60 * H)%Qc -> (Z2Qc (60 * k) <= hue)%Qc <-> (Z2Qc k <= H)%Qc.
Proof. intros _ ->. rewrite Z2Qc_mul. split; intros X; qcl. Qed.
(** C12, for hues in [0, 240] and [300, 360].  Missing: hues strictly between 240
    and 300, where red and green are exchanged (C12_refuted, C90). *)
Theorem C12_css_partial h s l a hue : pval h = Fin hue -> (0 <= hue)%Qc -> (hue <= Z2Qc 360)%Qc -> (hue <= Z2Qc 240 \/ Z2Qc 300 <= hue)%Qc ->
  forall ps pl, pval ps = Fin s -> pval pl = Fin l -> unit_interval s -> unit_interval l ->
  exists r g b, css_hsl_rgb hue s l = (r, g, b) /\ color_rgb (Hsl h ps pl a) = Ok (Rgb (PI r) (PI g) (PI b) a).
Proof.
  intros Eh H0 H1 HC ps pl Es El S L. unfold css_hsl_rgb, color_rgb. rewrite Eh, Es, El. unfold hsl_rgb.
  destruct (sixty hue) as (H & E60 & E360 & E). rewrite (fractions_sector hue s l H) by (try exact E60; rewrite E in *; qcl).
  rewrite (css_as_sector hue s l H S L E360).
  assert ((qc_ltb (Z2Qc 4) H && qc_ltb H (Z2Qc 5))%bool = false) as ->.
  { destruct HC as [HC|HC]; [rewrite (qc_ltb_false (Z2Qc 4) H) by (rewrite E in *; qcl); reflexivity|rewrite (qc_ltb_false H (Z2Qc 5)) by (rewrite E in *; qcl); apply andb_false_r]. }
  destruct (sector _ _ _) as [[r g] b]. exists (css_byte r), (css_byte g), (css_byte b). split; reflexivity.
Qed.
Print Assumptions C12_css_partial.
Example C12_example : css_hsl_rgb (Z2Qc 120) 1 (qfrac 1 4) = (0, 128, 0) /\ color_rgb (Hsl (PI 120) (PF (Fin 1%Qc)) (PF (Fin (qfrac 1 4))) opaque) = Ok (Rgb (PI 0) (PI 128) (PI 0) opaque).
Proof. split; vm_compute; reflexivity. Qed.
(** Between 240 and 300 degrees red and green are exchanged. *)
Theorem C12_refuted : exists hue s l, (0 <= hue)%Qc /\ (hue <= Z2Qc 360)%Qc /\ unit_interval s /\ unit_interval l
  /\ css_hsl_rgb hue s l = (128, 0, 255) /\ color_rgb (Hsl (PF (Fin hue)) (PF (Fin s)) (PF (Fin l)) opaque) = Ok (Rgb (PI 0) (PI 128) (PI 255) opaque).
Proof. exists (Z2Qc 270), 1%Qc, (qfrac 1 2). split; [discriminate|]. split; [discriminate|]. split; [split; discriminate|]. split; [split; discriminate|]. split; vm_compute; reflexivity. Qed.
Print Assumptions C12_refuted.

(** ** C90: what the conversion does between 240 and 300 degrees *)
Theorem C90_exchanged h s l a hue : pval h = Fin hue -> (Z2Qc 240 < hue)%Qc -> (hue < Z2Qc 300)%Qc ->
  forall ps pl, pval ps = Fin s -> pval pl = Fin l -> unit_interval s -> unit_interval l ->
  exists r g b, css_hsl_rgb hue s l = (r, g, b) /\ color_rgb (Hsl h ps pl a) = Ok (Rgb (PI g) (PI r) (PI b) a).
Proof.
  intros Eh H0 H1 ps pl Es El S L. unfold css_hsl_rgb, color_rgb. rewrite Eh, Es, El. unfold hsl_rgb.
  destruct (sixty hue) as (H & E60 & E360 & E). rewrite (fractions_sector hue s l H) by (try exact E60; rewrite E in *; qcl).
  rewrite (css_as_sector hue s l H S L E360). rewrite (qc_ltb_true (Z2Qc 4) H), (qc_ltb_true H (Z2Qc 5)) by (rewrite E in *; qcl). cbn [andb].
  destruct (sector _ _ _) as [[r g] b]. exists (css_byte r), (css_byte g), (css_byte b). split; reflexivity.
Qed.
Print Assumptions C90_exchanged.
Example C90_example : (Z2Qc 240 < Z2Qc 270)%Qc /\ (Z2Qc 270 < Z2Qc 300)%Qc /\ css_hsl_rgb (Z2Qc 270) 1 (qfrac 1 2) = (128, 0, 255).
Proof. split; [reflexivity|]. split; [reflexivity|]. vm_compute. reflexivity. Qed.

(** ** C13: the conversion stays in range *)
Lemma scaled k t : (0 <= k)%Qc -> unit_interval t -> (0 <= k * t /\ k * t <= k)%Qc.
Proof. intros K [T0 T1]. unfold Qcle in *. rewrite this_mul. cbn in T0, T1. change (this 0%Qc) with 0%Q in *. split; nra. Qed.
Lemma fold_unit x : (0 <= x)%Qc -> (x < Z2Qc 2)%Qc -> unit_interval (1 - qabs (x - 1)).
Proof. intros A B. unfold qabs. destruct (qc_ltb_spec (x - 1) 0); split; qcl. Qed.
Lemma qmod2_range x : (0 <= qmod2 x /\ qmod2 x < Z2Qc 2)%Qc.
Proof.
  unfold qmod2. pose proof (Qfloor_bounds (this (x / Z2Qc 2)%Qc)) as B. set (f := Qfloor _) in *. clearbody f. rewrite this_div, this_Z2Qc in B. unfold Qdiv in B. change (/ inject_Z 2)%Q with (1 # 2)%Q in B.
  unfold Qcle, Qclt. rewrite this_sub, this_mul, !this_Z2Qc. change (inject_Z 2) with 2%Q. change (this 0%Qc) with 0%Q. split; lra.
Qed.
Lemma byte_range x : unit_interval x -> 0 <= to_byte x <= 255.
Proof.
  intros [A B]. unfold to_byte. unfold Qcle in *. change (this 0%Qc) with 0%Q in A. change (this 1%Qc) with 1%Q in B. split.
  - apply (Z.le_trans _ (round_half_even (inject_Z 0))); [rewrite rhe_Z; lia|]. apply rhe_mono. rewrite this_mul, this_Z2Qc. unfold inject_Z. lra.
  - apply (Z.le_trans _ (round_half_even (inject_Z 255))); [|rewrite rhe_Z; lia]. apply rhe_mono. rewrite this_mul, this_Z2Qc. unfold inject_Z. lra.
Qed.
Lemma fractions_range h s l : unit_interval s -> unit_interval l ->
  let '(r, g, b) := hsl_fractions h s l in unit_interval r /\ unit_interval g /\ unit_interval b.
Proof.
  intros S L. unfold hsl_fractions. set (H := (h / Z2Qc 60)%Qc). pose proof (qmod2_range H) as [Q0 Q1]. pose proof (fold_unit _ Q0 Q1) as T.
  set (t := (1 - qabs (qmod2 H - 1))%Qc) in *. clearbody t.
  set (k := (1 - qabs (Z2Qc 2 * l - 1))%Qc). assert (K : (0 <= k /\ k <= Z2Qc 2 * l /\ k <= Z2Qc 2 - Z2Qc 2 * l)%Qc).
  { unfold k, qabs. destruct L. destruct (qc_ltb_spec (Z2Qc 2 * l - 1) 0); repeat split; qcl. }
  clearbody k. destruct K as (K0 & K1 & K2). pose proof (scaled k s K0 S) as [C0 C1]. set (c := (k * s)%Qc) in *. clearbody c.
  pose proof (scaled c t C0 T) as [X0 X1]. set (x := (c * t)%Qc) in *. clearbody x.
  assert (M : unit_interval (l - qfrac 1 2 * c)) by (split; qcl). assert (CM : unit_interval (c + (l - qfrac 1 2 * c))) by (split; qcl).
  assert (XM : unit_interval (x + (l - qfrac 1 2 * c))) by (split; qcl).
  destruct (qc_ltb H 1); [auto|]. destruct (qc_ltb H (Z2Qc 2)); [auto|]. destruct (qc_ltb H (Z2Qc 3)); [auto|].
  destruct (qc_ltb H (Z2Qc 4)); [auto|]. destruct (qc_ltb H (Z2Qc 5)); auto.
Qed.
(** C13, the range.  Missing: periodicity, which is false (C13_refuted, C92). *)
Theorem C13_range_partial h ps pl a hue s l : pval h = Fin hue -> pval ps = Fin s -> pval pl = Fin l -> unit_interval s -> unit_interval l ->
  exists r g b, color_rgb (Hsl h ps pl a) = Ok (Rgb (PI r) (PI g) (PI b) a) /\ 0 <= r <= 255 /\ 0 <= g <= 255 /\ 0 <= b <= 255.
Proof.
  intros Eh Es El S L. unfold color_rgb, hsl_rgb. rewrite Eh, Es, El. pose proof (fractions_range hue s l S L) as R.
  destruct (hsl_fractions hue s l) as [[r g] b]. destruct R as (R & G & B). exists (to_byte r), (to_byte g), (to_byte b).
  split; [reflexivity|]. auto using byte_range.
Qed.
Print Assumptions C13_range_partial.
Example C13_example : color_rgb (Hsl (PI (-77)) (PF (Fin 1%Qc)) (PF (Fin (qfrac 1 2))) opaque) = Ok (Rgb (PI 255) (PI 183) (PI 0) opaque).
Proof. vm_compute. reflexivity. Qed.
(** A negative hue is not taken modulo 360: -120 should be 240, blue. *)
Theorem C13_refuted : exists h, color_rgb (Hsl (PI h) (PF (Fin 1%Qc)) (PF (Fin (qfrac 1 2))) opaque) = Ok (Rgb (PI 255) (PI 0) (PI 0) opaque)
  /\ color_rgb (Hsl (PI (h + 360)) (PF (Fin 1%Qc)) (PF (Fin (qfrac 1 2))) opaque) = Ok (Rgb (PI 0) (PI 0) (PI 255) opaque).
Proof. exists (-120). split; vm_compute; reflexivity. Qed.
Print Assumptions C13_refuted.

(** ** C92: hues outside 60..300 are taken modulo 120 *)
Lemma qmod2_shift H : qmod2 (H + Z2Qc 2) = qmod2 H.
Proof.
  unfold qmod2. set (f := Qfloor (this (H / Z2Qc 2)%Qc)).
  assert (Qfloor (this ((H + Z2Qc 2) / Z2Qc 2)%Qc) = f + 1) as ->.
  { apply Qfloor_unique. pose proof (Qfloor_bounds (this (H / Z2Qc 2)%Qc)) as B. fold f in B. rewrite this_div, this_Z2Qc in *. rewrite this_add, this_Z2Qc.
    unfold Qdiv in *. change (/ inject_Z 2)%Q with (1 # 2)%Q in *. change (inject_Z 2) with 2%Q. rewrite inject_Z_plus. change (inject_Z 1) with 1%Q. lra. }
  rewrite Z2Qc_add. clearbody f. apply qc_eq. qc_push. unfold inject_Z. ring.
Qed.
Theorem C92_modulo h hue ps pl a s l : pval h = Fin hue -> pval ps = Fin s -> pval pl = Fin l ->
  (hue < - Z2Qc 60 \/ Z2Qc 300 <= hue)%Qc ->
  color_rgb (Hsl h ps pl a) = color_rgb (Hsl (PF (Fin (hue + Z2Qc 120)%Qc)) ps pl a).
Proof.
  intros Eh Es El C. unfold color_rgb. rewrite Eh, Es, El. cbn [pval]. unfold hsl_rgb, hsl_fractions.
  destruct (sixty hue) as (H & E60 & _ & E). rewrite E60.
  assert ((hue + Z2Qc 120) / Z2Qc 60 = H + Z2Qc 2)%Qc as ->.
  { rewrite E. apply qc_eq. rewrite this_div, !this_add, this_mul, !this_Z2Qc. unfold Qdiv. change (/ inject_Z 60)%Q with (1 # 60)%Q. unfold inject_Z. lra. }
  rewrite qmod2_shift. destruct C as [C|C].
  - rewrite (qc_ltb_true H 1), (qc_ltb_true (H + Z2Qc 2) 1) by (rewrite E in *; qcl). reflexivity.
  - rewrite (qc_ltb_false H 1), (qc_ltb_false H (Z2Qc 2)), (qc_ltb_false H (Z2Qc 3)), (qc_ltb_false H (Z2Qc 4)), (qc_ltb_false H (Z2Qc 5)) by (rewrite E in *; qcl).
    rewrite (qc_ltb_false (H + Z2Qc 2) 1), (qc_ltb_false (H + Z2Qc 2) (Z2Qc 2)), (qc_ltb_false (H + Z2Qc 2) (Z2Qc 3)), (qc_ltb_false (H + Z2Qc 2) (Z2Qc 4)), (qc_ltb_false (H + Z2Qc 2) (Z2Qc 5)) by (rewrite E in *; qcl).
    reflexivity.
Qed.
Print Assumptions C92_modulo.
Example C92_example : (Z2Qc (-120) < - Z2Qc 60)%Qc /\ color_rgb (Hsl (PI 420) (PF (Fin 1%Qc)) (PF (Fin (qfrac 1 2))) opaque) = Ok (Rgb (PI 255) (PI 0) (PI 255) opaque).
Proof. split; [reflexivity|]. vm_compute. reflexivity. Qed.

(** ** C14: functional notation *)
Lemma color_rgb_call n x y body : Ascii.eqb x "a" = false ->
  color n (VStr ("rgb" ++ String x (body ++ String y ""))) = match rgb_args (split_on "," body) with Ok c => Ok (VColor (OId n) c, S n) | Err e => if is_value_error e then Err ValueError else Err e end.
Proof.
  intros X. unfold color, color_text. cbn [append]. change (Ascii.eqb "r" "#") with false. cbv iota.
  assert (startswith "rgba" (String "r" (String "g" (String "b" (String x (body ++ String y ""))))) = false) as ->.
  { cbn [startswith]. rewrite !Ascii.eqb_refl. cbn [andb]. destruct (Ascii.eqb_spec "a" x) as [<-|]; [discriminate|reflexivity]. }
  change (startswith "rgb" (String "r" (String "g" (String "b" (String x (body ++ String y "")))))) with true. cbv iota zeta.
  unfold inner. change (String "r" (String "g" (String "b" (String x (body ++ String y ""))))) with (("rgb" ++ String x body) ++ String y "").
  rewrite drop_end_1. change (drop 4 ("rgb" ++ String x body)) with body. unfold try_value. destruct (rgb_args _) as [c|e]; [reflexivity|]. destruct (is_value_error e); reflexivity.
Qed.
Lemma color_rgba_call n x y body :
  color n (VStr ("rgba" ++ String x (body ++ String y ""))) = match rgba_args (split_on "," body) with Ok c => Ok (VColor (OId n) c, S n) | Err e => if is_value_error e then Err ValueError else Err e end.
Proof.
  unfold color, color_text. cbn [append]. change (Ascii.eqb "r" "#") with false. cbv iota.
  change (startswith "rgba" (String "r" (String "g" (String "b" (String "a" (String x (body ++ String y ""))))))) with true. cbv iota zeta.
  unfold inner. change (String "r" (String "g" (String "b" (String "a" (String x (body ++ String y "")))))) with (("rgba" ++ String x body) ++ String y "").
  rewrite drop_end_1. change (drop 5 ("rgba" ++ String x body)) with body. unfold try_value. destruct (rgba_args _) as [c|e]; [reflexivity|]. destruct (is_value_error e); reflexivity.
Qed.
Lemma color_hsl_call n x y body : Ascii.eqb x "a" = false ->
  color n (VStr ("hsl" ++ String x (body ++ String y ""))) = match hsl_args (split_on "," body) with Ok c => Ok (VColor (OId n) c, S n) | Err e => if is_value_error e then Err ValueError else Err e end.
Proof.
  intros X. unfold color, color_text. cbn [append]. change (Ascii.eqb "h" "#") with false. cbv iota.
  assert (startswith "hsla" (String "h" (String "s" (String "l" (String x (body ++ String y ""))))) = false) as ->.
  { cbn [startswith]. rewrite !Ascii.eqb_refl. cbn [andb]. destruct (Ascii.eqb_spec "a" x) as [<-|]; [discriminate|reflexivity]. }
  change (startswith "rgba" (String "h" (String "s" (String "l" (String x (body ++ String y "")))))) with false.
  change (startswith "rgb" (String "h" (String "s" (String "l" (String x (body ++ String y "")))))) with false.
  change (startswith "hsl" (String "h" (String "s" (String "l" (String x (body ++ String y "")))))) with true. cbv iota zeta.
  unfold inner. change (String "h" (String "s" (String "l" (String x (body ++ String y ""))))) with (("hsl" ++ String x body) ++ String y "").
  rewrite drop_end_1. change (drop 4 ("hsl" ++ String x body)) with body. unfold try_value. destruct (hsl_args _) as [c|e]; [reflexivity|]. destruct (is_value_error e); reflexivity.
Qed.
Lemma color_hsla_call n x y body :
  color n (VStr ("hsla" ++ String x (body ++ String y ""))) = match hsla_args (split_on "," body) with Ok c => Ok (VColor (OId n) c, S n) | Err e => if is_value_error e then Err ValueError else Err e end.
Proof.
  unfold color, color_text. cbn [append]. change (Ascii.eqb "h" "#") with false. cbv iota.
  change (startswith "rgba" (String "h" (String "s" (String "l" (String "a" (String x (body ++ String y ""))))))) with false.
  change (startswith "rgb" (String "h" (String "s" (String "l" (String "a" (String x (body ++ String y ""))))))) with false.
  change (startswith "hsla" (String "h" (String "s" (String "l" (String "a" (String x (body ++ String y ""))))))) with true. cbv iota zeta.
  unfold inner. change (String "h" (String "s" (String "l" (String "a" (String x (body ++ String y "")))))) with (("hsla" ++ String x body) ++ String y "").
  rewrite drop_end_1. change (drop 5 ("hsla" ++ String x body)) with body. unfold try_value. destruct (hsla_args _) as [c|e]; [reflexivity|]. destruct (is_value_error e); reflexivity.
Qed.
Lemma call_eq name ts : call name ts = name ++ String "(" (join "," ts ++ String ")" "").
Proof. reflexivity. Qed.
Definition commas_ok (ts : list string) : Prop := Forall (fun t => no_comma t = true) ts.

(** C14, rgb() and rgba().  Missing: unbalanced parentheses are not rejected
    (C14_refuted, C91). *)
Theorem C14_rgb_partial n tr tg tb ta r g b a :
  arg whole_text tr r -> arg whole_text tg g -> arg whole_text tb b -> arg number_text ta a ->
  color n (VStr (call "rgb" [tr; tg; tb])) = Ok (VColor (OId n) (Rgb (PI r) (PI g) (PI b) (PF (Fin 1%Qc))), S n)
  /\ color n (VStr (call "rgba" [tr; tg; tb; ta])) = Ok (VColor (OId n) (Rgb (PI r) (PI g) (PI b) (PF (b64 a))), S n).
Proof.
  intros R G B A. rewrite !call_eq, color_rgb_call, color_rgba_call by reflexivity.
  rewrite !split_on_join by (try discriminate; repeat constructor; eauto using arg_no_comma, whole_no_comma, number_no_comma).
  unfold rgb_args, rgba_args, int10, float10. rewrite (py_int_arg _ _ R), (py_int_arg _ _ G), (py_int_arg _ _ B), (py_float_arg _ _ A). split; reflexivity.
Qed.
Print Assumptions C14_rgb_partial.
(** C14, hsl() and hsla(), for percentages up to 2^53; the same part is missing. *)
Theorem C14_hsl_partial n th ts tl ta h s l a : Z.abs s <= 2 ^ 53 -> Z.abs l <= 2 ^ 53 ->
  arg whole_text th h -> arg percent_text ts s -> arg percent_text tl l -> arg number_text ta a ->
  color n (VStr (call "hsl" [th; ts; tl])) = Ok (VColor (OId n) (Hsl (PI h) (PF (b64 (s # 100))) (PF (b64 (l # 100))) (PF (Fin 1%Qc))), S n)
  /\ color n (VStr (call "hsla" [th; ts; tl; ta])) = Ok (VColor (OId n) (Hsl (PI h) (PF (b64 (s # 100))) (PF (b64 (l # 100))) (PF (b64 a))), S n).
Proof.
  intros BS BL H S L A. rewrite !call_eq, color_hsl_call, color_hsla_call by reflexivity.
  rewrite !split_on_join by (try discriminate; repeat constructor; eauto using arg_no_comma, whole_no_comma, number_no_comma, percent_no_comma).
  unfold hsl_args, hsla_args, int10, float10. rewrite (py_int_arg _ _ H), (percent10_arg _ _ BS S), (percent10_arg _ _ BL L), (py_float_arg _ _ A). split; reflexivity.
Qed.
Print Assumptions C14_hsl_partial.
Example C14_example : arg whole_text "  -007 " (-7) /\ arg percent_text " +50%  " 50 /\ arg number_text " 0.25" (25 # 100)
  /\ color 3 (VStr "hsla(-7 ,+50%,  12%,0.25)") = Ok (VColor (OId 3) (Hsl (PI (-7)) (PF (b64 (50 # 100))) (PF (b64 (12 # 100))) (PF (b64 (25 # 100)))), 4%nat).
Proof.
  split; [exists "  ", "-007", " "; split; [reflexivity|]; split; [reflexivity|]; split; [|reflexivity]; exists "007"; split; [discriminate|]; split; [reflexivity|]; auto|].
  split; [exists " ", "+50%", "  "; split; [reflexivity|]; split; [reflexivity|]; split; [|reflexivity]; exists "+50"; split; [exists "50"; split; [discriminate|]; split; [reflexivity|]; auto|reflexivity]|].
  split; [exists " ", "0.25", ""; split; [reflexivity|]; split; [reflexivity|]; split; [|reflexivity]; left; exists "0", "25"; split; [reflexivity|]; split; [reflexivity|]; split; [discriminate|]; split; reflexivity|].
  vm_compute. reflexivity.
Qed.
Definition arity (name : string) : nat := if String.eqb name "rgb" || String.eqb name "hsl" then 3%nat else 4%nat.
Definition color_function (name : string) : Prop := In name ["rgb"; "rgba"; "hsl"; "hsla"].
Lemma join_nil_split ts : commas_ok ts -> split_on "," (join "," ts) = match ts with [] => [""] | _ => ts end.
Proof. intros F. destruct ts as [|t ts]; [reflexivity|]. apply split_on_join; [discriminate|exact F]. Qed.
Theorem C14_count n name ts : color_function name -> commas_ok ts -> length ts <> arity name -> color n (VStr (call name ts)) = Err ValueError.
Proof.
  intros [<-|[<-|[<-|[<-|[]]]]] F L; rewrite call_eq; cbn in L.
  - rewrite color_rgb_call, (join_nil_split _ F) by reflexivity. destruct ts as [|a [|b [|c [|d ts]]]]; try reflexivity. contradiction L; reflexivity.
  - rewrite color_rgba_call, (join_nil_split _ F). destruct ts as [|a [|b [|c [|d [|e ts]]]]]; try reflexivity. contradiction L; reflexivity.
  - rewrite color_hsl_call, (join_nil_split _ F) by reflexivity. destruct ts as [|a [|b [|c [|d ts]]]]; try reflexivity. contradiction L; reflexivity.
  - rewrite color_hsla_call, (join_nil_split _ F). destruct ts as [|a [|b [|c [|d [|e ts]]]]]; try reflexivity. contradiction L; reflexivity.
Qed.
Print Assumptions C14_count.
Example C14_count_example : color_function "rgb" /\ commas_ok ["1"; "2"] /\ length ["1"; "2"] <> arity "rgb" /\ call "rgb" ["1"; "2"] = "rgb(1,2)".
Proof. split; [left; reflexivity|]. split; [repeat constructor|]. split; [discriminate|reflexivity]. Qed.
(** Not a whole number: a character no whole number contains, or no digit. *)
Definition not_whole (t : string) : Prop := all_chars int_char t = false \/ existsb dec_digit (list_ascii_of_string t) = false.
Lemma py_int_not_whole t : not_whole t -> py_int t = Err ValueError.
Proof.
  intros N. destruct (py_int t) as [z|e] eqn:E; [|f_equal; exact (py_int_base_err _ _ _ E)].
  destruct (py_int_chars _ _ E) as [A B]. destruct N as [N|N]; congruence.
Qed.
Lemma int10_err t e : int10 t = Err e -> e = ValueError.
Proof. unfold int10. destruct (py_int t) eqn:E; [discriminate|]. cbn. intros H. injection H as <-. exact (py_int_base_err _ _ _ E). Qed.
Lemma float10_err t e : float10 t = Err e -> e = ValueError.
Proof. unfold float10. destruct (py_float t) eqn:E; [discriminate|]. cbn. intros H. injection H as <-. exact (py_float_err _ _ E). Qed.
Ltac step_arg H := match type of H with
  | context [bindr (int10 ?t) _] => let e := fresh "e" in destruct (int10 t) as [?|e] eqn:?; cbn [bindr] in H
  | context [bindr (float10 ?t) _] => let e := fresh "e" in destruct (float10 t) as [?|e] eqn:?; cbn [bindr] in H
  end.
Theorem C14_nonnumeric n ts : commas_ok ts -> Exists not_whole (firstn 3 ts) ->
  color n (VStr (call "rgb" ts)) = Err ValueError /\ color n (VStr (call "rgba" ts)) = Err ValueError.
Proof.
  intros F X. rewrite !call_eq, color_rgb_call, color_rgba_call, !(join_nil_split _ F) by reflexivity.
  assert (I : forall t, not_whole t -> int10 t = Err ValueError) by (intros t N; unfold int10; rewrite (py_int_not_whole _ N); reflexivity).
  split.
  - destruct ts as [|a [|b [|c [|d ts]]]]; try reflexivity. cbn [firstn] in X. cbn [rgb_args].
    destruct (int10 a) as [x|e] eqn:A; [|rewrite (int10_err _ _ A); reflexivity]. cbn [bindr].
    destruct (int10 b) as [y|e] eqn:B; [|rewrite (int10_err _ _ B); reflexivity]. cbn [bindr].
    destruct (int10 c) as [z|e] eqn:C; [|rewrite (int10_err _ _ C); reflexivity]. exfalso.
    apply Exists_exists in X. destruct X as (t & [<-|[<-|[<-|[]]]] & N); apply I in N; congruence.
  - destruct ts as [|a [|b [|c [|d [|e ts]]]]]; try reflexivity. cbn [firstn] in X. cbn [rgba_args].
    destruct (int10 a) as [x|e] eqn:A; [|rewrite (int10_err _ _ A); reflexivity]. cbn [bindr].
    destruct (int10 b) as [y|e] eqn:B; [|rewrite (int10_err _ _ B); reflexivity]. cbn [bindr].
    destruct (int10 c) as [z|e] eqn:C; [|rewrite (int10_err _ _ C); reflexivity]. exfalso.
    apply Exists_exists in X. destruct X as (t & [<-|[<-|[<-|[]]]] & N); apply I in N; congruence.
Qed.
Print Assumptions C14_nonnumeric.
Example C14_nonnumeric_example : commas_ok ["1"; "2.5"; "3"] /\ Exists not_whole (firstn 3 ["1"; "2.5"; "3"]).
Proof. split; [repeat constructor|]. right. left. left. reflexivity. Qed.
Theorem C14_hue_nonnumeric n ts h : commas_ok ts -> nth_error ts 0 = Some h -> not_whole h ->
  color n (VStr (call "hsl" ts)) = Err ValueError /\ color n (VStr (call "hsla" ts)) = Err ValueError.
Proof.
  intros F X N. rewrite !call_eq, color_hsl_call, color_hsla_call, !(join_nil_split _ F) by reflexivity.
  assert (I : int10 h = Err ValueError) by (unfold int10; rewrite (py_int_not_whole _ N); reflexivity).
  destruct ts as [|a ts]; [discriminate|]. injection X as ->. split.
  - destruct ts as [|b [|c [|d ts]]]; try reflexivity. cbn [hsl_args]. rewrite I. reflexivity.
  - destruct ts as [|b [|c [|d [|e ts]]]]; try reflexivity. cbn [hsla_args]. rewrite I. reflexivity.
Qed.
Print Assumptions C14_hue_nonnumeric.
Example C14_hue_example : commas_ok ["x"; "1%"; "2%"] /\ not_whole "x".
Proof. split; [repeat constructor|]. left. reflexivity. Qed.
(** The closing parenthesis is not required, a digit is lost instead. *)
Theorem C14_refuted : color 0 (VStr "rgb(1,2,34") = Ok (VColor (OId 0) (Rgb (PI 1) (PI 2) (PI 3) opaque), 1%nat)
  /\ color 0 (VStr "rgb 1,2,3)") = Ok (VColor (OId 0) (Rgb (PI 1) (PI 2) (PI 3) opaque), 1%nat).
Proof. split; vm_compute; reflexivity. Qed.
Print Assumptions C14_refuted.

(** ** C91: the delimiters of the argument list are never looked at *)
Theorem C91_delimiters n body x y :
  (x <> "a"%char -> color n (VStr ("rgb" ++ String x (body ++ String y ""))) = color n (VStr ("rgb(" ++ body ++ ")")))
  /\ color n (VStr ("rgba" ++ String x (body ++ String y ""))) = color n (VStr ("rgba(" ++ body ++ ")"))
  /\ (x <> "a"%char -> color n (VStr ("hsl" ++ String x (body ++ String y ""))) = color n (VStr ("hsl(" ++ body ++ ")")))
  /\ color n (VStr ("hsla" ++ String x (body ++ String y ""))) = color n (VStr ("hsla(" ++ body ++ ")")).
Proof.
  assert (E : x <> "a"%char -> Ascii.eqb x "a" = false) by (intros N; destruct (Ascii.eqb_spec x "a"); [contradiction|reflexivity]).
  split; [|split; [|split]].
  - intros N. rewrite (color_rgb_call n x y body (E N)). symmetry. apply (color_rgb_call n "(" ")" body eq_refl).
  - rewrite (color_rgba_call n x y body). symmetry. apply (color_rgba_call n "(" ")" body).
  - intros N. rewrite (color_hsl_call n x y body (E N)). symmetry. apply (color_hsl_call n "(" ")" body eq_refl).
  - rewrite (color_hsla_call n x y body). symmetry. apply (color_hsla_call n "(" ")" body).
Qed.
Print Assumptions C91_delimiters.
Example C91_example : "7"%char <> "a"%char /\ exists r, color 0 (VStr "rgb71,2,34") = Ok r.
Proof. split; [discriminate|]. eexists. vm_compute. reflexivity. Qed.
