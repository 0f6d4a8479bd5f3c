(** * Facts for the colour properties *)
From Coq Require Import ZArith QArith Qcanon Qround Bool String Ascii List Lia Lqa.
From Verif Require Import PyNum NumFacts Float64 PyStr StrFacts TextFacts Colors ColorSpec.
Import ListNotations.
Open Scope string_scope.
Open Scope Z_scope.

(** ** HSL *)
Ltac qcl := intros; qc_hyps; try apply qc_eq; unfold Qcle, Qclt in *; qc_push; unfold inject_Z in *; lra.
Lemma qc_ltb_true a b : (a < b)%Qc -> qc_ltb a b = true.
Proof. intros H. destruct (qc_ltb_spec a b); [reflexivity|contradiction]. Qed.
Lemma qc_ltb_false a b : (b <= a)%Qc -> qc_ltb a b = false.
Proof. intros H. destruct (qc_ltb_spec a b); [|reflexivity]. exfalso. qcl. Qed.
Lemma sixty hue : exists H, (hue / Z2Qc 60 = H /\ hue / Z2Qc 360 = qfrac 1 6 * H /\ hue = Z2Qc 60 * H)%Qc.
Proof.
  exists (hue / Z2Qc 60)%Qc. split; [reflexivity|]. split.
  - apply qc_eq. rewrite this_mul, !this_div, this_qfrac, !this_Z2Qc. unfold Qdiv. change (/ inject_Z 360)%Q with (1 # 360)%Q.
    change (/ inject_Z 60)%Q with (1 # 60)%Q. ring.
  - apply qc_eq. rewrite this_mul, this_div, !this_Z2Qc. unfold Qdiv. change (/ inject_Z 60)%Q with (1 # 60)%Q. change (inject_Z 60) with (60 # 1)%Q. ring.
Qed.
Lemma qmod2_in H k : (Z2Qc (2 * k) <= H)%Qc -> (H < Z2Qc (2 * k) + Z2Qc 2)%Qc -> (qmod2 H = H - Z2Qc (2 * k))%Qc.
Proof.
  intros A B. unfold qmod2. replace (Qfloor (this (H / Z2Qc 2)%Qc)) with k; [rewrite Z2Qc_mul; reflexivity|].
  symmetry. apply Qfloor_unique. unfold Qcle, Qclt in *. rewrite this_add, !this_Z2Qc in B. rewrite this_Z2Qc in A.
  rewrite this_div, this_Z2Qc. rewrite inject_Z_mult in A, B. unfold Qdiv. change (/ inject_Z 2)%Q with (1 # 2)%Q.
  change (inject_Z 2) with 2%Q in *. lra.
Qed.
(** the three intermediate values agree *)
Lemma hsl_cm s l : unit_interval s -> unit_interval l ->
  let c := ((1 - qabs (Z2Qc 2 * l - 1)) * s)%Qc in let m := (l - qfrac 1 2 * c)%Qc in
  let m2 := if qc_leb l (qfrac 1 2) then (l * (s + 1))%Qc else (l + s - l * s)%Qc in
  m2 = (c + m)%Qc /\ (l * Z2Qc 2 - m2)%Qc = m.
Proof.
  intros [S0 S1] [L0 L1]. cbv zeta. unfold qabs. destruct (qc_leb_spec l (qfrac 1 2)), (qc_ltb_spec (Z2Qc 2 * l - 1) 0); try (exfalso; qcl).
  - split; qcl.
  - assert (l = qfrac 1 2) as -> by qcl. split; qcl.
  - split; qcl.
Qed.
Definition sector (H m c : Qc) : Qc * Qc * Qc := (css_hue m (c + m) (qfrac 1 6 * H + qfrac 1 3), css_hue m (c + m) (qfrac 1 6 * H), css_hue m (c + m) (qfrac 1 6 * H - qfrac 1 3))%Qc.
Lemma css_as_sector hue s l H : unit_interval s -> unit_interval l -> (hue / Z2Qc 360 = qfrac 1 6 * H)%Qc ->
  css_hsl hue s l = sector H (l - qfrac 1 2 * ((1 - qabs (Z2Qc 2 * l - 1)) * s)) ((1 - qabs (Z2Qc 2 * l - 1)) * s).
Proof.
  intros S L E. unfold css_hsl, sector. rewrite E. pose proof (hsl_cm s l S L) as [A B]. cbv zeta in A, B. rewrite B. rewrite A. reflexivity.
Qed.
Ltac tests := repeat match goal with
  | |- context [qc_ltb ?a ?b] => first [rewrite (qc_ltb_true a b) by qcl | rewrite (qc_ltb_false a b) by qcl]
  end.
Ltac triple := apply f_equal2; [apply f_equal2|].
Lemma sector_0 H m c : (0 <= H)%Qc -> (H < 1)%Qc -> sector H m c = (c + m, c * H + m, m)%Qc.
Proof. intros A B. unfold sector, css_hue. tests. triple; qcl. Qed.
Lemma sector_1 H m c : (1 <= H)%Qc -> (H < Z2Qc 2)%Qc -> sector H m c = (c * (Z2Qc 2 - H) + m, c + m, m)%Qc.
Proof. intros A B. unfold sector, css_hue. tests. triple; qcl. Qed.
Lemma sector_2 H m c : (Z2Qc 2 <= H)%Qc -> (H < Z2Qc 3)%Qc -> sector H m c = (m, c + m, c * (H - Z2Qc 2) + m)%Qc.
Proof. intros A B. unfold sector, css_hue. tests. triple; qcl. Qed.
Lemma sector_3 H m c : (Z2Qc 3 <= H)%Qc -> (H < Z2Qc 4)%Qc -> sector H m c = (m, c * (Z2Qc 4 - H) + m, c + m)%Qc.
Proof. intros A B. unfold sector, css_hue. tests. triple; qcl. Qed.
Lemma sector_4' m c : sector (Z2Qc 4) m c = (m, m, c + m)%Qc.
Proof. unfold sector, css_hue. tests. triple; qcl. Qed.
Lemma sector_4 H m c : (Z2Qc 4 < H)%Qc -> (H < Z2Qc 5)%Qc -> sector H m c = (c * (H - Z2Qc 4) + m, m, c + m)%Qc.
Proof. intros A B. unfold sector, css_hue. tests. triple; qcl. Qed.
Lemma sector_6 m c : sector (Z2Qc 6) m c = (c + m, m, m)%Qc.
Proof. unfold sector, css_hue. tests. triple; qcl. Qed.
Lemma sector_5 H m c : (Z2Qc 5 <= H)%Qc -> (H < Z2Qc 6)%Qc -> sector H m c = (c + m, m, c * (Z2Qc 6 - H) + m)%Qc.
Proof. intros A B. unfold sector, css_hue. tests. triple; qcl. Qed.

(** the model's fractions, by sector *)
Lemma not_lt (a b : Qc) : (~ a < b -> b <= a)%Qc.
Proof. intros H. destruct (Qclt_le_dec a b); [contradiction|assumption]. Qed.
Lemma fractions_sector hue s l H : (hue / Z2Qc 60 = H)%Qc -> (0 <= H)%Qc -> (H <= Z2Qc 6)%Qc ->
  let c := ((1 - qabs (Z2Qc 2 * l - 1)) * s)%Qc in let m := (l - qfrac 1 2 * c)%Qc in
  hsl_fractions hue s l = if qc_ltb (Z2Qc 4) H && qc_ltb H (Z2Qc 5)
    then (let '(r, g, b) := sector H m c in (g, r, b)) else sector H m c.
Proof.
  intros E A B. cbv zeta. unfold hsl_fractions. rewrite E. set (c := ((1 - qabs (Z2Qc 2 * l - 1)) * s)%Qc). set (m := (l - qfrac 1 2 * c)%Qc).
  clearbody m c. clear E.
  destruct (qc_ltb_spec H 1) as [D1|D1%not_lt].
  { rewrite (qc_ltb_false (Z2Qc 4) H) by qcl. cbn [andb]. rewrite sector_0 by assumption. rewrite (qmod2_in H 0) by (cbn [Z.mul Pos.mul]; qcl). unfold qabs. cbn [Z.mul Pos.mul].
    rewrite qc_ltb_true by qcl. triple; qcl. }
  destruct (qc_ltb_spec H (Z2Qc 2)) as [D2|D2%not_lt].
  { rewrite (qc_ltb_false (Z2Qc 4) H) by qcl. cbn [andb]. rewrite sector_1 by assumption. rewrite (qmod2_in H 0) by (cbn [Z.mul Pos.mul]; qcl). unfold qabs. cbn [Z.mul Pos.mul].
    rewrite qc_ltb_false by qcl. triple; qcl. }
  destruct (qc_ltb_spec H (Z2Qc 3)) as [D3|D3%not_lt].
  { rewrite (qc_ltb_false (Z2Qc 4) H) by qcl. cbn [andb]. rewrite sector_2 by assumption. rewrite (qmod2_in H 1) by (cbn [Z.mul Pos.mul]; qcl). unfold qabs.
    cbn [Z.mul Pos.mul]. rewrite qc_ltb_true by qcl. triple; qcl. }
  destruct (qc_ltb_spec H (Z2Qc 4)) as [D4|D4%not_lt].
  { rewrite (qc_ltb_false (Z2Qc 4) H) by qcl. cbn [andb]. rewrite sector_3 by assumption. rewrite (qmod2_in H 1) by (cbn [Z.mul Pos.mul]; qcl). unfold qabs.
    cbn [Z.mul Pos.mul]. rewrite qc_ltb_false by qcl. triple; qcl. }
  destruct (qc_ltb_spec H (Z2Qc 5)) as [D5|D5%not_lt].
  { rewrite (qmod2_in H 2) by (cbn [Z.mul Pos.mul]; qcl). unfold qabs. cbn [Z.mul Pos.mul]. rewrite qc_ltb_true by qcl.
    destruct (qc_ltb_spec (Z2Qc 4) H) as [D|D%not_lt]; cbn [andb].
    - rewrite sector_4 by assumption. triple; qcl.
    - assert (H = Z2Qc 4) as -> by qcl. rewrite sector_4'. triple; qcl. }
  rewrite andb_false_r. destruct (qc_ltb_spec H (Z2Qc 6)) as [D6|D6%not_lt].
  - rewrite sector_5 by assumption. rewrite (qmod2_in H 2) by (cbn [Z.mul Pos.mul]; qcl). unfold qabs. cbn [Z.mul Pos.mul].
    rewrite qc_ltb_false by qcl. triple; qcl.
  - assert (H = Z2Qc 6) as -> by qcl. rewrite sector_6. rewrite (qmod2_in (Z2Qc 6) 3) by (cbn [Z.mul Pos.mul]; qcl). unfold qabs. cbn [Z.mul Pos.mul].
    rewrite qc_ltb_true by qcl. triple; qcl.
Qed.
