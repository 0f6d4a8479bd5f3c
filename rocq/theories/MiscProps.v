(** * Properties C169-C172 *)
From Coq Require Import ZArith QArith Qcanon Bool String Ascii List Lia.
From Verif Require Import PyNum NumFacts PyStr StrFacts TextFacts Units BoxModel Engine Values Parser Choices Shorthand Decl DeclSpec DeclFacts ParserSpec ParserProps TextProps EngineExamples Misc MiscSpec.
Import ListNotations.
Open Scope string_scope.

(** ** C169 *)
Lemma run_snoc i l o p : plain_run i (l ++ [o]) p = plain_step i o (plain_run i l p).
Proof. unfold plain_run. apply fold_left_app. Qed.
(** The property reads as the value of the last operation. *)
Theorem C169_reads : forall initial l p, l <> [] ->
  let r := plain_get initial (plain_run initial l p) in
  (r = last_value initial l \/ equals (last_value initial l) r) /\ (forall k, l = (k ++ [PDel])%list -> r = initial).
Proof.
  intros i l p N. destruct (exists_last N) as (k & o & ->). cbv zeta. rewrite run_snoc. unfold last_value. rewrite rev_unit. split.
  - destruct o as [v|]; cbn [plain_step].
    + unfold plain_set. destruct (py_eqb v _) eqn:E; [right; apply py_eqb_spec in E; exact E|]. destruct (mark_dirty _). left. reflexivity.
    + left. unfold plain_del. destruct (p_slot (plain_run i k p)) eqn:S; [reflexivity|]. unfold plain_get. cbn [fst]. rewrite S. reflexivity.
  - intros k' E. apply app_inj_tail in E. destruct E as [_ ->]. cbn [plain_step]. unfold plain_del. destruct (p_slot (plain_run i k p)) eqn:S; [reflexivity|]. unfold plain_get. cbn [fst]. rewrite S. reflexivity.
Qed.
Print Assumptions C169_reads.
(** Every value is accepted; the layout becomes dirty exactly if the value
    changes; nothing else of the declaration changes. *)
Theorem C169_dirty : forall initial v p, has_layout (p_css p) ->
  snd (plain_set initial v p) = Ok tt /\ snd (plain_del p) = Ok tt
  /\ (is_clean (p_css p) ->
        (is_clean (p_css (fst (plain_set initial v p))) <-> equals v (plain_get initial p))
        /\ (is_dirty (p_css (fst (plain_set initial v p))) <-> ~ equals v (plain_get initial p))
        /\ (is_dirty (p_css (fst (plain_del p))) <-> p_slot p <> None))
  /\ c_store (p_css (fst (plain_set initial v p))) = c_store (p_css p) /\ c_store (p_css (fst (plain_del p))) = c_store (p_css p).
Proof.
  intros i v [s c] L. cbn [p_css] in L. unfold plain_set, plain_del. cbn [p_slot p_css]. pose proof (mark_dirty_ok c L) as OK. pose proof (mark_dirty_store c) as ST. pose proof (mark_dirty_node c) as ND.
  destruct (mark_dirty c) as [c' r]. cbn [fst snd] in *. unfold is_clean, is_dirty. pose proof (py_eqb_spec v (plain_get i (mkPlain s c))) as EQ.
  split; [destruct (py_eqb v _); [reflexivity|exact OK]|]. split; [destruct s; reflexivity|]. split.
  - intros CL. rewrite CL in ND. destruct (py_eqb v _) eqn:E; cbn [fst p_css].
    + split; [split; [intros _; apply EQ; reflexivity|auto]|]. split; [split; [intros D; congruence|intros X; destruct X; apply EQ; reflexivity]|].
      destruct s; cbn [fst p_css]; (split; [intros; try discriminate; congruence|intros X; try (destruct X; reflexivity); exact ND]).
    + assert (NE : ~ equals v (plain_get i (mkPlain s c))) by (intros X; apply EQ in X; discriminate).
      split; [split; [intros X; congruence|contradiction]|]. split; [split; [auto|intros _; exact ND]|].
      destruct s; cbn [fst p_css]; (split; [intros; try discriminate; congruence|intros X; try (destruct X; reflexivity); exact ND]).
  - split; [destruct (py_eqb v _); [reflexivity|exact ST]|destruct s; [exact ST|reflexivity]].
Qed.
Print Assumptions C169_dirty.
Example C169_example : let p := mkPlain None (mkCss (fun _ => None) (Some (Some false))) in
  has_layout (p_css p) /\ is_clean (p_css p)
  /\ plain_get (VInt 3) (plain_run (VInt 3) [PSet (VStr "anything"); PDel; PSet (VFloat (Fin (Z2Qc 3)))] p) = VInt 3
  /\ last_value (VInt 3) [PSet (VStr "anything"); PDel; PSet (VFloat (Fin (Z2Qc 3)))] = VFloat (Fin (Z2Qc 3)).
Proof. cbv zeta. split; [vm_compute; discriminate|]. split; [reflexivity|]. split; vm_compute; reflexivity. Qed.

(** ** C170 *)
Definition free_of (c : ascii) (s : string) : Prop := ~ In c (list_ascii_of_string s).
Lemma split_at c a b r t : free_of c a -> free_of c b -> a ++ String c r = b ++ String c t -> a = b /\ r = t.
Proof.
  revert b. induction a as [|x a IH]; intros [|y b] A B E; cbn in E; injection E; intros; subst.
  - auto.
  - destruct B. left. reflexivity.
  - destruct A. left. reflexivity.
  - destruct (IH b) as [-> ->]; auto; intros I; [apply A|apply B]; right; exact I.
Qed.
Lemma show_Z_inj a b : show_Z a = show_Z b -> a = b.
Proof. intros E. pose proof (show_Z_int "" a eq_refl) as A. pose proof (show_Z_int "" b eq_refl) as B. rewrite E in A. congruence. Qed.
Lemma int_char z c : In c (list_ascii_of_string (show_Z z)) -> float_char c.
Proof.
  intros I. assert (D : forall s, all_chars is_digit s = true -> In c (list_ascii_of_string s) -> float_char c).
  { induction s as [|x s IH]; intros A; [intros []|]. cbn [all_chars] in A. apply andb_true_iff in A. destruct A as [A1 A2]. intros [<-|H]; [left; exact A1|apply IH; assumption]. }
  destruct (show_Z_signed z) as (ds & k & m & (_ & A & _) & [[E _]|[E _]]); rewrite E in I; [exact (D _ A I)|]. destruct I as [<-|I]; [right; cbn; auto|exact (D _ A I)].
Qed.
Section Box.
Context (show : xq -> string) (F : float_repr show).
Lemma num_char n c : In c (list_ascii_of_string (num_text show n)) -> float_char c.
Proof. destruct n; cbn [num_text]; [apply int_char|apply F]. Qed.
Lemma lval_char v c : In c (list_ascii_of_string (lval_text show v)) -> float_char c \/ In c ["a"; "u"; "t"; "o"; "N"; "n"; "e"]%char.
Proof. destruct v; cbn [lval_text]; [intros I; left; exact (num_char n c I)|right; cbn in *; tauto..]. Qed.
Lemma num_text_inj a b : num_text show a = num_text show b -> a = b.
Proof.
  destruct F as (I & N & _). destruct a, b; cbn [num_text]; intros E; [apply show_Z_inj in E; congruence|destruct (N q z); congruence|destruct (N q z); congruence|apply I in E; congruence].
Qed.
Lemma lval_text_inj a b : lval_text show a = lval_text show b -> a = b.
Proof.
  assert (X : forall n s, (exists c t, s = String c t /\ ~ float_char c) -> num_text show n <> s).
  { intros n s (c & t & -> & H) E. apply H, (num_char n). rewrite E. left. reflexivity. }
  assert (A : ~ float_char "a"%char) by (intros [H|H]; [discriminate|cbn in H; intuition discriminate]). assert (B : ~ float_char "N"%char) by (intros [H|H]; [discriminate|cbn in H; intuition discriminate]).
  destruct a, b; cbn [lval_text]; intros E; try reflexivity; try discriminate E; [apply num_text_inj in E; congruence|exfalso; revert E; try (apply not_eq_sym)..]; try (apply X; do 2 eexists; (split; [reflexivity|assumption])).
  all: intros E; symmetry in E; revert E; apply X; do 2 eexists; (split; [reflexivity|assumption]).
Qed.
(** C170: the text of a box tells its content size and its position. *)
Theorem C170_repr : forall a b, box_repr show a = box_repr show b ->
  content_width a = content_width b /\ content_height a = content_height b
  /\ absolute_content_left a = absolute_content_left b /\ absolute_content_top a = absolute_content_top b.
Proof.
  intros a b E. unfold box_repr in E. cbn [append] in E. injection E as E.
  assert (NX : forall v, free_of "x" (lval_text show v)) by (intros v I; apply lval_char in I; destruct I as [[I|I]|I]; cbn in I; intuition discriminate).
  assert (NB : forall v, free_of " " (lval_text show v)) by (intros v I; apply lval_char in I; destruct I as [[I|I]|I]; cbn in I; intuition discriminate).
  assert (NC : forall v, free_of "," (num_text show v)) by (intros v I; apply num_char in I; destruct I as [I|I]; cbn in I; intuition discriminate).
  assert (NP : forall v, free_of ")" (num_text show v)) by (intros v I; apply num_char in I; destruct I as [I|I]; cbn in I; intuition discriminate).
  apply split_at in E; [|apply NX..]. destruct E as [W E]. apply split_at in E; [|apply NB..]. destruct E as [H E]. injection E as E.
  apply split_at in E; [|apply NC..]. destruct E as [L E]. apply split_at in E; [|apply NP..]. destruct E as [T _].
  apply lval_text_inj in W, H. apply num_text_inj in L, T. auto.
Qed.
Lemma says_text n : says show n (num_text show n).
Proof. split; intros ? ->; reflexivity. Qed.
Lemma says_size_text v : says_size show v (lval_text show v).
Proof. split; [|split]; intros; subst; try reflexivity. apply says_text. Qed.
(** C170: the text has the form <Box (WxH @ X,Y)>, and however it is cut in that
    form, W and H are the content width and height, X the absolute content left
    and Y the absolute content top. *)
Theorem C170_form : forall b,
  (exists w h x y, box_form w h x y (box_repr show b))
  /\ (forall w h x y, box_form w h x y (box_repr show b) ->
       says_size show (content_width b) w /\ says_size show (content_height b) h
       /\ says show (absolute_content_left b) x /\ says show (absolute_content_top b) y).
Proof.
  intros b.
  assert (NX : forall v, free_of "x" (lval_text show v)) by (intros v I; apply lval_char in I; destruct I as [[I|I]|I]; cbn in I; intuition discriminate).
  assert (NB : forall v, free_of " " (lval_text show v)) by (intros v I; apply lval_char in I; destruct I as [[I|I]|I]; cbn in I; intuition discriminate).
  assert (NC : forall v, free_of "," (num_text show v)) by (intros v I; apply num_char in I; destruct I as [I|I]; cbn in I; intuition discriminate).
  assert (NP : forall v, free_of ")" (num_text show v)) by (intros v I; apply num_char in I; destruct I as [I|I]; cbn in I; intuition discriminate).
  split.
  - exists (lval_text show (content_width b)), (lval_text show (content_height b)), (num_text show (absolute_content_left b)), (num_text show (absolute_content_top b)).
    split; [reflexivity|]. split; [apply NX|]. split; [apply NB|]. split; [apply NC|apply NP].
  - intros w h x y (E & A & B & C & D). unfold box_repr in E. cbn [append] in E. injection E as E.
    apply split_at in E; [|apply NX|exact A]. destruct E as [W E]. apply split_at in E; [|apply NB|exact B]. destruct E as [H E]. injection E as E.
    apply split_at in E; [|apply NC|exact C]. destruct E as [L E]. apply split_at in E; [|apply NP|exact D]. destruct E as [T _].
    subst w h x y. split; [apply says_size_text|]. split; [apply says_size_text|]. split; apply says_text.
Qed.
End Box.
Print Assumptions C170_repr.
Print Assumptions C170_form.
(** Example: a way of writing floats with the three properties, and a box. *)
Definition show_ratio (x : xq) : string := match x with Fin q => show_Z (Qnum (this q)) ++ "." ++ show_Z (Zpos (Qden (this q))) | _ => "" end.
Lemma show_ratio_repr : float_repr show_ratio.
Proof.
  assert (ND : forall z, free_of "." (show_Z z)).
  { intros z I. assert (D : forall s, all_chars is_digit s = true -> ~ In "."%char (list_ascii_of_string s)).
    { induction s as [|x s IH]; intros A; [intros []|]. cbn [all_chars] in A. apply andb_true_iff in A. destruct A as [A1 A2]. intros [->|H]; [discriminate|exact (IH A2 H)]. }
    destruct (show_Z_signed z) as (ds & k & m & (_ & A & _) & [[E _]|[E _]]); rewrite E in I; [exact (D _ A I)|]. destruct I as [I|I]; [discriminate|exact (D _ A I)]. }
  assert (IA : forall c a b, In c (list_ascii_of_string (a ++ b)) -> In c (list_ascii_of_string a) \/ In c (list_ascii_of_string b)).
  { intros c a b. induction a as [|x a IH]; [auto|]. intros [->|H]; [left; left; reflexivity|]. destruct (IH H); [left; right; assumption|auto]. }
  split; [|split].
  - intros q r E. cbn [show_ratio] in E. apply (split_at "."%char) in E; [|apply ND..]. destruct E as [A B]. apply show_Z_inj in A, B. injection B as B.
    apply Qc_is_canon. destruct (this q), (this r). cbn in *. subst. reflexivity.
  - intros q z E. apply (ND z). rewrite <- E. cbn [show_ratio]. clear. induction (show_Z (Qnum (this q))) as [|x s IH]; [left; reflexivity|right; exact IH].
  - intros q c I. cbn [show_ratio] in I. apply IA in I. destruct I as [I|I]; [exact (int_char _ _ I)|]. apply IA in I. destruct I as [[<-|[]]|I]; [right; cbn; auto|exact (int_char _ _ I)].
Qed.
Example C170_example : float_repr show_ratio /\ box_repr show_ratio (upd_content_width (LNum (NF (qfrac 1 2))) (upd_content_height LAuto box0)) = "<Box (1.2xauto @ 0,0)>".
Proof. split; [exact show_ratio_repr|vm_compute; reflexivity]. Qed.
Example C170_form_example : box_form "1.2" "auto" "7" "0" (box_repr show_ratio (upd_content_width (LNum (NF (qfrac 1 2))) (upd_content_height LAuto (upd_content_left (NI 7) box0)))).
Proof. split; [vm_compute; reflexivity|]. repeat split; intros I; cbn in I; intuition discriminate. Qed.

(** ** C171: is_uri accepts exactly the url texts, and raises nothing but ValidationError *)
Theorem C171_is_uri : forall n v,
  (forall r, is_uri_value n v = Ok r <-> uri n v = Ok r)
  /\ (forall s, v = VStr s -> ((exists r, is_uri_value n v = Ok r) <-> url_shaped s))
  /\ ((forall s, v <> VStr s) -> is_uri_value n v = Err ValidationError)
  /\ (forall e, is_uri_value n v = Err e -> e = ValidationError).
Proof.
  intros n v. assert (C : forall s, v = VStr s -> (exists r, is_uri_value n v = Ok r /\ uri n v = Ok r) \/ (is_uri_value n v = Err ValidationError /\ uri n v = Err ValueError)).
  { intros s ->. unfold is_uri_value, as_validation. destruct (uri n (VStr s)) as [r|e] eqn:U; [left; eauto|right]. destruct (C32_accepts n s) as [A B].
    assert (e = ValueError) as ->; [|split; reflexivity]. rewrite B in U; [congruence|]. intros X. apply A in X. destruct X as [r X]. congruence. }
  assert (D : (forall s, v <> VStr s) -> is_uri_value n v = Err ValidationError /\ uri n v = Err ValueError).
  { intros N. destruct v; try (destruct (N s eq_refl)); split; reflexivity. }
  assert (S : (exists s, v = VStr s) \/ forall s, v <> VStr s) by (destruct v; eauto; right; discriminate).
  split; [|split; [|split]].
  - intros r. destruct S as [[s S]|N]; [destruct (C s S) as [(x & -> & ->)|[-> ->]]|destruct (D N) as [-> ->]]; split; congruence.
  - intros s S'. subst v. rewrite <- (proj1 (C32_accepts n s)). destruct (C s eq_refl) as [(x & A & B)|[A B]]; rewrite A, B; split; intros [r R]; eauto; discriminate.
  - intros N. apply D, N.
  - intros e. destruct S as [[s S]|N]; [destruct (C s S) as [(x & -> & _)|[-> _]]|destruct (D N) as [-> _]]; congruence.
Qed.
Print Assumptions C171_is_uri.
Example C171_example : is_uri_value 7 (VStr "url( 'a.png')") = Ok (VUri (OId 7) "a.png", 8%nat) /\ is_uri_value 7 (VStr "a.png") = Err ValidationError /\ is_uri_value 7 (VInt 3) = Err ValidationError.
Proof. repeat split; vm_compute; reflexivity. Qed.

(** ** C172: inline-level and block-level elements *)
Theorem C172_levels : forall s i,
  ~ (is_block_level s = true /\ is_inline_level s = true)
  /\ (is_inline s = true \/ is_inline_block s = true -> is_inline_level s = true)
  /\ (is_inline_level s = true /\ is_block_container s i = true <-> is_inline_block s = true /\ s_replaced i = false)
  /\ (is_inline_level s = true <-> In (st_display s) [Some DInline; Some DInlineTable; Some DInlineBlock])
  /\ (is_block_level s = true <-> In (st_display s) [Some DBlock; Some DListItem; Some DTable]).
Proof.
  intros s i. unfold is_block_level, is_inline_level, is_inline, is_inline_block, is_block_container. destruct (st_display s) as [[]|], (s_replaced i); cbn; intuition discriminate.
Qed.
Print Assumptions C172_levels.
Example C172_example : (exists s i, is_inline_level s = true /\ is_block_container s i = true) /\ (exists s, is_inline_level s = true /\ is_inline s = false /\ is_inline_block s = false)
  /\ (exists s, is_block_level s = true) /\ (exists s, is_block_level s = false /\ is_inline_level s = false).
Proof.
  split; [exists (s_display (Some DInlineBlock) block_style), size0; split; reflexivity|]. split; [exists (s_display (Some DInlineTable) block_style); repeat split|].
  split; [exists (s_display (Some DBlock) block_style); reflexivity|exists (s_display (Some DFlex) block_style); split; reflexivity].
Qed.
