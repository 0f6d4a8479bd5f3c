(** * C113-C117: the text of values, read back *)
From Coq Require Import ZArith QArith Qcanon Bool String Ascii List Permutation Sorted Lia.
From Verif Require Import PyNum NumFacts Units Float64 PyStr StrFacts TextFacts Colors Values Parser Choices Shorthand Decl Wrappers
  DeclSpec DeclFacts DeclNorm DeclProps DeclProps2 DeclProps3 ParseSpec ParserSpec ParserFacts UnitsParseProps ColorSpec ColorText ColorProps ParserProps
  AcceptSpec AcceptProps Engine EngineSpec Computed ComputedSpec ComputedFacts ComputedProps Text TextSpec.
Import ListNotations.
Open Scope string_scope.
Open Scope Z_scope.

(** ** Whole numbers *)
Lemma digits_value ds : all_chars is_digit ds = true -> digits ds /\ forall a n, exists k, span_digits ds a n = (dec_value a ds, k, "").
Proof.
  induction ds as [|c ds IH]; intros H; [split; [reflexivity|intros a n; exists n; reflexivity]|].
  cbn [all_chars] in H. apply andb_prop in H. destruct H as [C D]. destruct (IH D) as [E F]. split.
  - unfold digits. cbn [all_chars]. rewrite E, andb_true_r. exact C.
  - intros a n. cbn [span_digits dec_value]. rewrite C. apply F.
Qed.
Lemma numeral_dec ds k z : numeral ds k z -> ds <> "" /\ digits ds /\ z = dec_value 0 ds.
Proof.
  intros (N & A & _ & S). destruct (digits_value ds A) as [D V]. split; [exact N|]. split; [exact D|].
  destruct (V 0 0) as (n & E). specialize (S "" 0 0). rewrite app_nil_r_s, E in S. cbn in S. congruence.
Qed.
Lemma show_Z_whole z : whole_text (show_Z z) z.
Proof.
  destruct (show_Z_signed z) as (ds & k & m & N & H). destruct (numeral_dec _ _ _ N) as (E & D & ->). exists ds.
  split; [exact E|]. split; [exact D|]. destruct H as [[-> ->]|[-> ->]]; auto.
Qed.
Lemma whole_plain s z : whole_text s z -> plain s.
Proof.
  intros (ds & N & D & H).
  assert (P : all_chars plain_char ds = true).
  { revert D. apply all_chars_impl. by_chars (fun c => implb (dec_digit c) (plain_char c)). intros E. rewrite E in X. exact X. }
  destruct H as [[-> _]|[[-> _]|[-> _]]]; (split; [first [exact N|discriminate]|cbn; exact P]).
Qed.
Lemma show_Z_int p z : blanks p -> py_int (p ++ show_Z z) = Ok z.
Proof. intros B. apply py_int_arg. exists p, (show_Z z), "". rewrite app_nil_r_s. split; [exact B|]. split; [reflexivity|]. split; [apply show_Z_whole|reflexivity]. Qed.
Lemma py_float_blank t : py_float (" " ++ t) = py_float t.
Proof. unfold py_float. assert (num_strip (" " ++ t) = num_strip t) as ->; [|reflexivity]. unfold num_strip. rewrite (lstrip_pad is_num_space " " t) by reflexivity. reflexivity. Qed.
Lemma plain_app a b : plain a -> all_chars plain_char b = true -> plain (a ++ b).
Proof. intros [N A] B. split; [destruct a; [congruence|discriminate]|]. rewrite all_chars_app, A, B. reflexivity. Qed.
Lemma plain_no_comma t : plain t -> no_comma t = true.
Proof. intros [_ P]. unfold no_comma. revert P. apply all_chars_impl. by_chars (fun c => implb (plain_char c) (negb (Ascii.eqb c ","))). intros E. rewrite E in X. exact X. Qed.

(** ** Lengths *)
Section Show.
Variable show : xq -> string.
Lemma suffix_plain t k : In (t, k) css_units -> all_chars plain_char (suffix_of k) = true.
Proof. intros I. cbn in I. repeat destruct I as [I|I]; try contradiction; injection I as <- <-; reflexivity. Qed.
Lemma length_back u : shown_length show u -> exists t w, length_str show u = Ok t /\ length_text t w /\ same_measure u w.
Proof.
  destruct u as [k m]. intros ((t & I) & q & Q & H). cbn [u_kind u_val] in *.
  assert (SX := suffix_plain _ _ I).
  assert (X : exists s, length_str show (mkU k m) = Ok (s ++ suffix_of k) /\ plain s /\ py_float s = Ok (Fin q)).
  { unfold length_str, unit_str. cbn [u_val u_kind]. rewrite Q. cbn [xtrunc bindr]. destruct H as [(z & -> & D)|[N [P F]]].
    - exists (show_Z z). rewrite trunc_q_Z, qc_eqb_refl. split; [reflexivity|]. split; [apply (whole_plain _ z), show_Z_whole|]. rewrite py_float_show, b64_exact by exact D. reflexivity.
    - exists (show (Fin q)). split; [|split; [exact P|exact F]]. destruct (qc_eqb_spec q (Z2Qc (trunc_q (this q)))) as [E|_]; [destruct (N _ E)|reflexivity]. }
  destruct X as (s & S & P & F). exists (s ++ suffix_of k), (mkU k (PF (Fin q))). split; [exact S|]. split.
  - split; [apply plain_app; assumption|]. destruct (C06_numbers _ _ F) as (_ & G & _).
    apply css_builtin in I. destruct I as (u & I & -> & <-). apply number_with_suffix; assumption.
  - split; [reflexivity|]. unfold same_magnitude. cbn [u_val pval]. rewrite Q. split; [reflexivity|discriminate].
Qed.
Lemma length_text_word t u : length_text t u -> word t.
Proof. intros [P _]. apply plain_word, P. Qed.

(** ** Colours *)
Lemma alpha_back a : shown_alpha show a -> exists x, py_float (" " ++ num_str show a) = Ok x /\ plain (num_str show a) /\ same_magnitude a (PF x).
Proof.
  rewrite py_float_blank. destruct a as [z|x]; cbn [shown_alpha num_str].
  - intros D. exists (Fin (Z2Qc z)). rewrite py_float_show, b64_exact by exact D. split; [reflexivity|]. split; [apply (whole_plain _ z), show_Z_whole|]. split; [reflexivity|discriminate].
  - intros [N [P F]]. exists x. split; [exact F|]. split; [exact P|]. split; [reflexivity|exact N].
Qed.
Lemma color_back r g b a n : shown_alpha show a -> exists a',
  color n (VStr (color_str show (Rgb (PI r) (PI g) (PI b) a))) = Ok (VColor (OId n) (Rgb (PI r) (PI g) (PI b) a'), S n) /\ same_magnitude a a'.
Proof.
  intros A. destruct (alpha_back a A) as (x & F & P & M). exists (PF x). split; [|exact M].
  set (ts := [show_Z r; " " ++ show_Z g; " " ++ show_Z b; " " ++ num_str show a]).
  assert (E : color_str show (Rgb (PI r) (PI g) (PI b) a) = "rgba" ++ String "(" (join "," ts ++ String ")" "")).
  { unfold color_str, ts. cbn [num_str join]. rewrite !app_assoc_s. reflexivity. }
  rewrite E, color_rgba_call, split_on_join.
  - unfold ts, rgba_args, int10, float10. pose proof (show_Z_int "" r eq_refl) as R. cbn [append] in R. rewrite R, !(show_Z_int " "), F by reflexivity. reflexivity.
  - discriminate.
  - unfold ts. assert (Z : forall z, no_comma (show_Z z) = true) by (intros z; apply plain_no_comma, (whole_plain _ z), show_Z_whole).
    assert (B : forall t, no_comma t = true -> no_comma (" " ++ t) = true) by (intros t H; exact H).
    repeat constructor; auto. apply B, plain_no_comma, P.
Qed.
(** ** Border spacings *)
Lemma spacing_back o h w n : shown_length show h -> (forall x, w = Some x -> shown_length show x) ->
  exists t h' w', value_str show (VSpacing o h w) = Ok t /\ border_spacing n (VStr t) = Ok (VSpacing (OId n) h' w', S n)
    /\ same_look (VSpacing o h w) (VSpacing (OId n) h' w').
Proof.
  intros H W. destruct (length_back h H) as (a & h' & A & TA & EA). unfold length_str in A. destruct w as [w|].
  - destruct (length_back w (W w eq_refl)) as (b & w' & B & TB & EB). unfold length_str in B. exists (a ++ " " ++ b), h', (Some w'). split; [|split].
    + cbn [value_str spacing_str]. rewrite A, B. reflexivity.
    + assert (F : Forall word [a; b]) by (repeat constructor; eapply length_text_word; eassumption).
      unfold border_spacing. cbn [sequence]. change (a ++ " " ++ b) with (join " " [a; b]). rewrite (split_join _ F). cbn [map].
      pose proof (map_strip_words _ F) as M. cbn [map] in M. injection M as -> ->. cbn [bindr]. rewrite (proj2 TA), (proj2 TB). reflexivity.
    + constructor; assumption.
  - exists a, h', None. split; [|split].
    + cbn [value_str spacing_str]. exact A.
    + assert (F : Forall word [a]) by (repeat constructor; eapply length_text_word; eassumption).
      unfold border_spacing. cbn [sequence]. change a with (join " " [a]) at 1. rewrite (split_join _ F). cbn [map].
      pose proof (map_strip_words _ F) as M. cbn [map] in M. injection M as ->. cbn [bindr]. rewrite (proj2 TA). reflexivity.
    + constructor; assumption.
Qed.
(** ** Rectangles *)
Lemma rect_back t r l b : shown_length show t -> shown_length show r -> shown_length show l -> shown_length show b ->
  exists x v, value_str show (VRect t r l b) = Ok x /\ rect (VStr x) = Ok v /\ same_look (VRect t r l b) v.
Proof.
  intros T R L B. destruct (length_back t T) as (a1 & t' & A1 & T1 & E1), (length_back r R) as (a2 & r' & A2 & T2 & E2),
    (length_back l L) as (a3 & l' & A3 & T3 & E3), (length_back b B) as (a4 & b' & A4 & T4 & E4). unfold length_str in *.
  destruct (C93_commas a1 a2 a3 a4 t' r' l' b' a1 (" " ++ a2) (" " ++ a3) (" " ++ a4) T1 T2 T3 T4) as (v & V & V1 & V2 & V3 & V4).
  - exists "", "". rewrite app_nil_r_s. repeat split.
  - exists " ", "". rewrite app_nil_r_s. repeat split.
  - exists " ", "". rewrite app_nil_r_s. repeat split.
  - exists " ", "". rewrite app_nil_r_s. repeat split.
  - eexists. exists v. split; [|split; [exact V|]].
    + cbn [value_str rect_str]. rewrite A1, A2, A3, A4. cbn [bindr join String.concat]. rewrite !app_assoc_s. reflexivity.
    + destruct v; try discriminate. injection V1 as ->. injection V2 as ->. injection V3 as ->. injection V4 as ->. constructor; assumption.
Qed.
(** ** Cursors *)
Lemma url_trim o x t : uri_str (VUri o x) = Ok t -> trim_ends t /\ (no_comma x = true -> no_comma t = true) /\ url_shaped t.
Proof.
  intros H. injection H as <-. split; [|split].
  - split; [intros c E; injection E as <-; reflexivity|]. intros c E.
    change (String "u" (String "r" (String "l" (String "(" (String dquote (x ++ String dquote ")")))))) with (("url(" ++ String dquote "") ++ (x ++ String dquote ")")) in E.
    change (String dquote ")") with (String dquote "" ++ String ")" "") in E. rewrite <- !app_assoc_s, last_app in E. injection E as <-. reflexivity.
  - intros N. unfold no_comma in *. cbn. rewrite all_chars_app, N. reflexivity.
  - exists (String dquote (x ++ String dquote "")), "", "". split; [reflexivity|]. split; [reflexivity|]. cbn. rewrite app_nil_r_s, app_assoc_s. reflexivity.
Qed.
Lemma keyword_trim k : In k cursor_keywords -> trim_ends k /\ no_comma k = true.
Proof.
  intros I. cbn in I. repeat destruct I as [<-|I]; try contradiction; (split; [split; intros c E; injection E as <-; reflexivity|reflexivity]).
Qed.
(** the members of a stored cursor: URLs, then possibly a keyword *)
Inductive cursor_shape : list pyval -> Prop :=
| shape_none : cursor_shape []
| shape_word k : In k cursor_keywords -> cursor_shape [VStr k]
| shape_url o x l : cursor_shape l -> cursor_shape (VUri o x :: l).
Lemma items_shape l : forall n r, cursor_items n false l = Ok r -> cursor_shape (fst r).
Proof.
  induction l as [|v l IH]; intros n r H; [injection H as <-; constructor|]. cbn [cursor_items] in H. destruct (is_cursor_option v) eqn:O.
  - destruct (cursor_items n true l) as [x|] eqn:X; [|discriminate]. injection H as <-. pose proof (items_seen _ _ _ X) as ->. injection X as <-.
    apply option_is in O. destruct O as (k & -> & I). constructor. exact I.
  - destruct (uri n v) as [u|e] eqn:U; [|unfold try_value in H; destruct (is_value_error e); discriminate]. cbn [try_value bindr] in H.
    destruct (cursor_items (snd u) false l) as [x|] eqn:X; [|discriminate]. injection H as <-. cbn [fst]. specialize (IH _ _ X).
    destruct v; try discriminate U. cbn [uri] in U. destruct (uri_text s); [|discriminate]. injection U as <-. constructor. exact IH.
Qed.
Lemma stored_cursor n v l m : cursor n v = Ok (VCursor l, m) -> cursor_shape l.
Proof.
  unfold cursor. destruct (match v with VStr s => _ | _ => _ end) as [vs|]; [|discriminate]. cbn [bindr]. destruct (cursor_items n false vs) as [x|] eqn:X; [|discriminate].
  cbn [bindr]. intros H. injection H as <- _. apply (items_shape _ _ _ X).
Qed.
Lemma cursor_back_items l : cursor_shape l -> (forall o x, In (VUri o x) l -> no_comma x = true) ->
  exists ts, map_res cursor_item_str l = Ok ts /\ List.length ts = List.length l /\ Forall (fun t => trim_ends t /\ no_comma t = true) ts
    /\ forall n, exists m k, cursor_items n false (map VStr ts) = Ok (m, k) /\ Forall2 same_item l m.
Proof.
  intros S. induction S as [|k I|o x l S IH]; intros C.
  - exists []. repeat split; [constructor|]. intros n. exists [], n. split; [reflexivity|constructor].
  - destruct (keyword_trim k I) as [T N]. exists [k]. split; [reflexivity|]. split; [reflexivity|]. split; [constructor; [split; assumption|constructor]|].
    intros n. exists [VStr k], n. split; [|repeat constructor]. cbn [map cursor_items].
    assert (is_cursor_option (VStr k) = true) as -> by (apply option_is; exists k; auto). reflexivity.
  - destruct IH as (ts & E & L & F & G); [intros o' y I; apply (C o'); right; exact I|].
    destruct (url_trim o x _ eq_refl) as (T & N & U). set (t := "url(" ++ String dquote (x ++ String dquote ")")) in *.
    exists (t :: ts). split; [cbn [map_res cursor_item_str uri_str bindr]; rewrite E; reflexivity|]. split; [cbn; rewrite L; reflexivity|].
    split; [constructor; [split; [exact T|apply N, (C o); left; reflexivity]|exact F]|].
    intros n. destruct (G (Datatypes.S n)) as (m & k & M & MM). exists (VUri (OId n) x :: m), k. split; [|constructor; [constructor|exact MM]].
    cbn [map cursor_items]. assert (is_cursor_option (VStr t) = false) as ->.
    { destruct (is_cursor_option (VStr t)) eqn:O; [|reflexivity]. apply option_is in O. exfalso. apply (option_not_url _ O). exists t. split; [reflexivity|exact U]. }
    rewrite (C32_round_trip n o x t eq_refl). cbn [try_value bindr fst snd]. rewrite M. reflexivity.
Qed.
Lemma join_blank (ts : list string) : ts <> [] -> exists ps, join ", " ts = join "," ps /\ Forall2 (fun t p => p = t \/ p = " " ++ t) ts ps /\ ps <> [].
Proof.
  intros N. destruct ts as [|t ts]; [congruence|]. clear N. exists (t :: map (fun t => " " ++ t) ts). split; [|split; [|discriminate]].
  - revert t. induction ts as [|u ts IH]; intros t; [reflexivity|]. cbn [map]. change (join ", " (t :: u :: ts)) with (t ++ ", " ++ join ", " (u :: ts)).
    change (join "," (t :: (" " ++ u) :: map (fun t => " " ++ t) ts)) with (t ++ "," ++ join "," ((" " ++ u) :: map (fun t => " " ++ t) ts)).
    f_equal. rewrite IH. cbn [append]. f_equal. destruct ts as [|v ts]; [reflexivity|]. reflexivity.
  - constructor; [left; reflexivity|]. clear. induction ts; constructor; auto.
Qed.
Lemma cursor_back l n : cursor_shape l -> l <> [] -> (forall o x, In (VUri o x) l -> no_comma x = true) ->
  exists t m k, value_str show (VCursor l) = Ok t /\ cursor n (VStr t) = Ok (VCursor m, k) /\ Forall2 same_item l m.
Proof.
  intros S N C. destruct (cursor_back_items l S C) as (ts & E & L & F & G).
  assert (NT : ts <> []) by (destruct ts, l; cbn in L; congruence).
  destruct (join_blank ts NT) as (ps & J & P & NP). destruct (G n) as (m & k & M & MM). exists (join ", " ts), m, k. split; [|split; [|exact MM]].
  - cbn [value_str cursor_str]. rewrite E. reflexivity.
  - rewrite J. change join with String.concat. rewrite (C31_text n ts ps NT).
    + unfold cursor. cbn [iterate bindr]. rewrite M. reflexivity.
    + clear -P F. induction P as [|t p ts ps H P IH]; [constructor|]. inversion F as [|? ? [T Q] F']; subst. constructor; [|apply IH, F'].
      destruct H as [-> | ->].
      * split; [exact Q|]. split; [exact T|]. exists "", "". rewrite app_nil_r_s. repeat split.
      * split; [exact Q|]. split; [exact T|]. exists " ", "". rewrite app_nil_r_s. repeat split.
Qed.
End Show.

(** ** The number of objects never goes down *)
Definition grows {A} (r : res (A * nat)) (n : nat) : Prop := forall x, r = Ok x -> (n <= snd x)%nat.
Lemma grows_bind {A B} (r : res A) (f : A -> res (B * nat)) n : (forall a, r = Ok a -> grows (f a) n) -> grows (bindr r f) n.
Proof. intros H x E. destruct r as [a|]; [|discriminate]. exact (H a eq_refl x E). Qed.
Lemma grows_ok {A} (a : A) n m : (n <= m)%nat -> grows (Ok (a, m)) n.
Proof. intros H x E. injection E as <-. exact H. Qed.
Lemma grows_err {A} e n : grows (@Err (A * nat) e) n.
Proof. intros x E. discriminate. Qed.
Lemma grows_validation {A} (r : res (A * nat)) n : grows r n -> grows (as_validation r) n.
Proof. intros H x E. apply H. destruct r as [y|e]; [exact E|]. destruct e; discriminate. Qed.
Lemma cursor_items_grow l : forall n seen, grows (cursor_items n seen l) n.
Proof.
  induction l as [|v l IH]; intros n seen; [apply grows_ok; lia|]. cbn [cursor_items]. destruct (is_cursor_option v).
  - destruct seen; [apply grows_err|]. apply grows_bind. intros y Y. apply grows_ok. exact (IH _ _ _ Y).
  - destruct seen; [apply grows_err|]. apply grows_bind. intros u U. apply grows_bind. intros y Y. apply grows_ok. apply IH in Y.
    destruct (uri n v) as [r|e] eqn:R; [|cbn in U; destruct (is_value_error e); discriminate]. cbn in U. injection U as <-. rewrite (uri_next _ _ _ R) in Y. lia.
Qed.
Lemma validator_grows f n v : grows (run_validator f n v) n.
Proof.
  destruct f; cbn [run_validator]; try (apply grows_bind; intros u _).
  - apply grows_ok; lia.
  - destruct (u_kind u); try apply grows_err. destruct (u_ltb _ _); [apply grows_err|apply grows_ok; lia].
  - apply grows_ok; lia.
  - apply grows_validation. unfold color. destruct v; try apply grows_err; try (apply grows_ok; lia).
    apply grows_bind. intros [c|k] _; apply grows_ok; lia.
  - apply grows_validation. unfold border_spacing. apply grows_bind. intros [|a [|b [|]]] _; try apply grows_err; repeat (apply grows_bind; intros ? _); apply grows_ok; lia.
  - apply grows_ok; lia.
  - apply grows_ok; lia.
  - apply grows_validation. unfold cursor. apply grows_bind. intros l _. apply grows_bind. intros y Y. apply grows_ok. exact (cursor_items_grow _ _ _ _ Y).
Qed.
Lemma validate_grows order ch n v : grows (validate order ch n v) n.
Proof.
  unfold validate. apply grows_bind. intros r R. assert (G : forall x, r = Some x -> (n <= snd x)%nat).
  { intros x ->. induction (ch_validators ch) as [|f fs IH]; [discriminate|]. cbn [first_valid] in R.
    destruct (run_validator f n v) as [y|e] eqn:Y; [injection R as <-; exact (validator_grows f n v _ Y)|]. destruct e; try discriminate. apply IH, R. }
  destruct r as [x|]; [intros y E; injection E as <-; apply G; reflexivity|]. cbv zeta.
  destruct (find_const _ _); [apply grows_ok; lia|]. destruct (find_const _ _); [apply grows_ok; lia|apply grows_err].
Qed.
Lemma parse_grows order table n v : grows (parse_shorthand order table n v) n.
Proof.
  unfold parse_shorthand. apply grows_bind. intros l _.
  assert (P : forall tb n d v, grows (parse_part order tb n d v) n).
  { clear. induction tb as [|[k ch] tb IH]; intros n d v; cbn [parse_part]; [apply grows_err|]. destruct (validate order ch n v) as [[w m]|e] eqn:E.
    - destruct (d k); [apply grows_err|]. apply grows_ok. exact (validate_grows _ _ _ _ _ E).
    - destruct (is_value_error e); [apply IH|apply grows_err]. }
  generalize no_parts. generalize 3%nat. revert n. induction l as [|x l IH]; intros n room d; [destruct room; apply grows_ok; lia|]. destruct room; [apply grows_err|]. cbn [parse_parts].
  intros y E. destruct (parse_part order table n d x) as [z|] eqn:Z; [|discriminate]. apply P in Z. apply IH in E. lia.
Qed.
Definition steady {A} (m : cm A) : Prop := forall c n, (n <= snd (fst (m c n)))%nat.
Lemma steady_bind {A B} (m : cm A) (f : A -> cm B) : steady m -> (forall a, steady (f a)) -> steady (bind m f).
Proof. intros H K c n. unfold bind. specialize (H c n). destruct (m c n) as [[c' n'] [a|e]]; cbn in *; [|exact H]. specialize (K a c' n'). lia. Qed.
Lemma steady_swallow m : steady m -> steady (swallow m).
Proof. intros H c n. unfold swallow. specialize (H c n). destruct (m c n) as [[c' n'] [a|[]]]; exact H. Qed.
Lemma steady_each {A} (f : A -> cm unit) l : (forall a, steady (f a)) -> steady (each f l).
Proof. intros H. induction l as [|a l IH]; [intros c n; cbn; lia|]. cbn [each]. apply steady_bind; auto. Qed.
Lemma steady_raise {A} e : steady (@raise A e). Proof. intros c n. cbn. lia. Qed.
Lemma steady_dirty : steady dirty. Proof. intros c n. unfold dirty. destruct (mark_dirty c). cbn. lia. Qed.
Section Steady.
Variable ho : hash_order.
Lemma steady_set_long p v : steady (set_long ho p v).
Proof.
  intros c n. rewrite set_long_eq. destruct (validate _ _ n v) as [[w m]|e] eqn:E; [|cbn; lia]. apply validate_grows in E. destruct (same_value _ _); exact E.
Qed.
Lemma steady_del_long p : steady (del_long p).
Proof. intros c n. unfold del_long. destruct (c_store c p); [|cbn; lia]. apply (steady_swallow _ steady_dirty). Qed.
Lemma steady_set_dir d v : steady (set_dir ho d v).
Proof.
  assert (F : forall t r b l, steady (set_sides ho d t r b l)) by (intros; unfold set_sides; repeat (apply steady_bind; [apply steady_set_long|intros _]); apply steady_set_long).
  unfold set_dir. destruct v; try apply F. repeat match goal with |- context [match ?l with _ => _ end] => destruct l end; first [apply F|apply steady_raise].
Qed.
Lemma steady_del_dir d : steady (del_dir d). Proof. apply steady_each. intros. apply steady_del_long. Qed.
Lemma steady_set_ld p v : steady (set_ld ho p v).
Proof. destruct p; [apply steady_set_long|apply steady_set_dir|apply steady_raise]. Qed.
Lemma steady_del_ld p : steady (del_ld p).
Proof. destruct p; [apply steady_del_long|apply steady_del_dir|apply steady_raise]. Qed.
Lemma steady_set_prop p v : steady (set_prop ho p v).
Proof.
  destruct p as [l|d|s]; [apply steady_set_long|apply steady_set_dir|]. intros c n. cbn [set_prop]. unfold set_short. destruct (parse_shorthand _ _ n v) as [[d m]|e] eqn:E; [|cbn; lia].
  apply parse_grows in E. cbn [snd] in E. set (body := bind _ _). assert (B : steady body).
  { apply steady_bind; [|intros; apply steady_dirty]. apply steady_each. intros [k q]. destruct (d _); [apply steady_set_ld|apply steady_del_ld]. }
  specialize (B c m). lia.
Qed.
Lemma steady_del_prop p : steady (del_prop p).
Proof.
  destruct p as [l|d|s]; [apply steady_del_long|apply steady_del_dir|]. apply steady_each. intros. apply steady_swallow, steady_bind; [apply steady_del_ld|intros; apply steady_dirty].
Qed.
Lemma steady_update l : steady (update ho l).
Proof.
  apply steady_each. intros [name v]. unfold update_item. cbn [fst snd]. destruct (prop_of_name _); [|apply steady_raise]. destruct v; first [apply steady_del_prop|apply steady_set_prop].
Qed.
Lemma steady_op o : steady (run_op ho o).
Proof.
  destruct o; cbn [run_op]; [apply steady_set_prop|apply steady_del_prop|apply steady_update| | |intros c n; cbn; lia].
  - unfold setitem. destruct (prop_of_name _); [apply steady_set_prop|apply steady_raise].
  - unfold delitem. destruct (prop_of_name _); [apply steady_swallow, steady_del_prop|apply steady_raise].
Qed.
Lemma reachable_first c n : reachable ho c n -> (first_free <= n)%nat.
Proof.
  intros [l R]. assert (G : forall c k, (k <= snd (run_ops ho l c k))%nat).
  { clear. induction l as [|o l IH]; intros c k; [cbn; lia|]. cbn [run_ops]. pose proof (steady_op o c k) as H. destruct (run_op ho o c k) as [[c' k'] r]. specialize (IH c' k'). cbn [fst snd] in *. lia. }
  specialize (G fresh_css first_free). rewrite R in G. exact G.
Qed.
End Steady.

(** ** Reading a text back *)
Lemma quote_pairs_nonempty l : forall ps, quote_pairs l = Ok ps -> Forall (fun p => fst p <> "" /\ snd p <> "") ps.
Proof.
  assert (G : forall k l ps, (List.length l <= k)%nat -> quote_pairs l = Ok ps -> Forall (fun p => fst p <> "" /\ snd p <> "") ps).
  { clear. induction k as [|k IH]; intros l ps L H; (destruct l as [|a [|b l]]; [injection H as <-; constructor..|]); [cbn in L; lia|].
    cbn [quote_pairs] in H. destruct (eval_quote a) as [x|]; [|discriminate]. destruct (eval_quote b) as [y|]; [|discriminate]. cbn [bindr] in H.
    destruct x as [x|]; [|discriminate]. cbn [check_len] in H. destruct (is_empty x) eqn:E1; [discriminate|]. cbn [bindr] in H.
    destruct y as [y|]; [|discriminate]. cbn [check_len] in H. destruct (is_empty y) eqn:E2; [discriminate|]. cbn [bindr] in H. destruct (quote_pairs l) as [qs|] eqn:Q; [|discriminate]. injection H as <-.
    constructor; [cbn; split; intros ->; discriminate|]. apply (IH l qs); [cbn in L; lia|exact Q]. }
  intros ps. apply (G (List.length l)). lia.
Qed.
Lemma stored_quotes v ps : quotes v = Ok (VQuotes ps) -> ps <> [] /\ Forall (fun p => fst p <> "" /\ snd p <> "") ps.
Proof.
  unfold quotes. destruct (match v with VStr s => _ | _ => _ end) as [l|]; [|discriminate]. cbn [bindr]. destruct (_ && _)%bool eqn:C; [|discriminate].
  destruct (quote_pairs l) as [qs|] eqn:Q; [|discriminate]. cbn [bindr]. intros H. injection H as <-. split; [|exact (quote_pairs_nonempty _ _ Q)].
  intros ->. apply andb_prop in C. destruct C as [C D]. destruct l as [|a [|b l]]; [discriminate|discriminate|]. cbn [quote_pairs] in Q.
  destruct (eval_quote a) as [x|]; [|discriminate]. destruct (eval_quote b) as [y|]; [|discriminate]. cbn [bindr] in Q.
  destruct (check_len x); [|discriminate]. cbn [bindr] in Q. destruct (check_len y); [|discriminate]. cbn [bindr] in Q. destruct (quote_pairs l); discriminate.
Qed.
Section Back.
Variable show : xq -> string.
(** an object made by the parser is the one just created *)
Definition made (n : nat) (w : pyval) : Prop := forall o h x, w = VSpacing o h x -> o = OId n.
Definition kind_shape (k : kind) (w : pyval) : Prop :=
  match k, w with
  | LengthK, VUnit _ | IntegerK, VInt _ | ColorK, VColor _ _ | SpacingK, VSpacing _ _ _ | RectK, VRect _ _ _ _ | QuotesK, VQuotes _ | CursorK, VCursor _ => True
  | _, _ => False
  end.
Lemma takes_shape k n v w n' : takes k n v w n' -> kind_shape k w.
Proof.
  destruct k; cbn [takes].
  - intros (u & _ & -> & _). exact I.
  - intros (u & _ & -> & _). exact I.
  - intros H. apply color_ok in H. destruct H as (o & c & -> & _). exact I.
  - intros H. apply spacing_ok in H. destruct H as (h & x & -> & _). exact I.
  - intros [H _]. apply rect_ok in H. destruct H as (a & b & c & d & ->). exact I.
  - intros [H _]. apply quotes_ok in H. destruct H as (l & ->). exact I.
  - intros H. apply cursor_ok in H. destruct H as (l & -> & _). exact I.
Qed.
Lemma text_accepted p k v0 v k' n : accepts p k v0 v k' -> readable show v -> exists t w n',
  value_str show v = Ok t /\ accepts p n (VStr t) w n' /\ same_look v w /\ made n w.
Proof.
  intros A R.
  assert (KD : (exists s, v = VStr s /\ In s (keywords p) /\ s <> "none") \/ v = VNone \/ v = VDefault
    \/ exists kd, kind_of p = Some kd /\ takes kd k v0 v k' /\ kind_shape kd v).
  { inversion A as [kd ? ? ? K T| s' I N| | |]; subst; [do 3 right; exists kd; split; [exact K|]; split; [exact T|exact (takes_shape _ _ _ _ _ T)]|left; exists s'; auto|auto..]. }
  assert (NM : forall w, (forall o h x, w <> VSpacing o h x) -> made n w) by (intros w H o h x E; destruct (H o h x E)).
  destruct R as [s|z|u U|o r g b a S|o h w H W|t r l b T R L B|ps F|l N C];
    (destruct KD as [(s0 & E & KD)|[E|[E|(kd & K & T0 & SH)]]]; try discriminate E; try (destruct kd; try destruct SH)).
  - injection E as <-. destruct KD as [I J]. exists s, (VStr s), n. split; [reflexivity|]. split; [constructor; assumption|]. split; [constructor|apply NM; discriminate].
  - exists (show_Z z), (VInt z), n. split; [reflexivity|]. split; [|split; [constructor|apply NM; discriminate]]. apply (accepts_kind p n IntegerK); [exact K|].
    exists z. split; [|auto]. constructor. apply (show_Z_int "" z). reflexivity.
  - destruct (length_back show u U) as (t & w & T & [_ TW] & E). exists t, (VUnit w), n. split; [exact T|]. split; [|split; [constructor; exact E|apply NM; discriminate]].
    apply (accepts_kind p n LengthK); [exact K|]. exists w. split; [apply length_units, TW|auto].
  - destruct (color_back show r g b a n S) as (a' & C & M). eexists. eexists. exists (Datatypes.S n). split; [reflexivity|]. split; [apply (accepts_kind p n ColorK); [exact K|exact C]|].
    split; [|apply NM; discriminate]. constructor. assert (SI : forall z, same_magnitude (PI z) (PI z)) by (intros z; split; [reflexivity|discriminate]). cbn [same_color]. split; [apply SI|]. split; [apply SI|]. split; [apply SI|exact M].
  - destruct (spacing_back show o h w n H W) as (t & h' & w' & T & B & E). exists t, (VSpacing (OId n) h' w'), (S n). split; [exact T|].
    split; [apply (accepts_kind p n SpacingK); [exact K|exact B]|]. split; [exact E|]. intros o' x y Q. injection Q as <- _ _. reflexivity.
  - destruct (rect_back show t r l b T R L B) as (x & v & X & V & E). exists x, v, n. split; [exact X|].
    split; [apply (accepts_kind p n RectK); [exact K|split; [exact V|reflexivity]]|]. split; [exact E|]. apply NM. intros o h w ->. inversion E.
  - cbn [takes] in T0. destruct T0 as [T0 _]. destruct (stored_quotes _ _ T0) as [N NE]. cbn [value_str]. eexists. exists (VQuotes ps), n. split; [reflexivity|].
    split; [apply (accepts_kind p n QuotesK); [exact K|split; [|reflexivity]]|split; [constructor|apply NM; discriminate]].
    apply (C95_round_trip ps); [exact N| |reflexivity]. clear -NE F. induction NE as [|[a b] ps [A B] NE IH]; [constructor|]. inversion F as [|? ? [C D] F']; subst.
    constructor; [cbn in *; auto|apply IH, F'].
  - cbn [takes] in T0. apply stored_cursor in T0. destruct (cursor_back show l n T0 N C) as (t & m & j & T & B & E). exists t, (VCursor m), j. split; [exact T|].
    split; [apply (accepts_kind p n CursorK); [exact K|exact B]|]. split; [constructor; exact E|apply NM; discriminate].
Qed.
(** what compares equal to an initial value has its contents *)
Lemma same_measure_trans u v w : same_measure u v -> same_measure v w -> same_measure u w.
Proof. intros [A [B C]] [D [E F]]. split; [congruence|]. split; [congruence|exact C]. Qed.
Lemma initial_look p n v0 w m v : (first_free <= n)%nat -> accepts p n v0 w m -> made n w -> same_look v w -> py_eqb w (css_initial p) = true -> same_look v (css_initial p).
Proof.
  intros N A M L E. apply py_eqb_spec in E.
  assert (KI : forall z, w = VInt z -> kind_of p = Some IntegerK).
  { intros z ->. inversion A as [kd ? ? ? K T| | | |]; subst. apply takes_shape in T. destruct kd; try destruct T. exact K. }
  assert (KL : forall u, w = VUnit u -> kind_of p = Some LengthK).
  { intros z ->. inversion A as [kd ? ? ? K T| | | |]; subst. apply takes_shape in T. destruct kd; try destruct T. exact K. }
  assert (C : (exists u, css_initial p = VUnit (mkU KPx u) /\ kind_of p = Some LengthK) \/ (exists z, css_initial p = VInt z /\ kind_of p = Some IntegerK)
    \/ css_initial p = VNone \/ css_initial p = VDefault \/ (exists s, css_initial p = VStr s) \/ css_initial p = VCursor [VStr "auto"] \/ (exists h, css_initial p = VSpacing (OId 0) h None)).
  { clear. destruct p; cbn; eauto 10; try (left; eexists; split; reflexivity). }
  destruct C as [(u & C & K)|[(z & C & K)|[C|[C|[(s & C)|[C|(h & C)]]]]]]; rewrite C in *; inversion L; subst; apply equals_inv in E; try contradiction; try (destruct (E : False)).
  - rewrite (KI _ eq_refl) in K. discriminate.
  - constructor. destruct E as [E1 E2]. eapply same_measure_trans; [eassumption|]. split; [inversion E1; reflexivity|exact E2].
  - subst. constructor.
  - rewrite (KL _ eq_refl) in K. discriminate.
  - constructor.
  - constructor.
  - subst. constructor.
  - constructor. inversion E as [|x y xs ys X XS]; subst. inversion XS; subst. inversion H as [|a b c d Y YS]; subst. inversion YS; subst. constructor; [|constructor].
    inversion Y; subst; apply equals_inv in X; [subst; constructor|destruct X].
  - specialize (M _ _ _ eq_refl). subst. injection E as E. unfold first_free in N. lia.
  - specialize (M _ _ _ eq_refl). subst. injection E as E. unfold first_free in N. lia.
Qed.
End Back.

(** ** C113: the text of a stored value denotes it *)
Lemma look_left v w : same_look v w -> same_look v v.
Proof.
  assert (RL : forall u x, same_measure u x -> same_measure u u) by (intros u x [A [B C]]; split; [reflexivity|split; [reflexivity|exact C]]).
  assert (RM : forall a b, same_magnitude a b -> same_magnitude a a) by (intros a b [A B]; split; [reflexivity|exact B]).
  intros []; try constructor; eauto.
  - destruct c, c'; try contradiction; cbn in *; repeat match goal with H : _ /\ _ |- _ => destruct H end; eauto 8.
  - induction H as [|a b l m I F IH]; constructor; [destruct I; constructor|exact IH].
Qed.
(** what an assignment of the text leaves in the declaration *)
Definition shows_as (c : css) (p : longhand) (v : pyval) : Prop :=
  match c_store c p with Some w => same_look v w | None => ~ follower p /\ same_look v (css_initial p) end.
Lemma set_text show ho p k v0 v k' c n : valid_order ho -> accepts p k v0 v k' -> readable show v -> has_layout c -> (first_free <= n)%nat ->
  c_store c p = None \/ c_store c p = Some v ->
  exists t c' n', value_str show v = Ok t /\ set_long ho p (VStr t) c n = (c', n', Ok tt) /\ has_layout c' /\ (n <= n')%nat /\ shows_as c' p v.
Proof.
  intros V A R L N S. destruct (text_accepted show p k v0 v k' n A R) as (t & w & n' & T & B & LK & M). exists t.
  pose proof (proj2 (validate_accepts ho p n (VStr t) w n' V) B) as W.
  assert (NN : (n <= n')%nat) by exact (validate_grows _ _ _ _ _ W).
  rewrite set_long_eq, W. destruct (same_value w (stored_or_initial ho c p)) eqn:E.
  - exists c, n'. split; [exact T|]. split; [reflexivity|]. split; [exact L|]. split; [exact NN|]. unfold shows_as, same_value, stored_or_initial in *. destruct (c_store c p) as [x|].
    + destruct S as [S|S]; [discriminate|]. injection S as ->. exact (look_left _ _ LK).
    + rewrite (initial_spec _ _ V) in E. destruct (follower_cases p) as [[[s ->]| ->]|[WI F]]; [discriminate|discriminate|]. rewrite WI in E. split; [exact F|].
      exact (initial_look p n _ w n' v N B M LK E).
  - exists (fst (mark_dirty (set_store c p (Some w)))), n'. split; [exact T|]. assert (L' : has_layout (set_store c p (Some w))) by exact L.
    split; [rewrite (mark_dirty_ok _ L'); reflexivity|]. split; [apply mark_dirty_layout, L'|]. split; [exact NN|]. unfold shows_as. rewrite mark_dirty_store, store_same. exact LK.
Qed.
Lemma stored_accepts ho c n p v : valid_order ho -> reachable ho c n -> c_store c p = Some v -> exists v0 k k', accepts p k v0 v k'.
Proof. intros V R S. destruct (stored_validated ho c n p v V R S) as (v0 & k & k' & W). exists v0, k, k'. exact (proj1 (validate_accepts ho p k v0 v k' V) W). Qed.
Theorem C113_read_back : forall show ho c n p v c0 n0, valid_order ho ->
  reachable ho c n -> c_store c p = Some v -> readable show v ->
  reachable ho c0 n0 -> has_layout c0 -> c_store c0 p = None \/ c_store c0 p = Some v ->
  exists t c' n' r, value_str show v = Ok t /\ set_prop ho (Long p) (VStr t) c0 n0 = (c', n', Ok tt)
    /\ get_prop ho c' (Long p) = Ok (RValue r) /\ same_look v r.
Proof.
  intros show ho c n p v c0 n0 V R S RD R0 L0 S0. destruct (stored_accepts ho c n p v V R S) as (v0 & k & k' & A).
  destruct (set_text show ho p k v0 v k' c0 n0 V A RD L0 (reachable_first ho c0 n0 R0) S0) as (t & c' & n' & T & E & _ & _ & G). exists t, c', n'.
  pose proof (reachable_op ho c0 n0 (OpSet (Long p) (VStr t)) R0 _ _ _ E) as R'. destruct (get_long_ok ho c' n' p V R') as (r & GR & ST). exists r.
  split; [exact T|]. split; [exact E|]. split; [cbn [get_prop]; rewrite GR; reflexivity|]. unfold shows_as in G. destruct (c_store c' p) as [w|] eqn:SW.
  - rewrite (ST w eq_refl). exact G.
  - destruct G as [F G]. rewrite (get_long_plain _ _ _ V F), SW in GR. injection GR as <-. exact G.
Qed.
Print Assumptions C113_read_back.
(** Example: a declaration holding every kind of value, and a repr for its
    floats. *)
Definition show_half (x : xq) : string := if xeqb x (Fin 1%Qc) then "1.0" else "-0.5".
Definition printed_css : css := fst (run_ops plain_order [
  OpSet (Long L_width) (VStr "12px"); OpSet (Long (L_margin STop)) (VFloat (Fin (qfrac (-1) 2))); OpSet (Long L_color) (VStr "#0af"); OpSet (Long L_z_index) (VInt (-3));
  OpSet (Long L_border_spacing) (VTuple [VStr "2em"; VInt 7]); OpSet (Long L_clip) (VStr "rect(1px 2px 3px 4%)"); OpSet (Long L_quotes) (VStr "'<' '>'");
  OpSet (Long L_cursor) (VStr "url(a.png), help"); OpSet (Long L_float) (VStr "left")] fresh_css first_free).
Lemma printed_reachable : exists n, reachable plain_order printed_css n.
Proof. eexists. eexists. unfold printed_css. apply surjective_pairing. Qed.
Lemma shown_px z k t : In (t, k) css_units -> Z.abs z <= 2 ^ 53 -> shown_length show_half (mkU k (PF (Fin (Z2Qc z)))).
Proof. intros I Z. split; [exists t; exact I|]. exists (Z2Qc z). split; [reflexivity|]. left. exists z. split; [reflexivity|]. apply up_to_2_53, Z. Qed.
Ltac whole z := split; [cbn; eexists; repeat (first [left; reflexivity|right])|]; exists (Z2Qc z); split; [cbn; f_equal; apply Qc_is_canon; reflexivity|]; left; exists z; split; [reflexivity|apply double_small; vm_compute; discriminate].
Lemma printed_readable : all_readable show_half printed_css.
Proof.
  intros p v H. destruct p; repeat match goal with s : side |- _ => destruct s end; vm_compute in H; try discriminate H; injection H as <-.
  all: try (constructor; fail).
  - constructor. split; [exists "px"; left; reflexivity|]. exists (qfrac (-1) 2). split; [cbn; f_equal; apply Qc_is_canon; reflexivity|]. right. split.
    + intros z E. apply (f_equal (fun q => this q)) in E. unfold Z2Qc in E. pose proof (Qred_correct (inject_Z z)) as C. change (this (Q2Qc (inject_Z z))) with (Qred (inject_Z z)) in E. rewrite <- E in C. unfold Qeq in C. cbn in C. lia.
    + split; [split; [discriminate|reflexivity]|]. transitivity (Ok (Fin (qfrac (-1) 2))); [|reflexivity]. vm_compute. f_equal. f_equal. apply Qc_is_canon. reflexivity.
  - constructor. whole 12.
  - constructor; [whole 1|whole 2|whole 3|whole 4].
  - constructor. constructor; [|constructor]. split; intros c [<-|[]]; discriminate.
  - constructor. split; [discriminate|]. split; [split; [discriminate|reflexivity]|]. vm_compute. f_equal. f_equal. apply Qc_is_canon. reflexivity.
  - constructor; [whole 2|]. intros x [= <-]. whole 7.
  - constructor; [discriminate|]. intros o x [[= _ <-]|[H|[]]]; [reflexivity|discriminate].
Qed.
Example C113_example : (exists n, reachable plain_order printed_css n) /\ all_readable show_half printed_css
  /\ map (fun p => match c_store printed_css p with Some v => value_str show_half v | None => Err KeyError end)
       [L_width; L_margin STop; L_color; L_z_index; L_border_spacing; L_clip; L_quotes; L_cursor; L_float]
     = [Ok "12px"; Ok "-0.5px"; Ok "rgba(0, 170, 255, 1.0)"; Ok "-3"; Ok "2em 7px"; Ok "rect(1px, 2px, 3px, 4%)"; Ok "'<' '>'"; Ok "url(""a.png""), help"; Ok "left"].
Proof. split; [exact printed_reachable|]. split; [exact printed_readable|]. vm_compute. reflexivity. Qed.

(** ** C114: texts that denote no value *)
Lemma none_text ho p n : valid_order ho -> validate (ho_set ho) (choices_of p) n (VStr "None") = Err ValueError.
Proof.
  intros V. rewrite (validate_ho ho plain_order V plain_valid). destruct p; try destruct s; vm_compute; reflexivity.
Qed.
Theorem C114_none : forall ho p c n, valid_order ho ->
  value_str (fun _ => "") VNone = Ok "None" /\ set_prop ho (Long p) (VStr "None") c n = (c, n, Err ValueError).
Proof. intros ho p c n V. split; [reflexivity|]. cbn [set_prop]. rewrite set_long_eq, (none_text ho p n V). reflexivity. Qed.
Print Assumptions C114_none.
Lemma kept_rstrip f c s : f c = false -> In c (list_ascii_of_string s) -> In c (list_ascii_of_string (rstrip_by f s)).
Proof.
  intros F. induction s as [|x s IH]; cbn [list_ascii_of_string In rstrip_by]; [auto|]. intros [->|I].
  - rewrite F. destruct (rstrip_by f s); cbn; auto.
  - specialize (IH I). destruct (rstrip_by f s); [destruct IH|]. right. exact IH.
Qed.
Lemma kept_lstrip f c s : f c = false -> In c (list_ascii_of_string s) -> In c (list_ascii_of_string (lstrip_by f s)).
Proof.
  intros F. induction s as [|x s IH]; cbn [list_ascii_of_string In lstrip_by]; [auto|]. intros [->|I].
  - rewrite F. cbn. auto.
  - destruct (f x); [auto|]. cbn. auto.
Qed.
Lemma all_chars_in f c s : all_chars f s = true -> In c (list_ascii_of_string s) -> f c = true.
Proof. induction s as [|x s IH]; cbn; [tauto|]. intros H. apply andb_prop in H. destruct H as [A B]. intros [<-|I]; auto. Qed.
Lemma point_not_percent t : point_text t -> percent10 (" " ++ t) = Err ValueError.
Proof.
  intros [_ (c & I & D)]. unfold percent10. rewrite py_int_not_whole; [reflexivity|]. left.
  destruct (all_chars int_char _) eqn:E; [|reflexivity].
  assert (X : In c (list_ascii_of_string (rstrip_percent (strip (" " ++ t))))).
  { unfold rstrip_percent, strip. apply kept_rstrip; [destruct D as [-> | ->]; reflexivity|].
    apply kept_rstrip; [destruct D as [-> | ->]; reflexivity|]. apply kept_lstrip; [destruct D as [-> | ->]; reflexivity|]. right. exact I. }
  pose proof (all_chars_in _ _ _ E X) as Y. destruct D as [-> | ->]; discriminate Y.
Qed.
Theorem C114_hsl : forall show ho p o h x l a c n, valid_order ho -> reachable ho c n -> has_layout c -> kind_of p = Some ColorK ->
  plain (num_str show h) -> point_text (show x) -> plain (num_str show l) -> plain (num_str show a) ->
  exists t e, value_str show (VColor o (Hsl h (PF x) l a)) = Ok t /\ set_prop ho (Long p) (VStr t) c n = (c, n, Err e).
Proof.
  intros show ho p o h x l a c n V R L K PH PX PL PA. eexists.
  destruct (C103_accepted ho p (VStr (color_str show (Hsl h (PF x) l a))) c n V R L) as [_ H].
  set (ts := [num_str show h; " " ++ show x; " " ++ num_str show l; " " ++ num_str show a]).
  assert (E : color_str show (Hsl h (PF x) l a) = "hsla" ++ String "(" (join "," ts ++ String ")" "")).
  { unfold color_str, ts. cbn [num_str join]. rewrite !app_assoc_s. reflexivity. }
  assert (B : forall t, plain t -> no_comma (" " ++ t) = true) by (intros t P; exact (plain_no_comma t P)).
  assert (C : color n (VStr (color_str show (Hsl h (PF x) l a))) = Err ValueError).
  { rewrite E, color_hsla_call, split_on_join.
    - unfold ts, hsla_args. destruct (int10 (num_str show h)) as [z|e] eqn:I; cbn [bindr]; [|rewrite (int10_err _ _ I); reflexivity].
      rewrite (point_not_percent _ PX). reflexivity.
    - discriminate.
    - unfold ts. constructor; [apply plain_no_comma, PH|]. constructor; [apply B, PX|]. constructor; [apply B, PL|]. constructor; [apply B, PA|constructor]. }
  destruct H as [e H].
  { intros w n' A. inversion A as [kd v w' ? K' T|s I NS Y|I Y|I Y|D Y]; subst.
    - rewrite K in K'. injection K' as <-. cbn [takes] in T. congruence.
    - match type of I with In ?s _ => assert (X : startswith "hsla(" s = true) by reflexivity end.
      destruct p; try discriminate K; cbn in I; repeat (destruct I as [I|I]; [rewrite <- I in X; discriminate X|]); destruct I. }
  exists e. split; [reflexivity|exact H].
Qed.
Print Assumptions C114_hsl.
(** Examples: None and a translucent colour from hsla() are stored, and their
    texts are rejected. *)
Definition unprintable_css : css := fst (run_ops plain_order [OpSet (Long L_display) (VStr "block"); OpSet (Long L_display) VNone; OpSet (Long L_color) (VStr "hsla(120, 50%, 25%, 1)")] fresh_css first_free).
Definition show_quarter (x : xq) : string := if xeqb x (Fin (qfrac 1 2)) then "0.5" else if xeqb x (Fin (qfrac 1 4)) then "0.25" else "1.0".
Example C114_example : exists n o h x l a, reachable plain_order unprintable_css n /\ c_store unprintable_css L_display = Some VNone
  /\ c_store unprintable_css L_color = Some (VColor o (Hsl h (PF x) l a))
  /\ plain (num_str show_quarter h) /\ point_text (show_quarter x) /\ plain (num_str show_quarter l) /\ plain (num_str show_quarter a)
  /\ color_str show_quarter (Hsl h (PF x) l a) = "hsla(120, 0.5, 0.25, 1.0)".
Proof.
  eexists. do 5 eexists. split; [eexists; unfold unprintable_css; apply surjective_pairing|]. split; [vm_compute; reflexivity|].
  split; [vm_compute; reflexivity|]. split; [split; [discriminate|reflexivity]|].
  split; [split; [split; [discriminate|reflexivity]|exists "."%char; split; [cbn; auto|left; reflexivity]]|].
  split; [split; [discriminate|reflexivity]|]. split; [split; [discriminate|reflexivity]|]. vm_compute. reflexivity.
Qed.

(** ** C115: a declaration rebuilt from the texts of its values *)
Lemma look_refl_initial p : same_look (css_initial p) (css_initial p).
Proof. destruct p; try destruct s; cbn; constructor; try (split; [reflexivity|]; split; [reflexivity|discriminate]); constructor; constructor. Qed.
Lemma long_name_inj p q : long_name p = long_name q -> p = q.
Proof.
  intros H. pose proof (proj1 (prop_names (Long p))) as A. pose proof (proj1 (prop_names (Long q))) as B. cbn [prop_name] in A, B. rewrite H in A. congruence.
Qed.
Section Rebuild.
Variables (show : xq -> string) (ho : hash_order) (a : css) (k : nat).
Hypotheses (V : valid_order ho) (R : reachable ho a k) (RD : all_readable show a).
Lemma update_printed q v x c n : c_store a q = Some v -> printed_item show (long_name q, v) x -> has_layout c -> (first_free <= n)%nat -> c_store c q = None ->
  exists c' n', update_item ho x c n = (c', n', Ok tt) /\ has_layout c' /\ (n <= n')%nat /\ shows_as c' q v /\ (forall r, r <> q -> c_store c' r = c_store c r)
    /\ (forall w, c_store c' q = Some w -> exists v0 i j, validate (ho_set ho) (choices_of q) i v0 = Ok (w, j)).
Proof.
  intros S (NM & t & T & E) L N SN. destruct (stored_accepts ho a k q v V R S) as (v0 & i & j & A).
  destruct (set_text show ho q i v0 v j c n V A (RD q v S) L N (or_introl SN)) as (t' & c' & n' & T' & W & L' & N' & SH).
  cbn [snd] in T, E. rewrite T in T'. injection T' as <-. exists c', n'.
  assert (P : prop_of_name (underscored (fst x)) = Some (Long q)).
  { destruct NM as [-> | ->]; cbn [fst]; [|rewrite <- dashed_with; exact (proj2 (prop_names (Long q)))]. pose proof (proj1 (prop_names (Long q))) as X. cbn [prop_name] in X.
    replace (underscored (long_name q)) with (long_name q); [exact X|]. clear. destruct q; try destruct s; reflexivity. }
  split; [unfold update_item; rewrite P, E; exact W|]. split; [exact L'|]. split; [exact N'|]. split; [exact SH|]. split; [intros r NE; exact (set_long_other ho q _ c n c' n' _ r W NE)|].
  intros w SW. rewrite set_long_eq in W. destruct (validate (ho_set ho) (choices_of q) n (VStr t)) as [[y m]|] eqn:VA; [|discriminate].
  destruct (same_value _ _); injection W as <- <-; [congruence|]. rewrite mark_dirty_store, store_same in SW. injection SW as ->. eauto.
Qed.
Lemma rebuild l0 : forall l c n, Forall2 (printed_item show) l0 l -> NoDup (map fst l0) ->
  (forall x, In x l0 -> exists q, fst x = long_name q /\ c_store a q = Some (snd x)) ->
  has_layout c -> (first_free <= n)%nat -> (forall q v, In (long_name q, v) l0 -> c_store c q = None) -> stored_ok ho c ->
  exists c' n', update ho l c n = (c', n', Ok tt) /\ stored_ok ho c'
    /\ (forall q v, In (long_name q, v) l0 -> shows_as c' q v)
    /\ (forall q, (forall v, ~ In (long_name q, v) l0) -> c_store c' q = c_store c q).
Proof.
  induction l0 as [|[nm v] l0 IH]; intros l c n F ND IN L N CL OK; inversion F as [|? x ? l' P F']; subst.
  - exists c, n. split; [reflexivity|]. split; [exact OK|]. split; [intros q v []|]. reflexivity.
  - inversion ND as [|? ? NI ND']; subst. destruct (IN _ (or_introl eq_refl)) as (q & E & S). cbn [fst snd] in *. subst nm.
    destruct (update_printed q v x c n S P L N (CL q v (or_introl eq_refl))) as (c1 & n1 & U & L1 & N1 & SH & OT & ST).
    assert (NQ : forall r w, In (long_name r, w) l0 -> r <> q) by (intros r w I ->; apply NI; exact (in_map fst _ _ I)).
    destruct (IH l' c1 n1 F' ND' (fun x I => IN x (or_intror I)) L1 (Nat.le_trans _ _ _ N N1)) as (c' & n' & U' & OK' & SH' & OT').
    + intros r w I. rewrite (OT r (NQ r w I)). exact (CL r w (or_intror I)).
    + intros r w I. destruct (lh_eqb r q) eqn:EQ; [apply lh_eqb_eq in EQ; subst r; eauto|]. apply (OK r w). rewrite <- OT; [exact I|]. intros ->. rewrite lh_eqb_refl in EQ. discriminate.
    + exists c', n'. split; [unfold update in *; cbn [each]; unfold bind; rewrite U; exact U'|]. split; [exact OK'|]. split.
      * intros r w [I|I]; [|exact (SH' r w I)]. injection I as I <-. apply long_name_inj in I. subst r. unfold shows_as in *. rewrite OT'; [exact SH|].
        intros w I. exact (NI (in_map fst _ _ I)).
      * intros r NR. rewrite (OT' r (fun w I => NR w (or_intror I))). apply OT. intros ->. exact (NR v (or_introl eq_refl)).
Qed.
Lemma rebuilt_reads c : (forall q v, c_store a q = Some v -> shows_as c q v) -> (forall q, c_store a q = None -> c_store c q = None) ->
  forall p, exists v w, get_long ho a p = Ok v /\ get_long ho c p = Ok w /\ same_look v w.
Proof.
  intros SH NO p. assert (NF : forall q v, follower q -> c_store a q = Some v -> exists w, c_store c q = Some w /\ same_look v w).
  { intros q v FO S. specialize (SH q v S). unfold shows_as in SH. destruct (c_store c q) as [w|]; [eauto|]. destruct SH as [NF _]. contradiction. }
  destruct (follower_cases p) as [[[s ->]| ->]|[_ F]].
  - rewrite !(get_long_color _ _ _ V). do 2 eexists. split; [reflexivity|]. split; [reflexivity|].
    destruct (c_store a (L_border_color s)) as [v|] eqn:S.
    + destruct (NF _ v (ex_intro _ L_color (follows_color s)) S) as (w & -> & Q). exact Q.
    + rewrite (NO _ S). destruct (c_store a L_color) as [v|] eqn:S'; [|rewrite (NO _ S'); constructor].
      specialize (SH _ _ S'). unfold shows_as in SH. destruct (c_store c L_color); [exact SH|exact (proj2 SH)].
  - assert (D : dir_stored c).
    { intros w S. destruct (c_store a L_direction) as [v|] eqn:S'; [|rewrite (NO _ S') in S; discriminate].
      specialize (SH _ _ S'). unfold shows_as in SH. rewrite S in SH. destruct (direction_stored _ _ _ V R v S') as [-> | ->]; inversion SH; auto. }
    rewrite (get_long_text_align _ _ V (direction_stored _ _ _ V R)), (get_long_text_align _ _ V D). do 2 eexists. split; [reflexivity|]. split; [reflexivity|].
    destruct (c_store a L_text_align) as [v|] eqn:S.
    + destruct (NF _ v (ex_intro _ L_direction follows_direction) S) as (w & -> & Q). exact Q.
    + rewrite (NO _ S). destruct (c_store a L_direction) as [v|] eqn:S'; [|rewrite (NO _ S'); constructor].
      specialize (SH _ _ S'). unfold shows_as in SH. destruct (direction_stored _ _ _ V R v S') as [-> | ->]; destruct (c_store c L_direction) as [w|]; [|destruct SH as [_ SH]| |destruct SH as [_ SH]]; inversion SH; subst; constructor.
  - rewrite !(get_long_plain _ _ _ V F). do 2 eexists. split; [reflexivity|]. split; [reflexivity|]. destruct (c_store a p) as [v|] eqn:S.
    + specialize (SH _ _ S). unfold shows_as in SH. destruct (c_store c p); [exact SH|exact (proj2 SH)].
    + rewrite (NO _ S). apply look_refl_initial.
Qed.
Lemma rebuilt_all l0 l node n : Permutation (items ho a) l0 -> Forall2 (printed_item show) l0 l -> node <> Some None -> (first_free <= n)%nat ->
  exists c' n', update ho l (mkCss (fun _ => None) node) n = (c', n', Ok tt) /\ stored_ok ho c'
    /\ forall p, exists v w, get_long ho a p = Ok v /\ get_long ho c' p = Ok w /\ same_look v w.
Proof.
  intros P F ND N. assert (IT : forall q v, In (long_name q, v) l0 <-> c_store a q = Some v).
  { intros q v. split.
    - intros I. apply (Permutation_in _ (Permutation_sym P)) in I. apply (proj1 (items_in ho a _ _ V)) in I. destruct I as (r & E & S). apply long_name_inj in E. subst r. exact S.
    - intros S. apply (Permutation_in _ P). apply (items_in ho a _ _ V). eauto. }
  destruct (rebuild l0 l (mkCss (fun _ => None) node) n F) as (c' & n' & U & OK & SH & OT).
  - apply (Permutation_NoDup (Permutation_map fst P)). rewrite items_names. apply keys_nodup, V.
  - intros [nm v] I. apply (Permutation_in _ (Permutation_sym P)) in I. apply (proj1 (items_in ho a _ _ V)) in I. exact I.
  - exact ND.
  - exact N.
  - reflexivity.
  - intros q v S. discriminate S.
  - exists c', n'. split; [exact U|]. split; [exact OK|]. apply rebuilt_reads.
    + intros q v S. apply SH, IT, S.
    + intros q S. rewrite OT; [reflexivity|]. intros v I. apply IT in I. congruence.
Qed.
End Rebuild.
Theorem C115_rebuild : forall show ho a k l0 l node n, valid_order ho -> reachable ho a k -> all_readable show a ->
  Permutation (items ho a) l0 -> Forall2 (printed_item show) l0 l -> node <> Some None -> (first_free <= n)%nat ->
  exists b n', update ho l (mkCss (fun _ => None) node) n = (b, n', Ok tt)
    /\ forall p, exists v w, get_prop ho a (Long p) = Ok (RValue v) /\ get_prop ho b (Long p) = Ok (RValue w) /\ same_look v w.
Proof.
  intros show ho a k l0 l node n V R RD P F ND N. destruct (rebuilt_all show ho a k V R RD l0 l node n P F ND N) as (b & n' & U & _ & H).
  exists b, n'. split; [exact U|]. intros p. destruct (H p) as (v & w & A & B & L). exists v, w. cbn [get_prop]. rewrite A, B. auto.
Qed.
Print Assumptions C115_rebuild.
Lemma sorted_names {A} (l : list (string * A)) : StronglySorted before l -> StronglySorted (fun x y => String.compare x y = Lt) (map fst l).
Proof.
  induction 1 as [|x l S IH F]; cbn; constructor; [exact IH|]. rewrite Forall_forall in F |- *. intros y I. apply in_map_iff in I. destruct I as (z & <- & I). exact (F z I).
Qed.
Theorem C115_text : forall show ho a k, valid_order ho -> reachable ho a k -> all_readable show a ->
  exists l0 l, Permutation (items ho a) l0 /\ Forall2 (printed_item show) l0 l /\ css_str show ho a = Ok (String.concat "; " (map declaration_text l))
    /\ map fst l = map (fun x => with_dashes (fst x)) l0 /\ StronglySorted (fun x y => String.compare x y = Lt) (map fst l).
Proof.
  change String.concat with join in *.
  intros show ho a k V R RD. unfold css_str.
  assert (SO : StronglySorted before (sort_by_name (map (fun nv => (dashed (fst nv), snd nv)) (items ho a)))) by (apply sort_sorted; rewrite map_map; cbn [fst]; apply items_dashed_nodup, V).
  destruct (Permutation_map_inv (fun nv : string * pyval => (dashed (fst nv), snd nv)) (items ho a) (Permutation_sym (sort_perm (map (fun nv => (dashed (fst nv), snd nv)) (items ho a))))) as (l0 & E & P).
  rewrite E in SO |- *. exists l0. assert (IN : forall x, In x l0 -> exists t, value_str show (snd x) = Ok t).
  { intros [nm v] I. apply (Permutation_in _ (Permutation_sym P)) in I. apply (proj1 (items_in ho a _ _ V)) in I. destruct I as (q & _ & S).
    destruct (stored_accepts ho a k q v V R S) as (v0 & i & j & A). destruct (text_accepted show q i v0 v j 0 A (RD q v S)) as (t & _ & _ & T & _). exists t. exact T. }
  clear E. enough (X : exists l, (Forall2 (printed_item show) l0 l /\ map fst l = map (fun x => with_dashes (fst x)) l0)
    /\ map_res (fun nv => t <-r value_str show (snd nv) ;; Ok (fst nv ++ ": " ++ t)) (map (fun nv : string * pyval => (dashed (fst nv), snd nv)) l0) = Ok (map declaration_text l)).
  { destruct X as (l & [F M] & X). exists l. split; [exact P|]. split; [exact F|]. rewrite X. split; [reflexivity|]. split; [exact M|].
    rewrite M. apply sorted_names in SO. rewrite map_map in SO. erewrite map_ext; [exact SO|]. intros x. cbn [fst]. symmetry. apply dashed_with. }
  clear P SO. induction l0 as [|x l0 IH]; [exists []; split; [split; [constructor|reflexivity]|reflexivity]|].
  destruct (IN x (or_introl eq_refl)) as (t & T). destruct (IH (fun y I => IN y (or_intror I))) as (l & [F N] & M).
  exists ((dashed (fst x), VStr t) :: l). split; [split|].
  - constructor; [|exact F]. split; [right; apply dashed_with|]. exists t. auto.
  - cbn [map fst]. rewrite N, dashed_with. reflexivity.
  - cbn [map map_res fst snd]. rewrite T. cbn [bindr]. rewrite M. reflexivity.
Qed.
Print Assumptions C115_text.
Example C115_example : css_str show_half plain_order printed_css
  = Ok "border-spacing: 2em 7px; clip: rect(1px, 2px, 3px, 4%); color: rgba(0, 170, 255, 1.0); cursor: url(""a.png""), help; float: left; margin-top: -0.5px; quotes: '<' '>'; width: 12px; z-index: -3".
Proof. vm_compute. reflexivity. Qed.

(** ** C116: documents whose declarations are rebuilt from their texts *)
Lemma look_alike p v w : engine_reads p = true -> kind_ok p v -> same_look v w -> val_alike v w.
Proof.
  intros E K L. inversion L as [| | | |u u' [A B]| | | | | |]; subst; try (left; reflexivity);
    try (exfalso; destruct p; try discriminate E; unfold kind_ok in K; cbn in K; decompose [or and ex False] K; discriminate).
  right. exists u, u'. split; [reflexivity|]. split; [reflexivity|]. apply alike_eqb; [exact A|]. destruct B as [B N]. unfold py_num_eqb. rewrite <- B.
  destruct (pval (u_val u)) as [q|[]|]; try reflexivity; [apply qc_eqb_refl|congruence].
Qed.
Theorem C116_layout : forall show ho d html5 n m, valid_order ho -> same_document (rebuilt_from show ho) n m ->
  same_result (layout_css ho d html5 n) (layout_css ho d html5 m).
Proof.
  intros show ho d html5 n m V. apply layouts_same. intros a b (k & l0 & l & node & i & i' & R & RD & P & F & ND & N & U).
  destruct (rebuilt_all show ho a k V R RD l0 l node i P F ND N) as (b' & j & U' & OK & H). rewrite U in U'. injection U' as <- _. unfold declared_style.
  destruct (computed_view ho a V (reachable_stored ho a k V R)) as (s & -> & X), (computed_view ho b V OK) as (t & -> & Y).
  apply shows_alike. intros p v w E A B. apply X in A. apply Y in B. destruct (H p) as (v' & w' & A' & B' & L).
  assert (v' = v) by congruence. assert (w' = w) by congruence. subst v' w'. destruct (engine_plain p E) as (LE & FO & I).
  destruct (reads_kind ho a p V (reachable_stored ho a k V R) LE FO I) as (x & G & K). assert (x = v) by congruence. subst x. exact (look_alike p v w E K L).
Qed.
Print Assumptions C116_layout.
(** Example: a document of one element with the declaration above, and the same
    document with the declaration rebuilt from its text. *)
Definition show_items (c : css) : list (string * pyval) :=
  map (fun nv => (with_dashes (fst nv), match value_str show_half (snd nv) with Ok t => VStr t | Err _ => VNone end)) (items plain_order c).
Example C116_example : exists b, rebuilt_from show_half plain_order printed_css b /\ c_store b L_width <> None.
Proof.
  exists (fst (fst (update plain_order (show_items printed_css) (mkCss (fun _ => None) None) first_free))). split.
  - destruct printed_reachable as (k & R). exists k, (items plain_order printed_css), (show_items printed_css), None, first_free. eexists. split; [exact R|]. split; [exact printed_readable|].
    split; [apply Permutation_refl|]. split.
    + assert (X : Forall (fun nv => exists t, value_str show_half (snd nv) = Ok t) (items plain_order printed_css)).
      { rewrite Forall_forall. intros [nm v] I. apply (proj1 (items_in plain_order _ _ _ plain_valid)) in I. destruct I as (q & _ & S).
        destruct (stored_accepts plain_order _ k q v plain_valid R S) as (v0 & i & j & A). destruct (text_accepted show_half q i v0 v j 0 A (printed_readable q v S)) as (t & _ & _ & T & _). exists t. exact T. }
      unfold show_items. induction X as [|x l (t & T) X IH]; constructor; [|exact IH]. split; [right; reflexivity|]. exists t. split; [exact T|]. cbn [snd]. rewrite T. reflexivity.
    + split; [discriminate|]. split; [apply le_n|]. apply outcome. vm_compute. reflexivity.
  - vm_compute. discriminate.
Qed.

(** ** C117: the text of a border or outline with a colour *)
Lemma split_app a b : split_ws (a ++ " " ++ b) = (split_ws a ++ split_ws b)%list.
Proof.
  assert (H : split_aux (a ++ " " ++ b) = (fst (split_aux a), (snd (split_aux a) ++ split_ws b)%list)).
  { induction a as [|x a IH].
    - cbn [append fst snd split_aux app]. unfold split_ws. destruct (split_aux b). reflexivity.
    - change (String x a ++ " " ++ b) with (String x (a ++ " " ++ b)). cbn [split_aux]. rewrite IH. destruct (split_aux a) as [w ws]. cbn [fst snd].
      destruct (is_space x); [|reflexivity]. cbn [fst snd]. f_equal. destruct w; reflexivity. }
  unfold split_ws at 1 2. rewrite H. destruct (split_aux a) as [w ws]. cbn [fst snd]. destruct w; reflexivity.
Qed.
Lemma split_joined l : split_ws (join " " l) = flat_map split_ws l.
Proof.
  induction l as [|x [|y l] IH]; [reflexivity|cbn [join flat_map]; rewrite app_nil_r; reflexivity|].
  change (join " " (x :: y :: l)) with (x ++ " " ++ join " " (y :: l)). rewrite split_app, IH. reflexivity.
Qed.
Definition rgba_word (r : Z) : string := ("rgba(" ++ show_Z r) ++ ",".
Lemma rgba_word_unit d x : forall r, rgba_word r = d -> py_float d = Ok x -> False.
Proof. intros r <- F. exact (not_float ("rgba(" ++ show_Z r) "," x ltac:(discriminate) eq_refl F). Qed.
Lemma ends_app f a b : b <> "" -> ends_in f (a ++ b) = ends_in f b.
Proof. intros N. induction a as [|c a IH]; [reflexivity|]. cbn [append]. rewrite <- IH. destruct (a ++ b) eqn:E; [destruct a; [contradiction|discriminate]|reflexivity]. Qed.
Lemma word_rejected p n r w n' : (exists s, p = L_border_width s \/ p = L_border_style s \/ p = L_border_color s) \/ p = L_outline_width \/ p = L_outline_style \/ p = L_outline_color ->
  ~ accepts p n (VStr (rgba_word r)) w n'.
Proof.
  intros P A. assert (K : kind_of p = Some LengthK \/ kind_of p = Some ColorK \/ kind_of p = None) by (destruct P as [(s & [->|[->| ->]])|[->|[->| ->]]]; cbn; auto).
  inversion A as [kd v w' ? K' T|s I NS Y|I Y|I Y|D Y]; subst.
  - destruct K as [K|[K|K]]; rewrite K in K'; try discriminate; injection K' as <-; cbn [takes] in T.
    + destruct T as (u & T & _). inversion T as [|z|x|d x F E|d x t k F I E]; subst.
      * exact (rgba_word_unit _ _ r eq_refl F).
      * apply (f_equal (ends_in (Ascii.eqb ","))) in E. unfold rgba_word in E. rewrite (ends_app _ _ "," ltac:(discriminate)) in E.
        cbn in I; repeat (destruct I as [I|I]; [injection I as <- <-; rewrite ends_app in E by discriminate; discriminate E|]); destruct I.
    + assert (E : rgba_word r = "rgba" ++ String "(" (show_Z r ++ String "," "")) by (unfold rgba_word; rewrite app_assoc_s; reflexivity).
      rewrite E, color_rgba_call in T. change (show_Z r) with (join "," [show_Z r]) in T. rewrite split_on_join in T; [discriminate|discriminate|].
      constructor; [|constructor]. apply plain_no_comma, (whole_plain _ r), show_Z_whole.
  - destruct P as [(s & [->|[->| ->]])|[->|[->| ->]]]; cbn in I; repeat (destruct I as [I|I]; [discriminate I|]); destruct I.
Qed.
Theorem C117_border_text : forall show ho sh q o r g b a t c n, valid_order ho -> reachable ho c n ->
  In (CColor, Long q) (valid_keys sh) -> c_store c q = Some (VColor o (Rgb (PI r) g b a)) -> short_str show c sh = Ok t ->
  exists e, set_prop ho (Short sh) (VStr t) c n = (c, n, Err e).
Proof.
  intros show ho sh q o r g b a t c n V R IK S T.
  assert (NSP : all_chars (fun c => negb (is_space c)) (rgba_word r) = true).
  { unfold rgba_word. rewrite !all_chars_app. destruct (whole_plain _ r (show_Z_whole r)) as [_ PL].
    assert (Y : all_chars (fun c => negb (is_space c)) (show_Z r) = true).
    { revert PL. apply all_chars_impl. by_chars (fun c => implb (plain_char c) (negb (is_space c))). intros E. rewrite E in X. exact X. }
    rewrite Y. reflexivity. }
  assert (W : In (rgba_word r) (split_ws t)).
  { unfold short_str in T. destruct (map_res _ _) as [ts|] eqn:M; [|discriminate]. injection T as <-. rewrite split_joined. apply in_flat_map.
    exists (color_str show (Rgb (PI r) g b a)). split.
    - assert (I : In (Long q, VColor o (Rgb (PI r) g b a)) (get_short c sh)).
      { unfold get_short. apply in_flat_map. exists (CColor, Long q). split; [exact IK|]. cbn [snd]. rewrite S. left. reflexivity. }
      revert ts M I. induction (get_short c sh) as [|x l IH]; intros ts M I; [destruct I|]. cbn [map_res] in M.
      destruct (value_str show (snd x)) as [y|] eqn:Y; [|discriminate]. cbn [bindr] in M. destruct (map_res _ l) as [ys|] eqn:YS; [|discriminate]. injection M as <-.
      destruct I as [->|I]; [left; cbn [snd value_str] in Y; injection Y as <-; reflexivity|right; exact (IH ys eq_refl I)].
    - unfold color_str. cbn [num_str]. replace ("rgba(" ++ show_Z r ++ ", " ++ num_str show g ++ ", " ++ num_str show b ++ ", " ++ num_str show a ++ ")")
        with (rgba_word r ++ " " ++ (num_str show g ++ ", " ++ num_str show b ++ ", " ++ num_str show a ++ ")")) by (unfold rgba_word; rewrite !app_assoc_s; reflexivity).
      rewrite split_app. apply in_or_app. left. change (rgba_word r) with (join " " [rgba_word r]) at 2. rewrite split_join; [left; reflexivity|]. constructor; [|constructor].
      split; [discriminate|exact NSP]. }
  cbn [set_prop]. unfold set_short, parse_shorthand. destruct (shorthand_values (VStr t)) as [l|e] eqn:SV; cbn [bindr]; [|eexists; reflexivity].
  destruct (parse_parts (ho_set ho) (table_of sh) 3 n no_parts l) as [[d n']|e] eqn:P; [|eexists; reflexivity]. exfalso.
  destruct (parse_parts_assign ho V sh l _ _ _ _ _ P) as (asg & F & _).
  assert (I : In (VStr (rgba_word r)) l).
  { unfold shorthand_values in SV. destruct (Values.truthy (VStr t)); [|discriminate]. injection SV as <-. apply in_map_iff. exists (rgba_word r). split; [|exact W].
    f_equal. transitivity (strip ("" ++ rgba_word r ++ "")); [f_equal; cbn [append]; symmetry; apply app_nil_r_s|]. apply strip_spaces; [reflexivity|reflexivity|]. apply trimmed_all. exact NSP. }
  assert (X : exists k w i j, validate (ho_set ho) (comp_choices sh k) i (VStr (rgba_word r)) = Ok (w, j)).
  { clear - F I. induction F as [|k x asg l (w & i & j & X & _) F IH]; [destruct I|]. destruct I as [->|I]; [eauto|exact (IH I)]. }
  destruct X as (k & w & i & j & X). destruct sh, k; cbn [comp_choices] in X;
  first [apply (proj1 (validate_accepts ho L_outline_width i _ w j V)) in X | apply (proj1 (validate_accepts ho L_outline_style i _ w j V)) in X
        | apply (proj1 (validate_accepts ho L_outline_color i _ w j V)) in X | apply (proj1 (validate_accepts ho (L_border_width STop) i _ w j V)) in X
        | apply (proj1 (validate_accepts ho (L_border_style STop) i _ w j V)) in X | apply (proj1 (validate_accepts ho (L_border_color STop) i _ w j V)) in X];
  revert X; apply word_rejected; eauto 6.
Qed.
Print Assumptions C117_border_text.
Definition outlined_css : css := fst (run_ops plain_order [OpSet (Short S_outline) (VStr "solid 2px #0af")] fresh_css first_free).
Example C117_example : exists n o, reachable plain_order outlined_css n /\ In (CColor, Long L_outline_color) (valid_keys S_outline)
  /\ (exists a, c_store outlined_css L_outline_color = Some (VColor o (Rgb (PI 0) (PI 170) (PI 255) a)))
  /\ short_str show_half outlined_css S_outline = Ok "rgba(0, 170, 255, 1.0) solid 2px".
Proof.
  eexists. eexists. split; [eexists; unfold outlined_css; apply surjective_pairing|]. split; [left; reflexivity|]. split; [eexists; vm_compute; reflexivity|]. vm_compute. reflexivity.
Qed.
