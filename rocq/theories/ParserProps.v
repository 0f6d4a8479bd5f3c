(** * Properties C31-C36, C93-C96: cursors, URLs, shapes, spacings, quotes, immutable lists *)
From Coq Require Import ZArith Bool String Ascii List Lia.
From Verif Require Import PyNum Units PyStr StrFacts TextFacts Values Parser Wrappers ColorSpec ColorText ParserSpec ParserFacts.
Import ListNotations.
Open Scope string_scope.
Open Scope Z_scope.

(** ** C32: URLs *)
Lemma url_text_body p body q : spaces p -> spaces q ->
  uri_text (p ++ ("url(" ++ body ++ ")") ++ q) =
    (let v := strip body in
     if startswith "'" v && endswith "'" v then Ok (inner 1 v)
     else if startswith """" v && endswith """" v then Ok (inner 1 v)
     else Ok v).
Proof.
  intros P Q. unfold uri_text. rewrite (strip_spaces p _ q P Q).
  - assert (startswith "url(" ("url(" ++ body ++ ")") = true) as -> by apply startswith_app.
    assert (endswith ")" ("url(" ++ body ++ ")") = true) as -> by (apply endswith_spec; exists ("url(" ++ body); rewrite app_assoc_s; reflexivity).
    cbn [andb]. assert (inner 4 ("url(" ++ body ++ ")") = body) as ->; [|reflexivity].
    unfold inner. rewrite <- app_assoc_s. change ")" with (String ")" ""). rewrite drop_end_1. reflexivity.
  - apply trim_trimmed. apply (trim_wrapped "u" ("rl(" ++ body) ")"); reflexivity.
Qed.
Lemma quoted_true q s : quoted_by q s <-> startswith q s = true /\ endswith q s = true.
Proof. unfold quoted_by. rewrite startswith_spec, endswith_spec. reflexivity. Qed.
Lemma not_quoted q s : ~ quoted_by q s -> (startswith q s && endswith q s)%bool = false.
Proof. intros N. destruct (startswith q s && endswith q s)%bool eqn:E; [|reflexivity]. exfalso. apply N, quoted_true. apply andb_prop in E. exact E. Qed.
Lemma inner_wrapped a x b : inner 1 (String a (x ++ String b "")) = x.
Proof. unfold inner. change (String a (x ++ String b "")) with (String a x ++ String b ""). rewrite drop_end_1. reflexivity. Qed.
Lemma body_value body x : url_body body x ->
  (let v := strip body in
   if startswith "'" v && endswith "'" v then Ok (inner 1 v)
   else if startswith """" v && endswith """" v then Ok (inner 1 v)
   else Ok v) = Ok x.
Proof.
  intros (p & q & P & Q & [->|[->|[-> [T [N1 N2]]]]]); cbv zeta.
  - rewrite (strip_spaces p _ q P Q) by (apply trim_trimmed; apply (trim_wrapped "'" x "'"); reflexivity).
    assert (quoted_by q1 (q1 ++ x ++ q1)) as X by (split; [eexists; reflexivity|exists (q1 ++ x); rewrite app_assoc_s; reflexivity]).
    apply quoted_true in X. destruct X as [X1 X2]. change "'" with q1. rewrite X1, X2. cbn [andb]. f_equal. apply (inner_wrapped "'" x "'").
  - rewrite (strip_spaces p _ q P Q) by (apply trim_trimmed; apply (trim_wrapped """" x """"); reflexivity).
    change (startswith "'" (q2 ++ x ++ q2)) with false. cbn [andb].
    assert (quoted_by q2 (q2 ++ x ++ q2)) as X by (split; [eexists; reflexivity|exists (q2 ++ x); rewrite app_assoc_s; reflexivity]).
    apply quoted_true in X. destruct X as [X1 X2]. change """" with q2. rewrite X1, X2. cbn [andb]. f_equal. apply (inner_wrapped """" x """").
  - rewrite (strip_spaces p _ q P Q (trim_trimmed _ T)). change "'" with q1. change """" with q2. rewrite (not_quoted _ _ N1), (not_quoted _ _ N2). reflexivity.
Qed.
Theorem C32_spelling n s body x : url_around s body -> url_body body x -> uri n (VStr s) = Ok (VUri (OId n) x, S n).
Proof. intros (p & q & P & Q & ->) B. unfold uri. rewrite (url_text_body p body q P Q), (body_value _ _ B). reflexivity. Qed.
Print Assumptions C32_spelling.
Example C32_example : url_around " url( 'a.png') " " 'a.png'" /\ url_body " 'a.png'" "a.png" /\ url_body "a.png" "a.png"
  /\ uri 7 (VStr " url( 'a.png') ") = Ok (VUri (OId 7) "a.png", 8%nat).
Proof.
  split; [exists " ", " "; repeat split|]. split; [exists " ", ""; repeat split; left; reflexivity|]. split; [|vm_compute; reflexivity].
  exists "", "". split; [reflexivity|]. split; [reflexivity|]. right. right. split; [reflexivity|]. split; [split; intros c E; vm_compute in E; injection E as <-; reflexivity|].
  split; intros H; apply quoted_true in H; destruct H as [H _]; discriminate.
Qed.
Theorem C32_round_trip n o x t : uri_str (VUri o x) = Ok t -> uri n (VStr t) = Ok (VUri (OId n) x, S n).
Proof.
  intros H. injection H as <-. apply (C32_spelling n _ (q2 ++ x ++ q2) x).
  - exists "", "". split; [reflexivity|]. split; [reflexivity|]. cbn [append]. rewrite app_nil_r_s. unfold q2. rewrite !app_assoc_s. reflexivity.
  - exists "", "". split; [reflexivity|]. split; [reflexivity|]. right. left. cbn [append]. rewrite app_nil_r_s. reflexivity.
Qed.
Print Assumptions C32_round_trip.
(** C32: the url attribute of the object is the text of the spelling, and the object prints as a spelling of it. *)
Theorem C32_url n s body x v m : url_around s body -> url_body body x -> uri n (VStr s) = Ok (v, m) ->
  uri_url v = Ok x /\ exists t, uri_str v = Ok t /\ url_around t (q2 ++ x ++ q2).
Proof.
  intros A B. rewrite (C32_spelling n s body x A B). intros H. injection H as <- <-. split; [reflexivity|]. eexists. split; [reflexivity|].
  exists "", "". split; [reflexivity|]. split; [reflexivity|]. cbn [append]. rewrite app_nil_r_s. unfold q2. rewrite !app_assoc_s. reflexivity.
Qed.
Print Assumptions C32_url.
Example C32_round_trip_example : exists t, uri_str (VUri (OId 0) "it's ""quoted"" ") = Ok t /\ uri 3 (VStr t) = Ok (VUri (OId 3) "it's ""quoted"" ", 4%nat).
Proof. exists ("url(" ++ q2 ++ "it's ""quoted"" " ++ q2 ++ ")"). split; vm_compute; reflexivity. Qed.
Lemma shaped_accepts s : url_shaped s <-> exists x, uri_text s = Ok x.
Proof.
  split.
  - intros (body & p & q & P & Q & ->). rewrite (url_text_body p body q P Q). cbv zeta. destruct (_ && _)%bool; [eexists; reflexivity|]. destruct (_ && _)%bool; eexists; reflexivity.
  - intros (x & H). unfold uri_text in H. destruct (strip_split s) as (p & q & P & Q & E). set (v := strip s) in *. clearbody v.
    destruct (startswith "url(" v && endswith ")" v)%bool eqn:T; [|discriminate]. apply andb_prop in T. destruct T as [T1 T2].
    apply startswith_spec in T1. destruct T1 as (r & ->). apply endswith_spec in T2. destruct T2 as (b & T2).
    assert (exists body, r = body ++ ")") as (body & ->).
    { destruct (app_split _ _ _ _ T2) as [(z & Z & _)|(z & NZ & Z & W)]; [exists z; exact Z|].
      exfalso. destruct z as [|c z]; [congruence|]. injection Z as <- Z. destruct z; [|discriminate]. apply (f_equal last_char) in W. rewrite last_app in W. discriminate. }
    exists body, p, q. auto.
Qed.
Theorem C32_accepts n s : ((exists r, uri n (VStr s) = Ok r) <-> url_shaped s) /\ (~ url_shaped s -> uri n (VStr s) = Err ValueError).
Proof.
  rewrite shaped_accepts. unfold uri. split; [split|].
  - intros (r & H). destruct (uri_text s) as [x|]; [exists x; reflexivity|discriminate].
  - intros (x & ->). eexists. reflexivity.
  - intros N. destruct (uri_text s) as [x|e] eqn:E; [exfalso; apply N; eexists; reflexivity|]. unfold uri_text in E.
    destruct (_ && _)%bool in E; [destruct (_ && _)%bool in E; [discriminate|destruct (_ && _)%bool in E; discriminate]|]. injection E as <-. reflexivity.
Qed.
Print Assumptions C32_accepts.
Example C32_accepts_example : url_shaped "url(x)y)" /\ ~ url_shaped "url (x)".
Proof.
  split; [exists "x)y", "", ""; repeat split|]. intros H. apply shaped_accepts in H. destruct H as (x & H). vm_compute in H. discriminate.
Qed.

(** ** C31: cursors *)
Lemma option_is v : is_cursor_option v = true <-> keyword_value v.
Proof.
  unfold is_cursor_option, keyword_value. rewrite existsb_exists. split.
  - intros (k & I & E). destruct v; try discriminate. cbn in E. apply String.eqb_eq in E. subst s. exists k. split; [reflexivity|].
    cbn in I. repeat destruct I as [<-|I]; try contradiction; cbn; tauto.
  - intros (k & -> & I). exists k. split; [|apply String.eqb_refl]. cbn in I. repeat destruct I as [<-|I]; try contradiction; cbn; tauto.
Qed.
Lemma uri_value n v : ((exists r, uri n v = Ok r) <-> url_value v) /\ (forall e, uri n v = Err e -> e = ValueError).
Proof.
  unfold url_value. destruct v; try (split; [split; [intros (r & H); discriminate|intros (t & H & _); discriminate]|intros e H; injection H as <-; reflexivity]).
  destruct (C32_accepts n s) as [A B]. split.
  - rewrite A. split; [intros H; exists s; auto|intros (t & E & H); injection E as ->; exact H].
  - intros e H. assert (~ url_shaped s) as N by (intros X; apply A in X; destruct X; congruence). rewrite (B N) in H. congruence.
Qed.
Lemma option_not_url v : keyword_value v -> ~ url_value v.
Proof.
  intros (k & -> & I) (s & E & H). injection E as <-. apply shaped_accepts in H. destruct H as (x & H).
  cbn in I. repeat destruct I as [<-|I]; try contradiction; vm_compute in H; discriminate.
Qed.
(** one parsed item: the keyword itself, or the URL the text denotes *)
Definition item_of (v item : pyval) : Prop := (keyword_value v /\ item = v) \/ (exists k, uri k v = Ok (item, S k)).
Lemma uri_next n v r : uri n v = Ok r -> snd r = S n.
Proof. destruct v; try discriminate. cbn. destruct (uri_text s); [|discriminate]. cbn. intros H. injection H as <-. reflexivity. Qed.
Lemma items_seen n l r : cursor_items n true l = Ok r -> l = [].
Proof. destruct l as [|v l]; [reflexivity|]. cbn [cursor_items]. destruct (is_cursor_option v); discriminate. Qed.
Lemma items_ok n l r : cursor_items n false l = Ok r -> cursor_list l /\ Forall2 item_of l (fst r).
Proof.
  revert n r. induction l as [|v l IH]; intros n r H.
  - injection H as <-. split; [exists [], []; repeat split; [constructor|left; reflexivity]|constructor].
  - cbn [cursor_items] in H. destruct (is_cursor_option v) eqn:O.
    + destruct (cursor_items n true l) as [x|] eqn:X; [|discriminate]. injection H as <-. pose proof (items_seen _ _ _ X) as ->. injection X as <-. apply option_is in O. split.
      * exists [], [v]. split; [reflexivity|]. split; [constructor|]. right. exists v. auto.
      * cbn [fst]. constructor; [left; auto|constructor].
    + destruct (uri n v) as [u|e] eqn:U; [|unfold try_value in H; destruct (is_value_error e); discriminate]. cbn [try_value bindr] in H.
      destruct (cursor_items (snd u) false l) as [x|] eqn:X; [|discriminate]. injection H as <-. destruct (IH _ _ X) as [(us & ks & -> & F & K) G]. split.
      * exists (v :: us), ks. split; [reflexivity|]. split; [|exact K]. constructor; [|exact F]. apply (proj1 (uri_value n v)). eexists. exact U.
      * cbn [fst]. constructor; [|exact G]. right. exists n. rewrite U. pose proof (uri_next _ _ _ U) as N. destruct u as [a b]. cbn in *. congruence.
Qed.
Lemma items_complete n us ks : Forall url_value us -> (ks = [] \/ exists k, ks = [k] /\ keyword_value k) -> exists r, cursor_items n false (us ++ ks) = Ok r.
Proof.
  intros F K. revert n. induction F as [|v us V F IH]; intros n; cbn [app].
  - destruct K as [->|(k & -> & K)]; [eexists; reflexivity|]. apply option_is in K. cbn [cursor_items]. rewrite K. eexists. reflexivity.
  - cbn [cursor_items]. destruct (is_cursor_option v) eqn:O; [apply option_is in O; destruct (option_not_url _ O V)|].
    destruct (proj2 (proj1 (uri_value n v)) V) as (u & U). rewrite U. cbn [try_value bindr]. destruct (IH (snd u)) as (x & ->). eexists. reflexivity.
Qed.
Lemma items_err n b l e : cursor_items n b l = Err e -> e = ValueError.
Proof.
  revert n b. induction l as [|v l IH]; intros n b H; [discriminate|]. cbn [cursor_items] in H. destruct (is_cursor_option v).
  - destruct b; [congruence|]. destruct (cursor_items n true l) eqn:X; [discriminate|]. cbn in H. injection H as <-. exact (IH _ _ X).
  - destruct b; [congruence|]. destruct (uri n v) as [u|e'] eqn:U.
    + cbn [try_value bindr] in H. destruct (cursor_items (snd u) false l) eqn:X; [discriminate|]. cbn in H. injection H as <-. exact (IH _ _ X).
    + apply (proj2 (uri_value n v)) in U. subst e'. cbn in H. congruence.
Qed.
Theorem C31_sequence n v l : members v l ->
  ((exists r, cursor n v = Ok r) <-> cursor_list l)
  /\ (~ cursor_list l -> cursor n v = Err ValueError)
  /\ (forall c m, cursor n v = Ok (c, m) -> exists items, c = VCursor items /\ Forall2 item_of l items).
Proof.
  intros M. destruct (sequence_members _ _ M) as [_ I].
  assert (C : cursor n v = (x <-r cursor_items n false l ;; Ok (VCursor (fst x), snd x))).
  { destruct M as [->|[->| ->]]; reflexivity. }
  rewrite C. clear C.
  assert (A : (exists r, (x <-r cursor_items n false l ;; Ok (VCursor (fst x), snd x)) = Ok r) <-> cursor_list l).
  { split.
    - intros (r & H). destruct (cursor_items n false l) as [x|] eqn:X; [|discriminate]. apply (proj1 (items_ok _ _ _ X)).
    - intros (us & ks & -> & F & K). destruct (items_complete n us ks F K) as (r & ->). eexists. reflexivity. }
  split; [exact A|]. split.
  - intros N. destruct (cursor_items n false l) as [x|e] eqn:X; [exfalso; apply N, A; eexists; reflexivity|]. cbn. f_equal. exact (items_err _ _ _ _ X).
  - intros c m H. destruct (cursor_items n false l) as [x|] eqn:X; [|discriminate]. injection H as <- _. exists (fst x). split; [reflexivity|]. apply (proj2 (items_ok _ _ _ X)).
Qed.
Print Assumptions C31_sequence.
Example C31_example : cursor_list [VStr "url(a)"; VStr "url('b')"; VStr "wait"] /\ ~ cursor_list [VStr "wait"; VStr "url(a)"].
Proof.
  split.
  - exists [VStr "url(a)"; VStr "url('b')"], [VStr "wait"]. split; [reflexivity|]. split.
    + constructor; [exists "url(a)"; split; [reflexivity|exists "a", "", ""; repeat split]|].
      constructor; [exists "url('b')"; split; [reflexivity|exists "'b'", "", ""; repeat split]|constructor].
    + right. exists (VStr "wait"). split; [reflexivity|]. exists "wait". split; [reflexivity|]. cbn. tauto.
  - intros H. apply (proj1 (C31_sequence 0 (VList _) _ (or_intror (or_introl eq_refl)))) in H. destruct H as (r & H). vm_compute in H. discriminate.
Qed.
(** a comma separated text: its pieces, blanks around them ignored *)
Theorem C31_text n ts ps : ts <> [] -> Forall2 (fun t p => no_comma p = true /\ trim_ends t /\ exists a b, spaces a /\ spaces b /\ p = a ++ t ++ b) ts ps ->
  cursor n (VStr (String.concat "," ps)) = cursor n (VList (map VStr ts)).
Proof.
  change String.concat with join in *.
  intros N F. unfold cursor. assert (split_on "," (join "," ps) = ps) as ->.
  { apply split_on_join; [intros ->; inversion F; congruence|]. clear N. induction F as [|t p ts ps [H _] F IH]; constructor; auto. }
  assert (map (fun x => VStr (strip x)) ps = map VStr ts) as ->; [|reflexivity].
  clear N. induction F as [|t p ts ps (_ & T & a & b & A & B & ->) F IH]; [reflexivity|]. cbn [map]. rewrite IH, (strip_spaces a t b A B (trim_trimmed _ T)). reflexivity.
Qed.
Print Assumptions C31_text.
Example C31_text_example : cursor 0 (VStr "url(a) , url(b),wait ") = cursor 0 (VList [VStr "url(a)"; VStr "url(b)"; VStr "wait"]).
Proof. vm_compute. reflexivity. Qed.

(** ** C33, C93: rect() *)
Lemma plain_word t : plain t -> word t.
Proof.
  intros [N A]. split; [exact N|]. unfold no_space. revert A. apply all_chars_impl. intros c H. unfold plain_char in H. rewrite ws_is in H.
  destruct (is_space c); [discriminate|reflexivity].
Qed.
Lemma plain_not t c : plain_char c = false -> plain t -> all_chars (fun d => negb (Ascii.eqb c d)) t = true.
Proof.
  intros C [_ A]. revert A. apply all_chars_impl. intros d D. apply negb_true_iff. destruct (Ascii.eqb_spec c d) as [->|]; [congruence|reflexivity].
Qed.
Lemma spaces_not s c : ws c = false -> spaces s -> all_chars (fun d => negb (Ascii.eqb c d)) s = true.
Proof. intros C. apply all_chars_impl. intros d D. apply negb_true_iff. destruct (Ascii.eqb_spec c d) as [->|]; [congruence|reflexivity]. Qed.
(** what rect() does with the normalised text between the parentheses *)
Definition rect_values (v : string) : res pyval :=
  let values :=
    if Nat.eqb (count "," v) 3 then Some (split_on "," v)
    else if Nat.eqb (count "," v) 0 && Nat.eqb (count " " v) 3 then Some (split_on " " v)
    else None in
  match values with
  | Some [a; b; c; d] =>
      a <-r units (VStr (strip a)) ;; b <-r units (VStr (strip b)) ;;
      c <-r units (VStr (strip c)) ;; d <-r units (VStr (strip d)) ;; Ok (VRect a b c d)
  | _ => Err ValueError
  end.
Lemma rect_body s B : join " " (split_ws s) = "rect(" ++ B ++ ")" ->
  all_chars (fun d => negb (Ascii.eqb "(" d)) B = true -> all_chars (fun d => negb (Ascii.eqb ")" d)) B = true -> rect (VStr s) = rect_values (strip B).
Proof.
  intros E L R. unfold rect. rewrite (map_strip_words _ (split_ws_words s)), E.
  assert (startswith "rect(" ("rect(" ++ B ++ ")") = true) as -> by apply startswith_app.
  assert (endswith ")" ("rect(" ++ B ++ ")") = true) as -> by (apply endswith_spec; exists ("rect(" ++ B); rewrite app_assoc_s; reflexivity).
  assert (LB : all_chars (fun d => negb (Ascii.eqb "(" d)) (B ++ ")") = true) by (rewrite all_chars_app, L; reflexivity).
  rewrite count_rect_head, (count_rect_none _ LB). rewrite (count_char ")"). change ("rect(" ++ B ++ ")") with ("rect(" ++ (B ++ ")")) at 1.
  rewrite !occurrences_app, (occurrences_none ")" B R). cbn [occurrences Ascii.eqb Bool.eqb Nat.add Nat.eqb andb].
  cbv zeta. rewrite remove_rect_head, (count_zero_remove "rect(" _ (count_rect_none _ LB)), (remove_last ")" B R). reflexivity.
Qed.
Lemma rect_text_norm body : join " " (split_ws ("rect(" ++ body ++ ")")) = "rect(" ++ sq body ++ ")".
Proof.
  pose proof (normal "" ("rect(" ++ body ++ ")") "") as H. rewrite (app_nil_r_s ("rect(" ++ body ++ ")")) in H. cbn [append] in H.
  assert (S : sq ("rect(" ++ body ++ ")") = "rect(" ++ sq body ++ ")").
  { rewrite sq_app_left by reflexivity. rewrite (sq_app_right body ")") by reflexivity. reflexivity. }
  cbn [append] in S |- *. rewrite H.
  - exact S.
  - reflexivity.
  - reflexivity.
  - reflexivity.
  - discriminate.
  - change (String "r" (String "e" (String "c" (String "t" (String "(" (body ++ ")")))))) with ("rect(" ++ (body ++ ")")). rewrite <- app_assoc_s.
    unfold ends_blank. rewrite ends_in_app_inv by discriminate. reflexivity.
  - rewrite S. apply last_rstrip. intros c X. change (String "r" (String "e" (String "c" (String "t" (String "(" (sq body ++ ")")))))) with (("rect(" ++ sq body) ++ String ")" "") in X.
    rewrite last_app in X. injection X as <-. reflexivity.
Qed.
Definition padded (t x : string) : Prop := exists p q, spaces p /\ spaces q /\ x = p ++ t ++ q.
Lemma sq_padded p t q : spaces p -> spaces q -> word t -> sq (p ++ t ++ q) = pad1 p ++ t ++ pad1 q.
Proof.
  intros P Q [N W]. assert (NB : no_space t = true) by exact W.
  assert (S : starts_blank (t ++ q) = false). { rewrite starts_blank_app. destruct t as [|c t]; [congruence|]. unfold no_space in W. cbn in W. apply andb_prop in W. destruct W as [W _]. apply negb_true_iff, W. }
  assert (E : ends_blank t = false).
  { destruct (ends_blank t) eqn:X; [|reflexivity]. exfalso. apply (ends_in_contra _ is_space t (ends_in_all _ _ NB N)); [|exact X]. intros c H. apply negb_true_iff, H. }
  rewrite (sq_app_right p _ S), (sq_app_left t q E), (sq_spaces p P), (sq_spaces q Q), (sq_nospace t NB). reflexivity.
Qed.
Lemma rstrip_word_end a t : word t -> rstrip_by is_space (a ++ t) = a ++ t.
Proof.
  intros [N W]. apply last_rstrip. intros c E. assert (X : ends_in (fun c => negb (is_space c)) (a ++ t) = true) by (apply ends_in_app, ends_in_all; assumption).
  clear -E X. induction (a ++ t) as [|d s IH]; [discriminate|]. destruct s as [|e s]; [cbn in *; injection E as <-; apply negb_true_iff, X|]. apply IH; assumption.
Qed.
Lemma strip_padded t x : word t -> padded t x -> strip x = t.
Proof.
  intros W (p & q & P & Q & ->). apply (strip_spaces p t q P Q). split.
  - destruct t as [|c t]; [exact I|]. destruct W as [_ W]. unfold no_space in W. cbn in W. apply andb_prop in W. destruct W as [W _]. apply negb_true_iff, W.
  - pose proof (rstrip_word_end "" t W) as R. exact R.
Qed.
Lemma trimmed_words a t m u : word t -> word u -> a = t ++ m ++ u -> trimmed is_space a.
Proof.
  intros [N W] U ->. split.
  - destruct t as [|c t]; [congruence|]. cbn. unfold no_space in W. cbn in W. apply andb_prop in W. destruct W as [W _]. apply negb_true_iff, W.
  - rewrite <- app_assoc_s. apply rstrip_word_end, U.
Qed.
Lemma app_comma a b : a ++ "," ++ b = a ++ String "," b.
Proof. reflexivity. Qed.
Theorem C93_commas ta tb tc td a b c d xa xb xc xd :
  length_text ta a -> length_text tb b -> length_text tc c -> length_text td d ->
  padded ta xa -> padded tb xb -> padded tc xc -> padded td xd ->
  exists v, rect (VStr ("rect(" ++ String.concat "," [xa; xb; xc; xd] ++ ")")) = Ok v
    /\ rect_top v = Ok a /\ rect_right v = Ok b /\ rect_left v = Ok c /\ rect_bottom v = Ok d.
Proof.
  change String.concat with join in *.
  intros [LA UA] [LB UB] [LC UC] [LD UD] (pa & qa & PA & QA & ->) (pb & qb & PB & QB & ->) (pc & qc & PC & QC & ->) (pd & qd & PD & QD & ->).
  exists (VRect a b c d). split; [|repeat split].
  pose proof (plain_word _ LA) as WA. pose proof (plain_word _ LB) as WB. pose proof (plain_word _ LC) as WC. pose proof (plain_word _ LD) as WD.
  set (ya := ta ++ pad1 qa). set (yb := pad1 pb ++ tb ++ pad1 qb). set (yc := pad1 pc ++ tc ++ pad1 qc). set (yd := pad1 pd ++ td).
  assert (S : sq (join "," [pa ++ ta ++ qa; pb ++ tb ++ qb; pc ++ tc ++ qc; pd ++ td ++ qd]) = pad1 pa ++ join "," [ya; yb; yc; yd] ++ pad1 qd).
  { cbn [join]. rewrite (sq_app_right (pa ++ ta ++ qa)) by reflexivity. rewrite (sq_app_left ",") by reflexivity.
    rewrite (sq_app_right (pb ++ tb ++ qb)) by reflexivity. rewrite (sq_app_left ",") by reflexivity.
    rewrite (sq_app_right (pc ++ tc ++ qc)) by reflexivity. rewrite (sq_app_left ",") by reflexivity.
    rewrite !sq_padded by assumption. change (sq ",") with ",". unfold ya, yb, yc, yd. rewrite !app_assoc_s. reflexivity. }
  assert (NC : Forall (fun t => no_comma t = true) [ya; yb; yc; yd] /\ Forall (fun t => all_chars (fun d => negb (Ascii.eqb "," d)) t = true) [ya; yb; yc; yd]).
  { assert (G : Forall (fun t => all_chars (fun d => negb (Ascii.eqb "," d)) t = true) [ya; yb; yc; yd]).
    { assert (forall p t q, plain t -> all_chars (fun d => negb (Ascii.eqb "," d)) (pad1 p ++ t ++ pad1 q) = true) as G.
      { intros p t q L. rewrite !all_chars_app, (plain_not _ "," eq_refl L), !pad1_chars by reflexivity. reflexivity. }
      constructor; [exact (G "" ta qa LA)|]. constructor; [exact (G pb tb qb LB)|]. constructor; [exact (G pc tc qc LC)|]. constructor; [|constructor].
      pose proof (G pd td "" LD) as X. change (pad1 "") with "" in X. rewrite app_nil_r_s in X. exact X. }
    split; [|exact G]. revert G. apply Forall_impl. intros t. unfold no_comma. apply all_chars_impl. intros x. cbv beta. rewrite (Ascii.eqb_sym "," x). auto. }
  destruct NC as [NC NC'].
  assert (PN : forall x : ascii, plain_char x = false -> Ascii.eqb x "," = false -> ws x = false ->
    all_chars (fun d => negb (Ascii.eqb x d)) (pad1 pa ++ join "," [ya; yb; yc; yd] ++ pad1 qd) = true).
  { intros x X1 X2 X3. cbn [join]. unfold ya, yb, yc, yd. rewrite !all_chars_app, (plain_not ta x X1 LA), (plain_not tb x X1 LB), (plain_not tc x X1 LC), (plain_not td x X1 LD). assert (XB : (fun d => negb (Ascii.eqb x d)) " "%char = true) by (cbv beta; destruct (Ascii.eqb_spec x " ") as [->|]; [discriminate|reflexivity]). rewrite !(pad1_chars _ _ XB).
    cbn [all_chars]. rewrite X2. reflexivity. }
  rewrite (rect_body _ (pad1 pa ++ join "," [ya; yb; yc; yd] ++ pad1 qd)).
  2: { rewrite rect_text_norm, S. reflexivity. }
  2: { apply PN; reflexivity. }
  2: { apply PN; reflexivity. }
  rewrite (strip_spaces (pad1 pa) _ (pad1 qd) (spaces_pad1 pa) (spaces_pad1 qd)).
  2: { apply (trimmed_words _ ta (pad1 qa ++ "," ++ yb ++ "," ++ yc ++ "," ++ pad1 pd) td WA WD). cbn [join]. unfold ya, yd. rewrite !app_assoc_s. reflexivity. }
  unfold rect_values. rewrite (count_char ","), (split_on_join [ya; yb; yc; yd] ltac:(discriminate) NC).
  assert (occurrences "," (join "," [ya; yb; yc; yd]) = 3%nat) as ->.
  { inversion NC' as [|? ? A1 N1]; subst. inversion N1 as [|? ? A2 N2]; subst. inversion N2 as [|? ? A3 N3]; subst. inversion N3 as [|? ? A4 N4]; subst.
    cbn [join]. rewrite !occurrences_app, (occurrences_none "," ya), (occurrences_none "," yb), (occurrences_none "," yc), (occurrences_none "," yd) by assumption. reflexivity. }
  cbn [Nat.eqb].
  rewrite (strip_padded ta ya WA), (strip_padded tb yb WB), (strip_padded tc yc WC), (strip_padded td yd WD).
  - rewrite UA, UB, UC, UD. reflexivity.
  - exists (pad1 pd), "". split; [apply spaces_pad1|]. split; [reflexivity|]. unfold yd. rewrite app_nil_r_s. reflexivity.
  - exists (pad1 pc), (pad1 qc). auto using spaces_pad1.
  - exists (pad1 pb), (pad1 qb). auto using spaces_pad1.
  - exists "", (pad1 qa). split; [reflexivity|]. auto using spaces_pad1.
Qed.
Print Assumptions C93_commas.
Lemma pad1_nonempty p : p <> "" -> pad1 p = " ".
Proof. destruct p; [congruence|reflexivity]. Qed.
Lemma word_no_sp t : word t -> all_chars (fun d => negb (Ascii.eqb " " d)) t = true.
Proof. intros [_ W]. revert W. apply all_chars_impl. intros c H. destruct (Ascii.eqb_spec " " c) as [<-|]; [discriminate|reflexivity]. Qed.
Theorem C93_blanks ta tb tc td a b c d p0 s1 s2 s3 p4 :
  length_text ta a -> length_text tb b -> length_text tc c -> length_text td d ->
  spaces p0 -> spaces s1 -> spaces s2 -> spaces s3 -> spaces p4 -> s1 <> "" -> s2 <> "" -> s3 <> "" ->
  exists v, rect (VStr ("rect(" ++ (p0 ++ ta ++ s1 ++ tb ++ s2 ++ tc ++ s3 ++ td ++ p4) ++ ")")) = Ok v
    /\ rect_top v = Ok a /\ rect_right v = Ok b /\ rect_left v = Ok c /\ rect_bottom v = Ok d.
Proof.
  intros [LA UA] [LB UB] [LC UC] [LD UD] P0 S1 S2 S3 P4 N1 N2 N3. exists (VRect a b c d). split; [|repeat split].
  pose proof (plain_word _ LA) as WA. pose proof (plain_word _ LB) as WB. pose proof (plain_word _ LC) as WC. pose proof (plain_word _ LD) as WD.
  assert (SB : forall t r, word t -> starts_blank (t ++ r) = false).
  { intros t r [N W]. rewrite starts_blank_app. destruct t as [|x t]; [congruence|]. unfold no_space in W. cbn in W. apply andb_prop in W. destruct W as [W _]. apply negb_true_iff, W. }
  assert (EB : forall t, word t -> ends_blank t = false).
  { intros t [N W]. destruct (ends_blank t) eqn:X; [|reflexivity]. exfalso. apply (ends_in_contra _ is_space t (ends_in_all _ _ W N)); [|exact X]. intros x H. apply negb_true_iff, H. }
  assert (S : sq (p0 ++ ta ++ s1 ++ tb ++ s2 ++ tc ++ s3 ++ td ++ p4) = pad1 p0 ++ join " " [ta; tb; tc; td] ++ pad1 p4).
  { rewrite (sq_app_right p0) by (apply SB, WA). rewrite (sq_app_left ta) by (apply EB, WA). rewrite (sq_app_right s1) by (apply SB, WB). rewrite (sq_app_left tb) by (apply EB, WB).
    rewrite (sq_app_right s2) by (apply SB, WC). rewrite (sq_app_left tc) by (apply EB, WC). rewrite (sq_app_right s3) by (apply SB, WD). rewrite (sq_app_left td) by (apply EB, WD).
    rewrite (sq_spaces p0 P0), (sq_spaces s1 S1), (sq_spaces s2 S2), (sq_spaces s3 S3), (sq_spaces p4 P4). rewrite (pad1_nonempty s1), (pad1_nonempty s2), (pad1_nonempty s3) by assumption.
    rewrite (sq_nospace ta), (sq_nospace tb), (sq_nospace tc), (sq_nospace td) by (first [apply WA|apply WB|apply WC|apply WD]). cbn [join]. rewrite !app_assoc_s. reflexivity. }
  assert (PN : forall x : ascii, plain_char x = false -> Ascii.eqb x " " = false ->
    all_chars (fun d => negb (Ascii.eqb x d)) (pad1 p0 ++ join " " [ta; tb; tc; td] ++ pad1 p4) = true).
  { intros x X1 X2. cbn [join]. rewrite !all_chars_app, (plain_not ta x X1 LA), (plain_not tb x X1 LB), (plain_not tc x X1 LC), (plain_not td x X1 LD). assert (XB : (fun d => negb (Ascii.eqb x d)) " "%char = true) by (cbv beta; rewrite X2; reflexivity). rewrite !(pad1_chars _ _ XB). cbn [all_chars]. rewrite X2. reflexivity. }
  rewrite (rect_body _ (pad1 p0 ++ join " " [ta; tb; tc; td] ++ pad1 p4)).
  2: { rewrite rect_text_norm, S. reflexivity. }
  2: { apply PN; reflexivity. }
  2: { apply PN; reflexivity. }
  rewrite (strip_spaces (pad1 p0) _ (pad1 p4) (spaces_pad1 p0) (spaces_pad1 p4)).
  2: { apply (trimmed_words _ ta (" " ++ tb ++ " " ++ tc ++ " ") td WA WD). cbn [join]. rewrite !app_assoc_s. reflexivity. }
  unfold rect_values. rewrite (count_char ","), (count_char " ").
  assert (occurrences "," (join " " [ta; tb; tc; td]) = 0%nat) as ->.
  { cbn [join]. rewrite !occurrences_app, (occurrences_none "," ta), (occurrences_none "," tb), (occurrences_none "," tc), (occurrences_none "," td) by (apply plain_not; [reflexivity|assumption]). reflexivity. }
  assert (occurrences " " (join " " [ta; tb; tc; td]) = 3%nat) as ->.
  { cbn [join]. rewrite !occurrences_app, (occurrences_none " " ta), (occurrences_none " " tb), (occurrences_none " " tc), (occurrences_none " " td) by (apply word_no_sp; assumption). reflexivity. }
  cbn [Nat.eqb andb]. cbn [join append].
  rewrite (split_on_first " " ta) by (apply word_no_sp, WA). rewrite (split_on_first " " tb) by (apply word_no_sp, WB). rewrite (split_on_first " " tc) by (apply word_no_sp, WC).
  rewrite (split_on_absent " " td) by (apply word_no_sp, WD).
  rewrite !strip_word by (first [apply WA|apply WB|apply WC|apply WD]). rewrite UA, UB, UC, UD. reflexivity.
Qed.
Print Assumptions C93_blanks.
Definition unit_of (t : string) : unit_ := match units (VStr t) with Ok u => u | Err _ => mkU KPx (PI 0) end.
Example C93_example : exists a b c d, length_text "1px" a /\ length_text "2em" b /\ length_text "3%" c /\ length_text "-4.5pt" d
  /\ padded "1px" "  1px " /\ rect (VStr "rect(  1px ,2em, 3%,-4.5pt)") = Ok (VRect a b c d).
Proof.
  exists (unit_of "1px"), (unit_of "2em"),
    (unit_of "3%"), (unit_of "-4.5pt").
  repeat (split; [split; [split; [discriminate|reflexivity]|vm_compute; reflexivity]|]). split; [exists "  ", " "; repeat split|vm_compute; reflexivity].
Qed.
(** whatever is accepted is rect( four lengths ), separated by commas or blanks *)
Definition four_lengths (sep B : string) (v : pyval) : Prop :=
  exists ta tb tc td a b c d, strip B = String.concat sep [ta; tb; tc; td]
    /\ units (VStr (strip ta)) = Ok a /\ units (VStr (strip tb)) = Ok b /\ units (VStr (strip tc)) = Ok c /\ units (VStr (strip td)) = Ok d
    /\ rect_top v = Ok a /\ rect_right v = Ok b /\ rect_left v = Ok c /\ rect_bottom v = Ok d.
Lemma remove_head_tail B : count "rect(" ("rect(" ++ B) = 1%nat -> remove_all "rect(" ("rect(" ++ B) = B.
Proof. rewrite count_rect_head. intros H. injection H as H. rewrite remove_rect_head. apply count_zero_remove, H. Qed.
Theorem C93_only s v : rect (VStr s) = Ok v ->
  exists B, String.concat " " (split_ws s) = "rect(" ++ B ++ ")" /\ (four_lengths "," B v \/ four_lengths " " B v).
Proof.
  change String.concat with join in *.
  intros H. unfold rect in H. rewrite (map_strip_words _ (split_ws_words s)) in H. set (w := join " " (split_ws s)) in *. clearbody w.
  destruct (startswith "rect(" w) eqn:S; [|discriminate]. destruct (endswith ")" w) eqn:E; [|discriminate].
  destruct (Nat.eqb (count "rect(" w) 1) eqn:C1; [|discriminate]. destruct (Nat.eqb (count ")" w) 1) eqn:C2; [|discriminate]. cbn [andb] in H.
  apply Nat.eqb_eq in C1, C2. apply startswith_spec in S. destruct S as (r & ->). apply endswith_spec in E. destruct E as (b & E).
  assert (exists B, r = B ++ ")") as (B & ->).
  { destruct (app_split _ _ _ _ E) as [(z & Z & _)|(z & NZ & Z & W)]; [exists z; exact Z|].
    exfalso. destruct z as [|c z]; [congruence|]. injection Z as <- Z. destruct z; [|discriminate]. apply (f_equal last_char) in W. rewrite last_app in W. discriminate. }
  exists B. split; [reflexivity|]. rewrite (remove_head_tail _ C1) in H.
  rewrite (count_char ")"), !occurrences_app in C2. cbn [occurrences Ascii.eqb Bool.eqb] in C2.
  rewrite (remove_last ")" B) in H by (apply none_occurrences; lia). cbv zeta in H.
  assert (L : forall sep, (match split_on sep (strip B) with
      | [a; b; c; d] => a <-r units (VStr (strip a)) ;; b <-r units (VStr (strip b)) ;; c <-r units (VStr (strip c)) ;; d <-r units (VStr (strip d)) ;; Ok (VRect a b c d)
      | _ => Err ValueError end) = Ok v -> four_lengths (String sep "") B v).
  { intros sep X. destruct (split_on sep (strip B)) as [|ta [|tb [|tc [|td [|? ?]]]]] eqn:SP; try discriminate. apply split_on_id in SP.
    destruct (units (VStr (strip ta))) as [ua|] eqn:U1; [|discriminate]. destruct (units (VStr (strip tb))) as [ub|] eqn:U2; [|discriminate].
    destruct (units (VStr (strip tc))) as [uc|] eqn:U3; [|discriminate]. destruct (units (VStr (strip td))) as [ud|] eqn:U4; [|discriminate].
    cbn in X. injection X as <-. exists ta, tb, tc, td, ua, ub, uc, ud. change String.concat with join. rewrite SP. repeat split; assumption. }
  destruct (Nat.eqb (count "," (strip B)) 3); [left; apply L; exact H|].
  destruct (Nat.eqb (count "," (strip B)) 0 && Nat.eqb (count " " (strip B)) 3)%bool; [right; apply L; exact H|discriminate].
Qed.
Print Assumptions C93_only.
Example C93_only_example : exists v, rect (VStr "rect(1px 2px 3px 4px)") = Ok v /\ (forall t, rect (VStr "rect(1px, 2px 3px, 4px)") <> Ok t).
Proof. exists (match rect (VStr "rect(1px 2px 3px 4px)") with Ok v => v | Err _ => VNone end). split; [vm_compute; reflexivity|]. intros t H. vm_compute in H. discriminate. Qed.
(** C33, the accepted forms.  Missing: the order of the last two (C33_refuted,
    C93). *)
Theorem C33_forms_partial ta tb tc td a b c d xa xb xc xd p0 s1 s2 s3 p4 :
  length_text ta a -> length_text tb b -> length_text tc c -> length_text td d ->
  padded ta xa -> padded tb xb -> padded tc xc -> padded td xd ->
  spaces p0 -> spaces s1 -> spaces s2 -> spaces s3 -> spaces p4 -> s1 <> "" -> s2 <> "" -> s3 <> "" ->
  exists v, rect (VStr ("rect(" ++ String.concat "," [xa; xb; xc; xd] ++ ")")) = Ok v
    /\ rect (VStr ("rect(" ++ (p0 ++ ta ++ s1 ++ tb ++ s2 ++ tc ++ s3 ++ td ++ p4) ++ ")")) = Ok v
    /\ rect_top v = Ok a /\ rect_right v = Ok b.
Proof.
  change String.concat with join in *.
  intros A B C D PA PB PC PD Q0 Q1 Q2 Q3 Q4 N1 N2 N3.
  destruct (C93_commas ta tb tc td a b c d xa xb xc xd A B C D PA PB PC PD) as (v & R & T & RR & L & BB).
  destruct (C93_blanks ta tb tc td a b c d p0 s1 s2 s3 p4 A B C D Q0 Q1 Q2 Q3 Q4 N1 N2 N3) as (w & R' & T' & RR' & L' & BB').
  exists v. split; [exact R|]. split; [|auto]. rewrite R'. f_equal.
  destruct v; try discriminate. destruct w; try discriminate. cbn in *. congruence.
Qed.
Print Assumptions C33_forms_partial.
(** the third value becomes the left edge, not the bottom edge as in CSS *)
Theorem C33_refuted : ~ (forall s v a b c d ta tb tc td,
  length_text ta a -> length_text tb b -> length_text tc c -> length_text td d ->
  s = "rect(" ++ String.concat "," [ta; tb; tc; td] ++ ")" -> rect (VStr s) = Ok v -> rect_bottom v = Ok c /\ rect_left v = Ok d).
Proof.
  change String.concat with join in *.
  intros H.
  assert (L : forall t u, units (VStr t) = Ok u -> plain t -> length_text t u) by (intros; split; assumption).
  destruct (rect (VStr "rect(1px,2px,3px,4px)")) as [v|] eqn:R; [|vm_compute in R; discriminate].
  destruct (units (VStr "1px")) as [a|] eqn:A; [|vm_compute in A; discriminate]. destruct (units (VStr "2px")) as [b|] eqn:B; [|vm_compute in B; discriminate].
  destruct (units (VStr "3px")) as [c|] eqn:C; [|vm_compute in C; discriminate]. destruct (units (VStr "4px")) as [d|] eqn:D; [|vm_compute in D; discriminate].
  destruct (H "rect(1px,2px,3px,4px)" v a b c d "1px" "2px" "3px" "4px") as [X _]; try (apply L; [assumption|split; [discriminate|reflexivity]]); [reflexivity|exact R|].
  destruct (C93_commas "1px" "2px" "3px" "4px" a b c d "1px" "2px" "3px" "4px") as (w & W & _ & _ & _ & E);
    try (apply L; [assumption|split; [discriminate|reflexivity]]); try (exists "", ""; repeat split).
  change ("rect(" ++ String.concat "," ["1px"; "2px"; "3px"; "4px"] ++ ")") with "rect(1px,2px,3px,4px)" in W. rewrite R in W. injection W as <-. rewrite X in E. injection E as E.
  rewrite <- E in D. rewrite <- C in D. clear -D. vm_compute in D. discriminate.
Qed.
Print Assumptions C33_refuted.

(** ** C34: border-spacing *)
(** a text made of the words ts with blanks between and around *)
Fixpoint spaced (ts : list string) (s : string) : Prop :=
  match ts with
  | [] => spaces s
  | t :: r => exists p s', spaces p /\ s = p ++ t ++ s' /\ (s' = "" \/ exists c z, s' = String c z /\ ws c = true) /\ spaced r s'
  end.
Lemma split_ws_def s : split_ws s = cons_word (fst (split_aux s)) (snd (split_aux s)).
Proof. unfold split_ws. destruct (split_aux s). reflexivity. Qed.
Lemma split_aux_def c s : split_aux (String c s) =
  (if is_space c then ("", cons_word (fst (split_aux s)) (snd (split_aux s))) else (String c (fst (split_aux s)), snd (split_aux s))).
Proof. cbn [split_aux]. destruct (split_aux s). reflexivity. Qed.
Lemma split_spaces p s : spaces p -> split_ws (p ++ s) = split_ws s.
Proof.
  intros P. apply spaces_is in P. induction p as [|c p IH]; [reflexivity|]. cbn in P. apply andb_prop in P. destruct P as [C P]. specialize (IH P).
  cbn [append]. rewrite split_ws_def, split_aux_def, C, <- IH, split_ws_def. reflexivity.
Qed.
Lemma spaced_split ts s : Forall word ts -> spaced ts s -> split_ws s = ts.
Proof.
  intros F. revert s. induction F as [|t ts W F IH]; intros s H.
  - pose proof (split_spaces s "" H) as X. rewrite app_nil_r_s in X. exact X.
  - destruct H as (p & s' & P & -> & B & R). rewrite (split_spaces p _ P). specialize (IH _ R). destruct W as [N W].
    rewrite split_ws_def in IH |- *. rewrite (split_aux_word t s' W). cbn [fst snd].
    assert (fst (split_aux s') = "" /\ snd (split_aux s') = ts) as [-> ->].
    { destruct B as [->|(c & z & -> & C)]; [cbn in IH |- *; auto|]. rewrite ws_is in C. rewrite split_aux_def, C in IH |- *. cbn in IH |- *. auto. }
    rewrite app_nil_r_s. destruct t; [congruence|reflexivity].
Qed.
Lemma split_spaced s : spaced (split_ws s) s.
Proof.
  assert (G : forall s, (fst (split_aux s) = "" -> spaced (snd (split_aux s)) s)
    /\ (exists s', s = fst (split_aux s) ++ s' /\ (s' = "" \/ exists c z, s' = String c z /\ ws c = true) /\ spaced (snd (split_aux s)) s')).
  { clear s. induction s as [|c s [IH1 (s' & E & B & IH2)]].
    - cbn. split; [reflexivity|]. exists "". repeat split. left. reflexivity.
    - rewrite split_aux_def. destruct (is_space c) eqn:C.
      + cbn [fst snd]. assert (K : spaced (cons_word (fst (split_aux s)) (snd (split_aux s))) (String c s)).
        { unfold cons_word. destruct (fst (split_aux s)) as [|c0 w0] eqn:F.
          - specialize (IH1 eq_refl). destruct (snd (split_aux s)) as [|t r].
            + cbn [spaced] in *. unfold spaces in *. cbn [all_chars]. rewrite ws_is, C. exact IH1.
            + destruct IH1 as (p & z & P & -> & Q & R). exists (String c p), z. split; [|auto]. unfold spaces in *. cbn [all_chars]. rewrite ws_is, C. exact P.
          - exists (String c ""), s'. split; [unfold spaces; cbn [all_chars]; rewrite ws_is, C; reflexivity|]. split; [cbn; f_equal; exact E|]. auto. }
        split; [intros _; exact K|]. exists (String c s). split; [reflexivity|]. split; [right; exists c, s; rewrite ws_is; auto|exact K].
      + cbn [fst snd]. split; [discriminate|]. exists s'. split; [cbn; f_equal; exact E|auto]. }
  destruct (G s) as [G1 (s' & E & B & G2)]. rewrite split_ws_def. unfold cons_word. destruct (fst (split_aux s)) as [|c0 w0] eqn:F.
  - apply G1. reflexivity.
  - exists "", s'. split; [reflexivity|auto].
Qed.
Theorem C34_one n v h u : members v [h] -> units h = Ok u ->
  exists r, border_spacing n v = Ok (r, S n) /\ spacing_horizontal r = Ok u /\ spacing_vertical r = Ok u.
Proof. intros M U. destruct (sequence_members _ _ M) as [S _]. unfold border_spacing. rewrite S. cbn [bindr]. rewrite U. eexists. repeat split. Qed.
Print Assumptions C34_one.
Theorem C34_two n v h w a b : members v [h; w] -> units h = Ok a -> units w = Ok b ->
  exists r, border_spacing n v = Ok (r, S n) /\ spacing_horizontal r = Ok a /\ spacing_vertical r = Ok b.
Proof. intros M U W. destruct (sequence_members _ _ M) as [S _]. unfold border_spacing. rewrite S. cbn [bindr]. rewrite U. cbn [bindr]. rewrite W. eexists. repeat split. Qed.
Print Assumptions C34_two.
Theorem C34_counts n v l : members v l -> List.length l <> 1%nat -> List.length l <> 2%nat -> border_spacing n v = Err ValueError.
Proof. intros M A B. destruct (sequence_members _ _ M) as [S _]. unfold border_spacing. rewrite S. cbn [bindr]. destruct l as [|x [|y [|z l]]]; cbn in *; try reflexivity; lia. Qed.
Print Assumptions C34_counts.
(** only lengths are accepted *)
Theorem C34_only n v l r m : members v l -> border_spacing n v = Ok (r, m) ->
  (exists h u, l = [h] /\ units h = Ok u) \/ (exists h w a b, l = [h; w] /\ units h = Ok a /\ units w = Ok b).
Proof.
  intros M H. destruct (sequence_members _ _ M) as [S _]. unfold border_spacing in H. rewrite S in H. cbn [bindr] in H.
  destruct l as [|x [|y [|z l]]]; try discriminate.
  - left. destruct (units x) as [u|] eqn:U; [|discriminate]. exists x, u. auto.
  - right. destruct (units x) as [a|] eqn:U; [|discriminate]. destruct (units y) as [b|] eqn:W; [|discriminate]. exists x, y, a, b. auto.
Qed.
Print Assumptions C34_only.
Theorem C34_text n ts s : Forall word ts -> spaced ts s -> border_spacing n (VStr s) = border_spacing n (VList (map VStr ts)).
Proof.
  intros F S. unfold border_spacing. cbn [sequence]. rewrite (spaced_split ts s F S). cbn [bindr].
  assert (map (fun x => VStr (strip x)) ts = map VStr ts) as ->; [|reflexivity].
  clear S. induction F as [|t ts W F IH]; [reflexivity|]. cbn [map]. rewrite IH, (strip_word t (proj2 W)). reflexivity.
Qed.
Print Assumptions C34_text.
Theorem C34_every_text s : exists ts, Forall word ts /\ spaced ts s.
Proof. exists (split_ws s). split; [apply split_ws_words|apply split_spaced]. Qed.
Print Assumptions C34_every_text.
Theorem C34_number n v : (exists z, v = VInt z) \/ (exists x, v = VFloat x) -> border_spacing n v = border_spacing n (VList [v]).
Proof. intros [(z & ->)|(x & ->)]; reflexivity. Qed.
Print Assumptions C34_number.
Example C34_example : Forall word ["1px"; "2em"] /\ spaced ["1px"; "2em"] " 1px  2em" /\ (exists r, border_spacing 4 (VStr " 1px  2em") = Ok r) /\ (exists r, border_spacing 4 (VInt 10) = Ok r)
  /\ border_spacing 4 (VStr "1px 2px 3px") = Err ValueError /\ members (VTuple [VInt 10; VStr "2em"]) [VInt 10; VStr "2em"].
Proof.
  split; [repeat (constructor; [split; [discriminate|reflexivity]|]); constructor|].
  split. { exists " ", "  2em". repeat split. { right. exists " "%char, " 2em". split; reflexivity. } exists "  ", "". repeat split. left. reflexivity. }
  split. { exists (match border_spacing 4 (VStr " 1px  2em") with Ok r => r | Err _ => (VNone, O) end). vm_compute. reflexivity. }
  split. { exists (match border_spacing 4 (VInt 10) with Ok r => r | Err _ => (VNone, O) end). vm_compute. reflexivity. }
  split; [vm_compute; reflexivity|left; reflexivity].
Qed.

(** ** C35, C94, C95: quotes *)
Definition quote_char (q : ascii) : Prop := q = squote \/ q = dquote.
Definition put (c : ascii) (l : literal) : literal := match l with LitStr t => LitStr (String c t) | x => x end.
Lemma read_repr_char q c t : quote_char q -> read_literal q (repr_char q c ++ t) = put c (read_literal q t).
Proof. intros [->| ->]; destruct c as [[] [] [] [] [] [] [] []]; reflexivity. Qed.
Lemma read_repr q s : quote_char q -> read_literal q (repr_body q s ++ String q "") = LitStr s.
Proof.
  intros Q. induction s as [|c s IH]; cbn [repr_body append].
  - destruct Q as [->| ->]; reflexivity.
  - rewrite app_assoc_s, (read_repr_char q c _ Q), IH. reflexivity.
Qed.
(** a predicate that holds of every character of every escape *)
Lemma repr_body_chars f q s :
  all_chars (fun c => all_chars f (repr_char q c)) s = true -> all_chars f (repr_body q s) = true.
Proof.
  induction s as [|c s IH]; [reflexivity|]. cbn [all_chars repr_body]. intros H. apply andb_prop in H. destruct H as [A B].
  rewrite all_chars_app, A, (IH B). reflexivity.
Qed.
Lemma all_chars_true f s : (forall c, f c = true) -> all_chars f s = true.
Proof. intros H. induction s as [|c s IH]; [reflexivity|]. cbn. rewrite H. exact IH. Qed.
Lemma contains_all c s : contains c s = negb (all_chars (fun d => negb (Ascii.eqb c d)) s).
Proof. induction s as [|d s IH]; [reflexivity|]. unfold contains in *. cbn. rewrite IH. destruct (Ascii.eqb c d); reflexivity. Qed.
Definition repr_quote (s : string) : ascii := if contains squote s && negb (contains dquote s) then dquote else squote.
Lemma repr_quote_ok s : quote_char (repr_quote s).
Proof. unfold repr_quote. destruct (_ && _)%bool; [right|left]; reflexivity. Qed.
Lemma repr_def s : repr_str s = String (repr_quote s) (repr_body (repr_quote s) s ++ String (repr_quote s) "").
Proof. reflexivity. Qed.
Lemma eval_repr s : literal_eval (repr_str s) = LitStr s.
Proof.
  rewrite repr_def. pose proof (repr_quote_ok s) as Q. set (q := repr_quote s) in *. clearbody q. unfold literal_eval.
  assert (contains zero (String q (repr_body q s ++ String q "")) = false) as ->.
  { rewrite contains_all. apply negb_false_iff. cbn [all_chars]. rewrite all_chars_app, (repr_body_chars _ q s).
    - destruct Q as [->| ->]; reflexivity.
    - apply all_chars_true. intros c. destruct Q as [->| ->]; destruct c as [[] [] [] [] [] [] [] []]; reflexivity. }
  assert ((Ascii.eqb q squote || Ascii.eqb q dquote)%bool = true) as -> by (destruct Q as [->| ->]; reflexivity).
  assert (triple q (repr_body q s ++ String q "") = false) as ->; [|apply read_repr, Q].
  destruct s as [|c s]; [reflexivity|]. cbn [repr_body].
  assert (X : exists d r, repr_char q c = String d r /\ Ascii.eqb d q = false) by (destruct Q as [->| ->]; destruct c as [[] [] [] [] [] [] [] []]; cbv; eauto).
  destruct X as (d & r & -> & X). cbn [append triple]. rewrite X. destruct ((r ++ repr_body q s) ++ String q ""); reflexivity.
Qed.
(** the members taken two by two *)
Fixpoint pairs_of {A} (l : list A) : list (A * A) := match l with a :: b :: r => (a, b) :: pairs_of r | _ => [] end.
Definition good_quotes (l : list string) : Prop := l <> [] /\ Nat.Even (List.length l) /\ Forall (fun s => s <> "") l.
Lemma quote_pairs_repr l : quote_pairs (map repr_str l) = if existsb is_empty (flat_map (fun p => [fst p; snd p]) (pairs_of l)) then Err ValueError else Ok (pairs_of l).
Proof.
  assert (G : forall k l, (List.length l <= k)%nat -> quote_pairs (map repr_str l) = if existsb is_empty (flat_map (fun p => [fst p; snd p]) (pairs_of l)) then Err ValueError else Ok (pairs_of l)).
  { clear l. induction k as [|k IH]; intros l L; [destruct l; [reflexivity|cbn in L; lia]|]. destruct l as [|a [|b r]]; try reflexivity.
    cbn [map quote_pairs pairs_of flat_map app existsb fst snd]. unfold eval_quote. rewrite !eval_repr. cbn [bindr check_len].
    destruct (is_empty a); [reflexivity|]. cbn [bindr]. destruct (is_empty b); [reflexivity|]. cbn [orb bindr]. rewrite IH by (cbn in L; lia). destruct (existsb _ _); reflexivity. }
  apply (G (List.length l)). lia.
Qed.
Lemma pairs_flat {A} (l : list A) : Nat.Even (List.length l) -> flat_map (fun p => [fst p; snd p]) (pairs_of l) = l.
Proof.
  assert (G : forall k (l : list A), (List.length l <= k)%nat -> Nat.Even (List.length l) -> flat_map (fun p => [fst p; snd p]) (pairs_of l) = l).
  { clear l. induction k as [|k IH]; intros l L E; [destruct l; [reflexivity|cbn in L; lia]|]. destruct l as [|a [|b r]]; [reflexivity|destruct E as (m & E); cbn in E; lia|].
    cbn [pairs_of flat_map app fst snd]. rewrite IH; [reflexivity|cbn in L; lia|]. destruct E as (m & E). exists (m - 1)%nat. cbn in E. lia. }
  apply (G (List.length l)). lia.
Qed.
Lemma flatten_members (subs : list (list string)) vs : Forall2 (fun v ts => members v (map VStr ts)) vs subs -> flatten_repr vs = Ok (map repr_str (List.concat subs)).
Proof.
  induction 1 as [|v ts vs subs M F IH]; [reflexivity|]. cbn [flatten_repr List.concat]. destruct (sequence_members _ _ M) as [_ ->]. cbn [bindr].
  assert (map_res repr_val (map VStr ts) = Ok (map repr_str ts)) as ->. { clear. induction ts as [|t ts IH]; [reflexivity|]. cbn. rewrite IH. reflexivity. }
  cbn [bindr]. rewrite IH. cbn [bindr]. rewrite map_app. reflexivity.
Qed.
Lemma empty_in l : existsb is_empty l = true <-> ~ Forall (fun s => s <> "") l.
Proof.
  induction l as [|s l IH]; cbn [existsb]; [split; [discriminate|intros H; exfalso; apply H; constructor]|].
  rewrite orb_true_iff, IH. split.
  - intros [H|H] F; inversion F; subst; [destruct s; [congruence|discriminate]|auto].
  - intros H. destruct s as [|c s]; [left; reflexivity|]. right. intros F. apply H. constructor; [discriminate|exact F].
Qed.
Lemma quotes_of_list flat : (if negb (Nat.eqb (List.length (map repr_str flat)) 0) && Nat.even (List.length (map repr_str flat)) then
    ps <-r quote_pairs (map repr_str flat) ;; Ok (VQuotes ps) else Err ValueError)
  = (if negb (Nat.eqb (List.length flat) 0) && Nat.even (List.length flat) && negb (existsb is_empty flat) then Ok (VQuotes (pairs_of flat)) else Err ValueError).
Proof.
  rewrite map_length. destruct (Nat.eqb (List.length flat) 0); [reflexivity|]. cbn [negb andb]. destruct (Nat.even (List.length flat)) eqn:E; [|reflexivity].
  apply Nat.even_spec in E. rewrite quote_pairs_repr, (pairs_flat _ E). destruct (existsb is_empty flat); reflexivity.
Qed.
Lemma good_iff flat : (negb (Nat.eqb (List.length flat) 0) && Nat.even (List.length flat) && negb (existsb is_empty flat))%bool = true <-> good_quotes flat.
Proof.
  unfold good_quotes. rewrite !andb_true_iff, !negb_true_iff, Nat.eqb_neq, Nat.even_spec. split.
  - intros [[A B] C]. repeat split; [intros ->; apply A; reflexivity|exact B|]. destruct (Forall_dec (fun s => s <> "") (fun s => match s with "" => right (fun n => n eq_refl) | String c r => left (fun e => eq_ind (String c r) (fun x => match x with "" => False | _ => True end) I "" e) end) flat) as [F|F]; [exact F|].
    apply empty_in in F. congruence.
  - intros (A & B & C). repeat split; [destruct flat; [congruence|discriminate]|exact B|]. destruct (existsb is_empty flat) eqn:X; [|reflexivity]. apply empty_in in X. contradiction.
Qed.
(** members that are sequences of strings (usually pairs): the strings in
    order are taken two by two, or all is rejected *)
Theorem C35_sequences v vs subs : members v vs -> Forall2 (fun x ts => members x (map VStr ts)) vs subs ->
  (good_quotes (List.concat subs) -> quotes v = Ok (VQuotes (pairs_of (List.concat subs))))
  /\ (~ good_quotes (List.concat subs) -> quotes v = Err ValueError).
Proof.
  intros M F.
  assert (E : quotes v = (if negb (Nat.eqb (List.length (List.concat subs)) 0) && Nat.even (List.length (List.concat subs)) && negb (existsb is_empty (List.concat subs)) then Ok (VQuotes (pairs_of (List.concat subs))) else Err ValueError)).
  { rewrite <- quotes_of_list. destruct (sequence_members _ _ M) as [S _]. unfold quotes. rewrite S, (flatten_members _ _ F). destruct M as [->|[->| ->]]; reflexivity. }
  rewrite E. split; intros H.
  - apply good_iff in H. rewrite H. reflexivity.
  - destruct (_ && _)%bool eqn:X; [exfalso; apply H, good_iff, X|reflexivity].
Qed.
Print Assumptions C35_sequences.
Lemma concat_pairs (ps : list (string * string)) : pairs_of (List.concat (map (fun p => [fst p; snd p]) ps)) = ps.
Proof. induction ps as [|[a b] ps IH]; [reflexivity|]. cbn. rewrite IH. reflexivity. Qed.
Theorem C35_pairs v vs ps : members v vs -> Forall2 (fun x p => members x [VStr (fst p); VStr (snd p)]) vs ps ->
  ps <> [] -> Forall (fun p => fst p <> "" /\ snd p <> "") ps ->
  exists q, quotes v = Ok q /\ quotes_len q = Ok (Z.of_nat (List.length ps))
    /\ forall i a b, nth_error ps i = Some (a, b) -> quotes_opening q (Z.of_nat i) = Ok a /\ quotes_closing q (Z.of_nat i) = Ok b.
Proof.
  intros M F N NE. exists (VQuotes ps). split; [|split; [reflexivity|]].
  - rewrite <- (concat_pairs ps) at 1. apply (C35_sequences v vs (map (fun p => [fst p; snd p]) ps) M).
    + clear -F. induction F as [|x p vs ps H F IH]; constructor; auto.
    + repeat split.
      * destruct ps as [|[a b] ps]; [congruence|discriminate].
      * clear. induction ps as [|[a b] ps [m IH]]; [exists O; reflexivity|]. exists (S m). cbn [map List.concat app List.length]. lia.
      * clear -NE. induction NE as [|[a b] ps [A B] NE IH]; [constructor|]. cbn. constructor; [exact A|]. constructor; [exact B|exact IH].
  - intros i a b H. unfold quotes_opening, quotes_closing, list_index. destruct (Z.ltb_spec (Z.of_nat i) 0); [lia|]. cbv zeta. destruct (Z.ltb_spec (Z.of_nat i) 0); [lia|].
    rewrite Nat2Z.id, H. split; reflexivity.
Qed.
Print Assumptions C35_pairs.
Theorem C35_levels ps i : let n := Z.of_nat (List.length ps) in
  ((i < - n \/ n <= i) -> quotes_opening (VQuotes ps) i = Err IndexError /\ quotes_closing (VQuotes ps) i = Err IndexError)
  /\ (- n <= i < n -> exists p, In p ps /\ quotes_opening (VQuotes ps) i = Ok (fst p) /\ quotes_closing (VQuotes ps) i = Ok (snd p)).
Proof.
  cbv zeta. unfold quotes_opening, quotes_closing, list_index. set (n := Z.of_nat (List.length ps)). split.
  - intros H. destruct (Z.ltb_spec i 0) as [L|L]; cbv zeta.
    + destruct (Z.ltb_spec (i + n) 0); [split; reflexivity|lia].
    + destruct (Z.ltb_spec i 0); [lia|]. destruct (nth_error ps (Z.to_nat i)) eqn:E; [|split; reflexivity]. assert (nth_error ps (Z.to_nat i) <> None) as X by congruence. apply nth_error_Some in X. lia.
  - intros H. cbv zeta. set (k := if i <? 0 then i + n else i). assert (0 <= k < n) by (unfold k; destruct (Z.ltb_spec i 0); lia). clearbody k.
    destruct (Z.ltb_spec k 0); [lia|]. destruct (nth_error ps (Z.to_nat k)) as [p|] eqn:E; [|apply nth_error_None in E; lia].
    exists p. split; [eapply nth_error_In; exact E|split; reflexivity].
Qed.
Print Assumptions C35_levels.
Example C35_example : good_quotes ["<<"; ">>"; "'"; "'"] /\ quotes (VTuple [VList [VStr "<<"; VStr ">>"]; VTuple [VStr "'"; VStr "'"]]) = Ok (VQuotes [("<<", ">>"); ("'", "'")])
  /\ ~ good_quotes ["a"; ""] /\ quotes (VTuple [VTuple [VStr "a"; VStr ""]]) = Err ValueError.
Proof.
  split; [split; [discriminate|]; split; [exists 2%nat; reflexivity|repeat constructor; discriminate]|]. split; [vm_compute; reflexivity|].
  split; [intros (_ & _ & F); inversion F as [|? ? ? G]; inversion G; congruence|vm_compute; reflexivity].
Qed.
(** a flat sequence of strings is taken apart into characters *)
Definition letters (s : string) : list string := map (fun c => String c "") (list_ascii_of_string s).
Lemma chars_letters s : chars s = letters s.
Proof. induction s as [|c s IH]; [reflexivity|]. unfold letters in *. cbn. rewrite <- IH. reflexivity. Qed.
Lemma letters_concat s : String.concat "" (letters s) = s.
Proof. induction s as [|c s IH]; [reflexivity|]. unfold letters in *. cbn. destruct (map _ (list_ascii_of_string s)) eqn:E; cbn in IH |- *; [subst s; reflexivity|]. rewrite IH. reflexivity. Qed.
Theorem C94_flat v ts : members v (map VStr ts) -> let all := List.concat (map letters ts) in
  (all <> [] -> Nat.Even (List.length all) -> quotes v = Ok (VQuotes (pairs_of all)))
  /\ (all = [] \/ ~ Nat.Even (List.length all) -> quotes v = Err ValueError).
Proof.
  intros M. cbv zeta.
  assert (E : quotes v = quotes (VList (map (fun t => VList (map VStr (letters t))) ts))).
  { unfold quotes. destruct (sequence_members _ _ M) as [S _]. rewrite S. cbn [sequence].
    assert (flatten_repr (map VStr ts) = flatten_repr (map (fun t => VList (map VStr (letters t))) ts)) as <-; [|destruct M as [->|[->| ->]]; reflexivity].
    clear. induction ts as [|t ts IH]; [reflexivity|]. cbn [map flatten_repr iterate]. rewrite chars_letters, IH. reflexivity. }
  rewrite E.
  destruct (C35_sequences (VList (map (fun t => VList (map VStr (letters t))) ts)) _ (map letters ts) (or_intror (or_introl eq_refl))) as [A B].
  { clear. induction ts as [|t ts IH]; constructor; [right; left; reflexivity|exact IH]. }
  assert (NE : Forall (fun s => s <> "") (List.concat (map letters ts))).
  { clear. induction ts as [|t ts IH]; [constructor|]. cbn. apply Forall_app. split; [|exact IH]. unfold letters. induction (list_ascii_of_string t); constructor; [discriminate|assumption]. }
  split; [intros H1 H2; apply A; repeat split; assumption|]. intros H. apply B. intros (G1 & G2 & _). tauto.
Qed.
Print Assumptions C94_flat.
Example C94_example : quotes (VTuple [VStr "ab"; VStr "cd"]) = Ok (VQuotes [("a", "b"); ("c", "d")]) /\ quotes (VTuple [VStr "a"; VStr "b"]) = Ok (VQuotes [("a", "b")])
  /\ quotes (VTuple [VStr "abc"; VStr "de"]) = Err ValueError.
Proof. vm_compute. auto. Qed.
(** the printed text of quotes is read back *)
Definition blank_free (s : string) : Prop := forall c, In c (list_ascii_of_string s) -> c <> " "%char.
Lemma repr_word s : blank_free s -> word (repr_str s).
Proof.
  intros B. split; [discriminate|]. rewrite repr_def. pose proof (repr_quote_ok s) as Q. set (q := repr_quote s) in *. clearbody q. unfold no_space. cbn [all_chars].
  rewrite all_chars_app, (repr_body_chars _ q s).
  - destruct Q as [->| ->]; reflexivity.
  - induction s as [|c s IH]; [reflexivity|]. cbn [all_chars]. rewrite IH by (intros d D; apply B; right; exact D). rewrite andb_true_r.
    assert (N : c <> " "%char) by (apply B; left; reflexivity). clear -Q N.
    destruct Q as [->| ->]; destruct c as [[] [] [] [] [] [] [] []]; first [reflexivity|exfalso; apply N; reflexivity].
Qed.
Theorem C95_round_trip ps t : ps <> [] -> Forall (fun p => fst p <> "" /\ snd p <> "" /\ blank_free (fst p) /\ blank_free (snd p)) ps ->
  quotes_str (VQuotes ps) = Ok t -> quotes (VStr t) = Ok (VQuotes ps).
Proof.
  intros N F H. injection H as <-. set (flat := flat_map (fun p => [fst p; snd p]) ps).
  assert (R : flat_map (fun p => [repr_str (fst p); repr_str (snd p)]) ps = map repr_str flat). { unfold flat. clear. induction ps as [|[a b] ps IH]; [reflexivity|]. cbn [flat_map app map fst snd]. rewrite IH. reflexivity. }
  rewrite R. unfold quotes.
  assert (W : Forall word (map repr_str flat)).
  { unfold flat. clear -F. induction F as [|[a b] ps (A & B & C & D) F IH]; [constructor|]. cbn [flat_map app map fst snd] in *. constructor; [apply repr_word, C|]. constructor; [apply repr_word, D|exact IH]. }
  rewrite (split_join _ W), (map_strip_words _ W). cbn [bindr]. rewrite quotes_of_list.
  assert (P : pairs_of flat = ps). { unfold flat. clear. induction ps as [|[a b] ps IH]; [reflexivity|]. cbn. rewrite IH. reflexivity. }
  assert (G : good_quotes flat).
  { unfold flat. repeat split.
    - destruct ps as [|[a b] ps]; [congruence|discriminate].
    - clear. induction ps as [|[a b] ps [m IH]]; [exists O; reflexivity|]. exists (S m). cbn [flat_map app List.length]. lia.
    - clear -F. induction F as [|[a b] ps (A & B & _) F IH]; [constructor|]. cbn. constructor; [exact A|]. constructor; [exact B|exact IH]. }
  apply good_iff in G. rewrite G, P. reflexivity.
Qed.
Print Assumptions C95_round_trip.
Example C95_example : quotes_str (VQuotes [("'", String dquote "x"); (String (ascii_of_nat 171) "", "\n")]) <> Ok ""
  /\ (forall t, quotes_str (VQuotes [("a b", "c")]) = Ok t -> quotes (VStr t) <> Ok (VQuotes [("a b", "c")])) /\ blank_free "it's".
Proof.
  split; [vm_compute; discriminate|]. split; [intros t H; vm_compute in H; injection H as <-; vm_compute; discriminate|].
  intros c H. cbn in H. repeat destruct H as [<-|H]; try contradiction; discriminate.
Qed.

(** ** C36, C96: immutable lists *)
(** the operations the class overrides, and the ones that only read *)
Definition overridden (o : list_op) : Prop :=
  match o with Append _ | Extend _ | Insert _ _ | Pop _ | Remove _ | Reverse | Sort | SetItem _ _ => True | _ => False end.
Definition reads (o : list_op) : Prop := match o with GetItem _ | CopyOf => True | _ => False end.
(** the operations of [list] it leaves in place: del, +=, *=, clear *)
Definition inherited (o : list_op) : Prop := match o with DelItem _ | IAdd _ | IMul _ | Clear => True | _ => False end.
(** C36, for the overridden operations.  Missing: the inherited ones, which do
    change the list (C36_refuted, C96). *)
Theorem C36_overridden_partial o l : overridden o -> list_step o l = (l, Err TypeError).
Proof. destruct o; intros H; try contradiction; reflexivity. Qed.
Print Assumptions C36_overridden_partial.
(** C36, for sequences of overridden and reading operations. *)
Theorem C36_sequence_partial os l : Forall (fun o => overridden o \/ reads o) os -> list_steps os l = l.
Proof.
  revert l. induction os as [|o os IH]; intros l H; [reflexivity|]. inversion H as [|? ? O R]; subst. cbn [list_steps].
  assert (fst (list_step o l) = l) as ->; [|apply IH, R]. destruct O as [O|O]; [rewrite (C36_overridden_partial o l O); reflexivity|]. destruct o; try contradiction; reflexivity.
Qed.
Print Assumptions C36_sequence_partial.
Theorem C36_refuted : ~ (forall os l, list_steps os l = l).
Proof. intros H. specialize (H [DelItem (-1)] [VStr "auto"]). discriminate. Qed.
Print Assumptions C36_refuted.
(** contents that differ afterwards betray one of the four inherited operations *)
Theorem C96_culprit os l : list_steps os l <> l -> Exists inherited os.
Proof.
  intros H. destruct (Exists_dec inherited os) as [E|E]; [destruct x; ((left; exact I) || (right; intros [])) | exact E |].
  exfalso. apply H, C36_sequence_partial. apply Forall_forall. intros o I. assert (~ inherited o) by (intros X; apply E, Exists_exists; eauto). destruct o; cbn in *; tauto.
Qed.
Print Assumptions C96_culprit.
Theorem C96_effects l :
  (forall m, list_step (IAdd m) l = ((l ++ m)%list, Ok tt)) /\ list_step Clear l = ([], Ok tt)
  /\ (forall n, n <= 0 -> fst (list_step (IMul n) l) = []) /\ (forall n, 0 <= n -> List.length (fst (list_step (IMul n) l)) = (Z.to_nat n * List.length l)%nat)
  /\ (forall i, - Z.of_nat (List.length l) <= i < Z.of_nat (List.length l) -> exists a x b,
        l = (a ++ x :: b)%list /\ Z.of_nat (List.length a) = i mod Z.of_nat (List.length l) /\ list_step (DelItem i) l = ((a ++ b)%list, Ok tt))
  /\ (forall i, i < - Z.of_nat (List.length l) \/ Z.of_nat (List.length l) <= i -> list_step (DelItem i) l = (l, Err IndexError)).
Proof.
  split; [reflexivity|]. split; [reflexivity|]. split; [intros n N; cbn; destruct n; [reflexivity|lia|reflexivity]|].
  split. { intros n N. cbn [list_step fst]. induction (Z.to_nat n) as [|k IH]; [reflexivity|]. cbn [repeat_list]. rewrite app_length, IH. reflexivity. }
  split.
  - intros i R. cbn [list_step]. unfold list_index. set (n := Z.of_nat (List.length l)) in *.
    assert (K : (if i <? 0 then i + n else i) = i mod n). { destruct (Z.ltb_spec i 0); [|symmetry; apply Z.mod_small; lia]. apply Z.mod_unique with (q := -1); [left; lia|lia]. }
    rewrite K. assert (M : 0 <= i mod n < n) by (apply Z.mod_pos_bound; lia). set (k := i mod n) in *. clearbody k. cbv zeta. destruct (Z.ltb_spec k 0); [lia|].
    destruct (nth_error l (Z.to_nat k)) as [x|] eqn:E; [|apply nth_error_None in E; lia]. destruct (nth_error_split _ _ E) as (a & b & -> & L).
    exists a, x, b. split; [reflexivity|]. split; [lia|]. f_equal. rewrite <- L. clear. induction a as [|y a IH]; [reflexivity|]. cbn. rewrite IH. reflexivity.
  - intros i R. cbn [list_step]. unfold list_index. set (n := Z.of_nat (List.length l)) in *. cbv zeta. destruct (Z.ltb_spec i 0).
    + destruct (Z.ltb_spec (i + n) 0); [reflexivity|lia].
    + destruct (Z.ltb_spec i 0); [lia|]. destruct (nth_error l (Z.to_nat i)) eqn:E; [|reflexivity]. assert (nth_error l (Z.to_nat i) <> None) as X by congruence. apply nth_error_Some in X. lia.
Qed.
Print Assumptions C96_effects.
Example C36_example : Forall (fun o => overridden o \/ reads o) [Append (VStr "auto"); GetItem 0; Sort] /\ list_steps [Append VNone; Clear] [VStr "auto"] = [].
Proof. split; [|reflexivity]. constructor; [left; exact I|]. constructor; [right; exact I|]. constructor; [left; exact I|constructor]. Qed.
Example C33_example : exists a b c d, length_text "1px" a /\ length_text "2em" b /\ length_text "3%" c /\ length_text "-4.5pt" d
  /\ padded "1px" "  1px " /\ spaces "  " /\ rect (VStr "rect(  1px ,2em,3%,-4.5pt)") = rect (VStr "rect(1px  2em 3% -4.5pt )").
Proof.
  exists (unit_of "1px"), (unit_of "2em"), (unit_of "3%"), (unit_of "-4.5pt").
  repeat (split; [split; [split; [discriminate|reflexivity]|vm_compute; reflexivity]|]). split; [exists "  ", " "; repeat split|]. split; [reflexivity|vm_compute; reflexivity].
Qed.
Example C96_example : list_steps [Append VNone; IAdd [VStr "wait"]; DelItem (-2)] [VStr "auto"; VStr "move"] = [VStr "auto"; VStr "wait"]
  /\ list_steps [Append VNone; IAdd [VStr "wait"]; DelItem (-2)] [VStr "auto"; VStr "move"] <> [VStr "auto"; VStr "move"].
Proof. split; [reflexivity|discriminate]. Qed.
