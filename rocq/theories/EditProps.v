(** * Layout depends only on the last writes: C167 *)
From Coq Require Import ZArith QArith Qcanon Bool String Ascii List Lia.
From Verif Require Import PyNum NumFacts PyStr StrFacts Units BoxModel Engine Values Parser Choices Shorthand Decl DeclSpec DeclFacts DeclProps DeclNorm DeclErrors ParseSpec ParserSpec AcceptSpec AcceptProps RaiseSpec RaiseProps ParserProps GrammarSpec GrammarProps
  EngineSim Computed ComputedSpec ComputedFacts ComputedProps ShortSpec ShortProps TableSpec TableProps EditSpec.
Import ListNotations.
Open Scope string_scope.

(** *** Library values *)
Lemma member_library v l x : library_value v -> members v l -> In x l -> library_value x.
Proof. intros L M I u W. apply L. exact (within_member _ _ _ _ M I W). Qed.
Lemma text_library s : library_value (VStr s).
Proof. intros u W. inversion W as [|x v l y M]; subst. destruct M as [M|[M|M]]; discriminate. Qed.
Lemma unit_library u : library_unit u -> library_value (VUnit u).
Proof. intros L w W. inversion W as [|x v l y M]; subst; [exact L|]. destruct M as [M|[M|M]]; discriminate. Qed.
Lemma length_library v u : library_value v -> length_value v u -> library_unit u.
Proof.
  intros L H. destruct H as [u N|z|x|d x D|d x t k D I].
  - apply L. constructor.
  - exists "px". left. reflexivity.
  - exists "px". left. reflexivity.
  - exists "px". left. reflexivity.
  - exists t. exact I.
Qed.
Lemma same_kind u v : library_unit u -> library_unit v -> same_length u v -> alike u v.
Proof.
  intros [s I] [t J] [K M]. apply alike_eqb.
  - revert I J. destruct K as [| |x|x q r|x y z|x q r]; intros I J; try reflexivity; cbn in I, J;
      repeat (destruct I as [I|I]; [injection I; intros; subst|]); try destruct I; repeat (destruct J as [J|J]; [injection J; intros; subst; try discriminate; reflexivity|]); try destruct J; try discriminate.
  - destruct M as [M N]. unfold py_num_eqb. rewrite <- M. destruct (pval (u_val u)) as [q|[]|]; try reflexivity; [apply qc_eqb_refl|congruence].
Qed.

(** *** Stored lengths are lengths of the library *)
Definition stored_library (c : css) : Prop := forall q u, engine_reads q = true -> c_store c q = Some (VUnit u) -> library_unit u.
Section Stored.
Context (ho : hash_order) (V : valid_order ho).
Lemma engine_not_quotes q : engine_reads q = true -> q <> L_quotes.
Proof. intros E ->. discriminate. Qed.
Lemma validated_library q n v u m : engine_reads q = true -> library_value v -> validate (ho_set ho) (choices_of q) n v = Ok (VUnit u, m) -> library_unit u.
Proof.
  intros E L W. apply (validate_accepts ho _ _ _ _ _ V) in W. inversion W as [k v' w n' K T| | | |]; subst. destruct k; try (destruct q; discriminate).
  destruct T as (x & T & X & _). injection X as ->. exact (length_library v x L T).
Qed.
Lemma library_set_long q v : library_value v -> keeps stored_library (set_long ho q v).
Proof.
  intros L c n S. destruct (set_long ho q v c n) as [[c' n'] r] eqn:E. cbn [fst]. apply set_long_store in E. destruct E as [->|(w & W & ->)]; [exact S|].
  intros p u P. rewrite mark_dirty_store. destruct (longhand_eq_dec p q) as [->|N]; [rewrite store_same|rewrite store_other by exact N; apply S, P].
  intros X. injection X as ->. exact (validated_library _ _ _ _ _ P L W).
Qed.
Lemma library_del_long q : keeps stored_library (del_long q).
Proof.
  intros c n S p u P. rewrite del_long_store. destruct (lh_eqb p q); [discriminate|]. apply S, P.
Qed.
Lemma library_del_dir d : keeps stored_library (del_dir d).
Proof. apply keeps_each. intros. apply library_del_long. Qed.
Lemma library_dirty : keeps stored_library dirty.
Proof. intros c n S p u P. unfold dirty. pose proof (mark_dirty_store c) as M. destruct (mark_dirty c) as [c' r]. cbn [fst] in *. rewrite M. apply S, P. Qed.
Lemma library_sides v f : library_value v -> sides_of v = Some f -> forall s, library_value (f s).
Proof.
  intros L SO. assert (K : (exists l, v = VTuple l) \/ forall s, f s = v).
  { destruct v; try (right; injection SO as <-; reflexivity). left. eauto. }
  destruct K as [[l ->]|K]; [|intros s; rewrite K; exact L]. assert (M : members (VTuple l) l) by (left; reflexivity).
  destruct l as [|a [|b [|c [|e [|? ?]]]]]; try discriminate; injection SO as <-; intros []; apply (member_library _ _ _ L M); cbn; auto.
Qed.
Lemma library_set_dir d v : library_value v -> keeps stored_library (set_dir ho d v).
Proof.
  intros L. pose proof (set_dir_sides ho d v) as SD. destruct (sides_of v) as [f|] eqn:SO; [|rewrite SD; intros c n S; exact S]. destruct SD as (t & r & b & l & -> & FS).
  pose proof (library_sides v f L SO) as LF. pose proof (LF STop) as L1. pose proof (LF SRight) as L2. pose proof (LF SBottom) as L3. pose proof (LF SLeft) as L4. rewrite FS in L1, L2, L3, L4. cbn in L1, L2, L3, L4.
  unfold set_sides. repeat (apply keeps_bind; [apply library_set_long; assumption|intros _]). apply library_set_long. assumption.
Qed.
Lemma library_parts v l x : library_value v -> parts_given v l -> In x l -> library_value x.
Proof.
  intros L P I. destruct P as [s ts _ _ _|v l M _]; [|exact (member_library v l x L M I)]. apply in_map_iff in I. destruct I as (t & <- & _). apply text_library.
Qed.
Lemma library_validated q n v w m : q <> L_quotes -> library_value v -> validate (ho_set ho) (choices_of q) n v = Ok (w, m) -> (kind_of q = Some LengthK \/ kind_of q = Some ColorK \/ kind_of q = None) -> library_value w.
Proof.
  intros NQ L W KQ. apply (validate_accepts ho _ _ _ _ _ V) in W. apply accepts_written in W; [|exact NQ].
  assert (NV : forall x, (forall l, ~ members x l) -> (forall u, x <> VUnit u) -> library_value x).
  { intros x N1 N2 u X. inversion X as [|a b l y M]; subst; [destruct (N2 u); reflexivity|destruct (N1 l M)]. }
  inversion W as [v' u K H|v' z K H|v' w' m' K H|v' w' K H|v' w' K H|v' w' m' K H|s K H|K|K|K]; subst; try (destruct KQ as [X|[X|X]]; congruence);
    try (apply NV; [intros l [X|[X|X]]; discriminate|discriminate]); try apply text_library.
  - apply unit_library. destruct H as [u N|z|x|s u (d & x & _ & [[_ ->]|(t & k & I & _ & ->)])]; [apply L; constructor|exists "px"; left; reflexivity..|exists t; exact I].
  - destruct H as [o c|s x y C]; [exact L|]. apply NV; inversion C; subst; try discriminate; intros ? [X|[X|X]]; discriminate.
Qed.

Lemma comp_library sh k i v w j : library_value v -> validate (ho_set ho) (comp_choices sh k) i v = Ok (w, j) -> library_value w.
Proof.
  intros L W. assert (X : exists q, In q (component sh k) /\ q <> L_quotes /\ (kind_of q = Some LengthK \/ kind_of q = Some ColorK \/ kind_of q = None)).
  { destruct sh, k; cbn [component]; eexists; (split; [left; reflexivity|]); (split; [discriminate|]); cbn; auto. }
  destruct X as (q & I & NQ & K). rewrite (comp_choices_long _ _ _ I) in W. exact (library_validated q i v w j NQ L W K).
Qed.
Lemma library_set_prop p v : library_value v -> keeps stored_library (set_prop ho p v).
Proof.
  intros L. destruct p as [q|d|sh]; cbn [set_prop]; [apply library_set_long, L|apply library_set_dir, L|].
  intros c n H. rewrite set_short_step. unfold parse_shorthand. destruct (shorthand_values v) as [l|] eqn:SV; cbn [bindr]; [|exact H]. apply values_given in SV.
  destruct (parse_parts (ho_set ho) (table_of sh) 3 n no_parts l) as [[d n1]|] eqn:P; [|exact H].
  destruct (parse_parts_assign _ V _ _ _ _ _ _ _ P) as (asg & F & ND & O & _).
  assert (D : forall k w, d k = Some w -> library_value w).
  { intros k w Dk. assert (I : In k asg).
    { destruct (in_dec comp_eq_dec k asg) as [|X]; [assumption|]. rewrite (O k X) in Dk. discriminate. }
    assert (LL : Forall library_value l) by (apply Forall_forall; intros x; exact (library_parts v l x L SV)).
    clear -V F I Dk LL. induction F as [|j x asg l X F IHf]; [destruct I|]. apply Forall_cons_iff in LL. destruct LL as [L1 LL]. destruct I as [->|I]; [|auto].
    destruct X as (w' & i' & j' & X1 & X2 & _). rewrite X2 in Dk. injection Dk as ->. exact (comp_library _ _ _ _ _ _ L1 X1). }
  revert H. generalize c n1. change (keeps stored_library (each (step ho d) (valid_keys sh) ;;c dirty)). apply keeps_bind; [|intros _; apply library_dirty].
  apply keeps_each. intros [k q] _. unfold step. cbn [fst snd]. destruct (d k) as [w|] eqn:Dk.
  - destruct q; cbn; [apply library_set_long, (D k w Dk)|apply library_set_dir, (D k w Dk)|apply keeps_raise].
  - destruct q; cbn; [apply library_del_long|apply library_del_dir|apply keeps_raise].
Qed.
Lemma library_del_prop p : keeps stored_library (del_prop p).
Proof.
  destruct p as [q|d|sh]; cbn [del_prop]; [apply library_del_long|apply library_del_dir|].
  apply keeps_each. intros [k q] _. apply keeps_swallow, keeps_bind; [|intros _; apply library_dirty].
  destruct q; cbn; [apply library_del_long|apply library_del_dir|apply keeps_raise].
Qed.
Lemma library_run_op o : library_op o -> keeps stored_library (run_op ho o).
Proof.
  destruct o as [p v|p|l|name v|name|node]; cbn [run_op library_op]; intros L.
  - apply library_set_prop, L.
  - apply library_del_prop.
  - apply keeps_each. intros [name v] I. unfold update_item. cbn [fst snd]. destruct (prop_of_name _) as [p|]; [|apply keeps_raise].
    pose proof (L name v I) as LV. destruct v; try apply library_set_prop, LV. apply library_del_prop.
  - unfold setitem. destruct (prop_of_name _); [apply library_set_prop, L|apply keeps_raise].
  - unfold delitem. destruct (prop_of_name _); [apply keeps_swallow, library_del_prop|apply keeps_raise].
  - intros c n H. exact H.
Qed.
Lemma library_run_ops l c n : Forall library_op l -> stored_library c -> stored_library (fst (run_ops ho l c n)).
Proof.
  intros F. revert c n. induction F as [|o l L F IH]; intros c n H; cbn [run_ops]; [exact H|].
  pose proof (library_run_op o L c n H) as K. destruct (run_op ho o c n) as [[c' n'] r]. apply IH, K.
Qed.
End Stored.

(** *** What a program gives is a value of the library *)
Lemma given_long l ks (E : effect) (R : comp -> Prop) sh k q v : Forall library_value l -> R k ->
  Forall2 (fun k part => R k -> forall q, In q (component sh k) -> E q = Give part) ks l -> In k ks -> In q (component sh k) -> E q = Give v -> library_value v.
Proof.
  intros L RK F. revert L. induction F as [|j x ks l X F IH]; intros L I Q G; [destruct I|]. apply Forall_cons_iff in L. destruct L as [L1 L]. destruct I as [->|I]; [|auto].
  rewrite (X RK q Q) in G. injection G as <-. exact L1.
Qed.
Lemma side_dec d q : (exists s, q = side_prop d s) \/ forall s, q <> side_prop d s.
Proof.
  destruct (in_dec longhand_eq_dec q (map (side_prop d) [STop; SRight; SBottom; SLeft])) as [I|N].
  - left. apply in_map_iff in I. destruct I as (s & <- & _). eauto.
  - right. intros s ->. apply N, in_map. destruct s; cbn; auto.
Qed.
Lemma given_assigning p v E r : assigning p v E r -> library_value v -> forall q w, E q = Give w -> library_value w.
Proof.
  intros A L q w G.
  destruct A as [p v E N AC S O|p v E e N NA RF U|d v f E SO AC S O|d v f done s E e SO ST RF S O|d v E SO U|sh v l ks E P F NA S R O|sh v l ks E N P F EX U|v l ks E P F EX S R O|sh v E e N RF U];
    try (rewrite U in G; discriminate).
  - destruct (longhand_eq_dec q p) as [->|X]; [rewrite S in G; injection G as <-; exact L|]. rewrite (O q X) in G. discriminate.
  - destruct (side_dec d q) as [[s ->]|X]; [|rewrite (O q X) in G; discriminate]. rewrite S in G. injection G as <-. exact (library_sides v f L SO s).
  - destruct (in_dec longhand_eq_dec q (map (side_prop d) done)) as [I|X].
    + apply in_map_iff in I. destruct I as (s0 & <- & I). rewrite (S s0 I) in G. injection G as <-. exact (library_sides v f L SO s0).
    + rewrite O in G; [discriminate|]. intros r I ->. apply X, in_map, I.
  - destruct (in_dec longhand_eq_dec q (longhands_of (Short sh))) as [I|X]; [|rewrite (O q X) in G; discriminate]. apply long_component in I. destruct I as (k & I).
    destruct (in_dec comp_eq_dec k ks) as [K|K]; [|rewrite (R k q K I) in G; discriminate].
    apply (given_long l ks E (fun _ => True) sh k q w); auto; [apply Forall_forall; intros x; exact (library_parts v l x L P)|].
    clear -S. induction S; constructor; auto.
  - destruct (longhand_eq_dec q L_outline_color) as [->|X1]; [|destruct (longhand_eq_dec q L_outline_style) as [->|X2]; [|rewrite (O q X1 X2) in G; discriminate]].
    + destruct (in_dec comp_eq_dec CColor ks) as [K|K]; [|rewrite (R CColor _ K) in G; [discriminate|left; reflexivity]].
      apply (given_long l ks E (fun k => k <> CWidth) S_outline CColor L_outline_color w); auto; [apply Forall_forall; intros x; exact (library_parts v l x L P)|discriminate|left; reflexivity].
    + destruct (in_dec comp_eq_dec CStyle ks) as [K|K]; [|rewrite (R CStyle _ K) in G; [discriminate|left; reflexivity]].
      apply (given_long l ks E (fun k => k <> CWidth) S_outline CStyle L_outline_style w); auto; [apply Forall_forall; intros x; exact (library_parts v l x L P)|discriminate|left; reflexivity].
Qed.
Lemma given_deleting p E : deleting p E -> forall q w, E q <> Give w.
Proof. intros [A B] q w G. destruct (in_dec longhand_eq_dec q (longhands_of p)) as [I|N]; [rewrite (A q I) in G|rewrite (B q N) in G]; discriminate. Qed.
Lemma given_updating l E r : updating l E r -> (forall name v, In (name, v) l -> library_value v) -> forall q w, E q = Give w -> library_value w.
Proof.
  assert (IT : forall name v E r, updating_item name v E r -> library_value v -> forall q w, E q = Give w -> library_value w).
  { intros name v F x I L q w G. destruct I as [nm p v F x _ _ A|nm p F _ D|nm v F _ U]; [exact (given_assigning p v F x A L q w G)|destruct (given_deleting p F D q w G)|rewrite U in G; discriminate]. }
  induction 1 as [E U|name v l E F G r I UP IH FB|name v l E e I]; intros L q w X.
  - rewrite U in X. discriminate.
  - rewrite FB in X. destruct (F q) as [| |z] eqn:Fq; cbn in X; [|discriminate|].
    + exact (IT _ _ _ _ I (L name v (or_introl eq_refl)) q w X).
    + apply (IH (fun a b c => L a b (or_intror c)) q w). congruence.
  - exact (IT _ _ _ _ I (L name v (or_introl eq_refl)) q w X).
Qed.
Lemma given_operating o E r : operating o E r -> library_op o -> forall q w, E q = Give w -> library_value w.
Proof.
  intros H. destruct H as [p v E r A|p E D|l E r U|name p v E r _ A|name v E _ U|name p E _ D|name E _ U|node E U]; cbn [library_op]; intros L q w G;
    try (rewrite U in G; discriminate); try (destruct (given_deleting p E D q w G)).
  - exact (given_assigning p v E r A L q w G).
  - exact (given_updating l E r U L q w G).
  - exact (given_assigning p v E r A L q w G).
Qed.
Lemma given_program l E rs : program l E rs -> Forall library_op l -> forall q w, E q = Give w -> library_value w.
Proof.
  induction 1 as [E U|o l E F G r rs A P IH FB]; intros L q w X; [rewrite U in X; discriminate|]. apply Forall_cons_iff in L. destruct L as [L1 L].
  rewrite FB in X. destruct (F q) as [| |z] eqn:Fq; cbn in X; [|discriminate|].
  - exact (given_operating o E r A L1 q w X).
  - apply (IH L q w). congruence.
Qed.

(** *** The values the engine reads *)
Definition fine (q : longhand) (v : pyval) : Prop := kind_ok q v /\ forall u, v = VUnit u -> library_unit u.
Lemma fine_initial q : engine_reads q = true -> fine q (css_initial q).
Proof.
  intros E. split; [apply engine_plain, E|]. intros u. destruct q; try discriminate E; cbn; intros X; try discriminate X; injection X as <-; exists "px"; left; reflexivity.
Qed.
Lemma fine_written q n v w m : engine_reads q = true -> library_value v -> written q n v w m -> fine q w.
Proof.
  intros E L W. apply (accepts_written q n v w m (engine_not_quotes q E)) in W. apply (validate_accepts plain_order _ _ _ _ _ plain_valid) in W. split.
  - apply (validated_kind plain_order q n v w m plain_valid); [apply engine_plain, E|exact W].
  - intros u ->. exact (validated_library plain_order plain_valid q n v u m E L W).
Qed.
Lemma fine_alike q v w : engine_reads q = true -> fine q v -> fine q w -> v = w \/ equals v w -> val_alike v w.
Proof.
  intros E [K LV] [M LW] [->|Q]; [left; reflexivity|].
  assert (NI : forall x, kind_ok q x -> x = VNone \/ (exists s, x = VStr s) \/ (exists u, x = VUnit u)).
  { intros x [X|[X|(_ & X)]]; [| |auto]; destruct q; try discriminate E; cbn in X; decompose [or False] X; subst; eauto; right; left; eexists; reflexivity. }
  destruct (NI v K) as [->|[[s ->]|[u ->]]], (NI w M) as [->|[[t ->]|[z ->]]]; try (left; reflexivity).
  all: inversion Q as [|? ? ? ? N1 N2| |? ? SL| | | | |? ? ? ? L1 L2| | | | | |]; subst; try (inversion N1; fail); try (inversion L1; fail); try (left; reflexivity).
  right. exists u, z. split; [reflexivity|]. split; [reflexivity|]. exact (same_kind u z (LV u eq_refl) (LW z eq_refl) SL).
Qed.
Lemma val_alike_trans a b c : val_alike a b -> val_alike b c -> val_alike a c.
Proof.
  intros [->|(x & y & -> & -> & A)] B; [exact B|]. right. destruct B as [<-|(z & t & X & -> & B)]; [exists x, y; auto|]. injection X as <-. exists x, t. split; [reflexivity|]. split; [reflexivity|].
  destruct A as [A1 A2], B as [B1 B2]. split; [intros k; rewrite A1; apply B1|congruence].
Qed.
Lemma val_alike_sym a b : val_alike a b -> val_alike b a.
Proof. intros [->|(x & y & -> & -> & [A B])]; [left; reflexivity|right; exists y, x]. split; [reflexivity|]. split; [reflexivity|]. split; [intros k; symmetry; apply A|congruence]. Qed.

Lemma written_same q n n' v w w' m m' : engine_reads q = true -> written q n v w m -> written q n' v w' m' -> w' = w.
Proof.
  intros E A B. assert (C : written q n' v w n').
  { assert (K : kind_of q = Some LengthK \/ kind_of q = None) by (destruct q; try discriminate E; cbn; auto).
    destruct A as [v u K' H|v z K' H|v w m K' H|v w K' H|v w K' H|v w m K' H|s I N|I|I|I]; try (destruct K as [K|K]; congruence); constructor; assumption. }
  pose proof (engine_not_quotes q E) as NQ. apply (accepts_written q n' v w n' NQ), (validate_accepts plain_order _ _ _ _ _ plain_valid) in C. apply (accepts_written q n' v w' m' NQ), (validate_accepts plain_order _ _ _ _ _ plain_valid) in B. congruence.
Qed.
(** A read after a program is alike to what the last write means. *)
Lemma read_meaning ho l E rs q v : valid_order ho -> Forall library_op l -> with_layouts l -> program l E rs -> engine_reads q = true -> means q (over Reset (E q)) v ->
  exists r, get_long ho (fst (run_ops ho l fresh_css first_free)) q = Ok r /\ val_alike r v /\ fine q v.
Proof.
  intros V L W P Q M. destruct (proj2 (C166_table ho l E rs V W P)) as [_ S]. specialize (S q). destruct (engine_plain q Q) as (_ & FO & _).
  remember (over Reset (E q)) as x eqn:EX. destruct M as [|y n w m WR].
  - destruct S as [_ G]. specialize (G FO). cbn [get_prop] in G. exists (css_initial q). split; [|split; [left; reflexivity|apply fine_initial, Q]].
    rewrite (get_long_plain _ _ _ V FO). rewrite (get_long_plain _ _ _ V FO) in G. cbn in G. destruct (c_store _ q); cbn in G; congruence.
  - assert (LY : library_value y) by (apply (given_program l E rs P L q); destruct (E q); cbn in EX; congruence).
    pose proof (fine_written q n y w m Q LY WR) as FW. destruct S as (n' & w' & m' & r & WR' & G & EQ). pose proof (fine_written q n' y w' m' Q LY WR') as FW'.
    cbn [get_prop] in G. rewrite (get_long_plain _ _ _ V FO) in *. cbn [bindr] in G. injection G as G. exists r. split; [congruence|].
    assert (FR : fine q r).
    { rewrite <- G. destruct (c_store _ q) as [z|] eqn:ST; [|apply fine_initial, Q]. split.
      - destruct (run_ops ho l fresh_css first_free) as [c' n2] eqn:RO. assert (R : reachable ho c' n2) by (exists l; exact RO). destruct (reachable_stored ho c' n2 V R q z ST) as (v0 & i & j & VA).
        apply (validated_kind ho q i v0 z j V); [apply engine_plain, Q|exact VA].
      - intros u ->. apply (library_run_ops ho V l fresh_css first_free L) with (q := q); [intros ? ? _ X; discriminate X|exact Q|exact ST]. }
    split; [|exact FW]. apply val_alike_trans with w'; [|].
    + apply val_alike_sym, (fine_alike q w' r Q FW' FR). destruct EQ as [<-|EQ]; auto.
    + left. exact (written_same q n n' y w w' m m' Q WR WR').
Qed.

(** C167. *)
Theorem C167_edits : forall h1 h2 d html5 n m, valid_order h1 -> valid_order h2 -> same_document (edited_alike h1 h2) n m ->
  same_result (layout_css h1 d html5 n) (layout_css h2 d html5 m).
Proof.
  intros h1 h2 d html5 n m V1 V2. apply layouts_same. intros a b (l1 & l2 & E1 & E2 & rs1 & rs2 & L1 & L2 & W1 & W2 & P1 & P2 & -> & -> & H). unfold declared_style.
  assert (OK : forall h l, valid_order h -> stored_ok h (fst (run_ops h l fresh_css first_free))).
  { intros h l V. destruct (run_ops h l fresh_css first_free) as [c k] eqn:RO. apply (reachable_stored h c k V). exists l. exact RO. }
  destruct (computed_view h1 _ V1 (OK h1 l1 V1)) as (s & -> & X), (computed_view h2 _ V2 (OK h2 l2 V2)) as (t & -> & Y).
  apply shows_alike. intros q v w E A B. apply X in A. apply Y in B. destruct (H q E) as (x & y & M1 & M2 & EQ).
  destruct (read_meaning h1 l1 E1 rs1 q x V1 L1 W1 P1 E M1) as (r1 & G1 & A1 & F1), (read_meaning h2 l2 E2 rs2 q y V2 L2 W2 P2 E M2) as (r2 & G2 & A2 & F2).
  assert (r1 = v) by congruence. assert (r2 = w) by congruence. subst r1 r2. apply val_alike_trans with x; [exact A1|]. apply val_alike_trans with y; [|apply val_alike_sym, A2].
  exact (fine_alike q x y E F1 F2 EQ).
Qed.
Print Assumptions C167_edits.
(** Example: the width is written once as a text, and in the other program as a
    number after another write and a deletion of all margins. *)
Definition once : list op := [OpSet (Long L_width) (VStr "12px")].
Definition twice : list op := [OpSet (Long L_width) (VStr "50%"); OpDel (Dir D_margin); OpBind (Some (Some true)); OpSet (Long L_width) (VInt 12)].
Example C167_example : exists a b, edited_alike plain_order reverse_order a b /\ c_store a L_width = Some (VUnit (unit_of "12px")) /\ c_node a <> c_node b.
Proof.
  pose (g := fun v q => if longhand_eq_dec q L_width then Give v else Keep).
  pose (r := fun q => if in_dec longhand_eq_dec q (longhands_of (Dir D_margin)) then Reset else Keep).
  assert (LV : forall v, (forall l, ~ members v l) -> (forall u, v <> VUnit u) -> library_value v).
  { intros x N1 N2 u X. inversion X as [|a b l y M]; subst; [destruct (N2 u); reflexivity|destruct (N1 l M)]. }
  assert (A : forall v u, validate (ho_set plain_order) (choices_of L_width) 0 v = Ok (VUnit u, 0%nat) -> operating (OpSet (Long L_width) v) (g v) None).
  { intros v u W. apply operate_set, assign_long; [discriminate| | |].
    - exists 0%nat, (VUnit u), 0%nat. apply computed_written; [discriminate|exact W].
    - unfold g. destruct (longhand_eq_dec L_width L_width); [reflexivity|contradiction].
    - intros q N. unfold g. destruct (longhand_eq_dec q L_width); [contradiction|reflexivity]. }
  exists (fst (run_ops plain_order once fresh_css first_free)), (fst (run_ops reverse_order twice fresh_css first_free)).
  split; [|split; [vm_compute; reflexivity|vm_compute; discriminate]].
  exists once, twice, (fun q => over (g (VStr "12px") q) Keep), (fun q => over (g (VStr "50%") q) (over (r q) (over Keep (over (g (VInt 12) q) Keep)))), [None], [None; None; None; None].
  split; [constructor; [apply text_library|constructor]|].
  split. { constructor; [apply text_library|]. constructor; [exact I|]. constructor; [exact I|]. constructor; [|constructor]. apply LV; [intros l [X|[X|X]]|]; discriminate. }
  split; [intros N; cbn in N; intuition discriminate|]. split; [intros N; cbn in N; intuition discriminate|].
  split. { eapply program_step; [exact (A (VStr "12px") (unit_of "12px") ltac:(vm_compute; reflexivity))|apply program_end with (E := fun _ => Keep); intros q; reflexivity|intros q; reflexivity]. }
  split.
  { eapply program_step; [exact (A (VStr "50%") (unit_of "50%") ltac:(vm_compute; reflexivity))| |intros q; reflexivity].
    eapply program_step with (E := r); [apply operate_del; split; intros q H; unfold r; destruct (in_dec longhand_eq_dec q (longhands_of (Dir D_margin))); try reflexivity; contradiction| |intros q; reflexivity].
    eapply program_step with (E := fun _ => Keep); [apply operate_bind; intros q; reflexivity| |intros q; reflexivity].
    eapply program_step; [exact (A (VInt 12) (mkU KPx (PI 12)) ltac:(vm_compute; reflexivity))|apply program_end with (E := fun _ => Keep); intros q; reflexivity|intros q; reflexivity]. }
  split; [reflexivity|]. split; [reflexivity|]. intros q Q. unfold g, r. destruct (longhand_eq_dec q L_width) as [->|N].
  - exists (VUnit (unit_of "12px")), (VUnit (mkU KPx (PI 12))). split; [|split; [|right; apply eq_length; split; [constructor|split; [vm_compute; f_equal; apply Qc_is_canon; reflexivity|discriminate]]]]; apply means_given with (n := 0%nat) (m := 0%nat); apply computed_written; try discriminate; vm_compute; reflexivity.
  - exists (css_initial q), (css_initial q). split; [constructor|]. split; [|left; reflexivity]. destruct (in_dec longhand_eq_dec q (longhands_of (Dir D_margin))); constructor.
Qed.
