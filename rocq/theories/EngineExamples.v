(** * Concrete documents used by the examples beside the theorems *)
From Coq Require Import ZArith QArith Qcanon Bool String List.
From Verif Require Import PyNum Units BoxModel Engine EngineSpec.
Import ListNotations.
Open Scope Z_scope.

Definition pxu (z : Z) : unit_ := mkU KPx (PI z).
Definition pctu (z : Z) : unit_ := mkU KPct (PI z).
Definition emu (z : Z) : unit_ := mkU (KFont "em"%string) (PI z).
Definition zero_px : unit_ := pxu 0.

Definition block_style : style := {|
  st_display := Some DBlock; st_position := PStatic; st_float := None; st_direction := LTR;
  st_width := Auto; st_height := Auto; st_min_width := Auto; st_min_height := Auto;
  st_max_width := None; st_max_height := None;
  st_margin_top := Len zero_px; st_margin_right := Len zero_px;
  st_margin_bottom := Len zero_px; st_margin_left := Len zero_px;
  st_padding_top := zero_px; st_padding_right := zero_px;
  st_padding_bottom := zero_px; st_padding_left := zero_px;
  st_border_top := BLen zero_px; st_border_right := BLen zero_px;
  st_border_bottom := BLen zero_px; st_border_left := BLen zero_px;
  st_top := OAuto; st_right := OAuto; st_bottom := OAuto; st_left := OAuto;
  st_border_top_style := None; st_border_right_style := None;
  st_border_bottom_style := None; st_border_left_style := None |}.

(** Single-field changes of a style. *)
Definition s_display (v : option display_k) (s : style) : style :=
  let 'mkStyle _ b c d e f g h i j k l m n o p q r t u v0 w x y z a1 b1 c1 d1 e1 := s in
  mkStyle v b c d e f g h i j k l m n o p q r t u v0 w x y z a1 b1 c1 d1 e1.
Definition s_position (v : position_k) (s : style) : style :=
  let 'mkStyle a _ c d e f g h i j k l m n o p q r t u v0 w x y z a1 b1 c1 d1 e1 := s in
  mkStyle a v c d e f g h i j k l m n o p q r t u v0 w x y z a1 b1 c1 d1 e1.
Definition s_float (v : option side_k) (s : style) : style :=
  let 'mkStyle a b _ d e f g h i j k l m n o p q r t u v0 w x y z a1 b1 c1 d1 e1 := s in
  mkStyle a b v d e f g h i j k l m n o p q r t u v0 w x y z a1 b1 c1 d1 e1.
Definition s_direction (v : direction_k) (s : style) : style :=
  let 'mkStyle a b c _ e f g h i j k l m n o p q r t u v0 w x y z a1 b1 c1 d1 e1 := s in
  mkStyle a b c v e f g h i j k l m n o p q r t u v0 w x y z a1 b1 c1 d1 e1.
Definition s_size (wd hg : lenauto) (s : style) : style :=
  let 'mkStyle a b c d _ _ g h i j k l m n o p q r t u v0 w x y z a1 b1 c1 d1 e1 := s in
  mkStyle a b c d wd hg g h i j k l m n o p q r t u v0 w x y z a1 b1 c1 d1 e1.
Definition s_limits (miw mih : lenauto) (maw mah : option unit_) (s : style) : style :=
  let 'mkStyle a b c d e f _ _ _ _ k l m n o p q r t u v0 w x y z a1 b1 c1 d1 e1 := s in
  mkStyle a b c d e f miw mih maw mah k l m n o p q r t u v0 w x y z a1 b1 c1 d1 e1.
Definition s_margin (mt mr mb ml : lenauto) (s : style) : style :=
  let 'mkStyle a b c d e f g h i j _ _ _ _ o p q r t u v0 w x y z a1 b1 c1 d1 e1 := s in
  mkStyle a b c d e f g h i j mt mr mb ml o p q r t u v0 w x y z a1 b1 c1 d1 e1.
Definition s_padding (pt pr pb pl : unit_) (s : style) : style :=
  let 'mkStyle a b c d e f g h i j k l m n _ _ _ _ t u v0 w x y z a1 b1 c1 d1 e1 := s in
  mkStyle a b c d e f g h i j k l m n pt pr pb pl t u v0 w x y z a1 b1 c1 d1 e1.
Definition s_border (bt br bb bl : bwidth) (s : style) : style :=
  let 'mkStyle a b c d e f g h i j k l m n o p q r _ _ _ _ x y z a1 b1 c1 d1 e1 := s in
  mkStyle a b c d e f g h i j k l m n o p q r bt br bb bl x y z a1 b1 c1 d1 e1.
Definition s_offsets (ot or ob ol : offset) (s : style) : style :=
  let 'mkStyle a b c d e f g h i j k l m n o p q r t u v0 w _ _ _ _ b1 c1 d1 e1 := s in
  mkStyle a b c d e f g h i j k l m n o p q r t u v0 w ot or ob ol b1 c1 d1 e1.

Definition doc := node style.
Definition idsty (s : style) : style := s.
Definition el (s : style) (ks : list doc) : doc := Node s size0 (Some box0) ks.
Definition screen : display_t :=
  mkDisp (NI 96) (NI 1000) (NI 600) (fun k => match k with Thin => NI 1 | Medium => NI 3 | Thick => NI 5 end).
Definition out (h5 : bool) (n : doc) : doc := fst (layout idsty screen h5 n).
Definition ok (h5 : bool) (n : doc) : bool := match snd (layout idsty screen h5 n) with Ok _ => true | Err _ => false end.
Definition kid (i : nat) (n : doc) : doc := nth i (n_kids n) n.

Lemma ok_layout h5 n : ok h5 n = true -> layout idsty screen h5 n = (out h5 n, Ok tt).
Proof.
  unfold ok, out. destruct (layout idsty screen h5 n) as [n' [[]|e]]; [reflexivity|discriminate].
Qed.
Lemma laid_out_root h5 n : match st_display (n_style (out h5 n)) with Some _ => true | None => false end = true ->
  laid idsty (out h5 n) None (out h5 n).
Proof. intros H. apply laid_root. unfold displayed, idsty. destruct (st_display _); [discriminate|congruence]. Qed.
Lemma laid_out_kid h5 n i p op :
  laid idsty (out h5 n) op p -> (Nat.ltb i (length (n_kids p)) &&
  match st_display (n_style (kid i p)) with Some _ => true | None => false end &&
  (establishes_inline idsty p || is_block_level (n_style (kid i p))))%bool = true ->
  laid idsty (out h5 n) (Some p) (kid i p).
Proof.
  intros L H. apply andb_prop in H. destruct H as [H H3]. apply andb_prop in H. destruct H as [H1 H2].
  eapply laid_kid; [exact L| | |].
  - apply nth_In, Nat.ltb_lt, H1.
  - unfold displayed, idsty. destruct (st_display _); [discriminate|congruence].
  - apply orb_prop, H3.
Qed.

(** The field of a box of a laid out document, for computations. *)
Definition bx (n : doc) : box := match n_box n with Some b => b | None => box0 end.
Definition lq (v : lval) : option Q := match v with LNum x => Some (this (nval x)) | _ => None end.

Ltac solve_boxed :=
  constructor; let k := fresh "k" in let H := fresh "H" in
  intros k H; hnf in H;
  repeat match type of H with In _ _ => hnf in H | _ \/ _ => destruct H as [H|H]; [subst k; solve_boxed|] | False => destruct H end.
Lemma boxed_ready {S} (sty : S -> style) (n : node S) : boxed n -> ready sty n.
Proof. induction 1. apply ready_boxed. assumption. Qed.

Definition hpx (z : Z) (s : style) : style := s_size Auto (Len (pxu z)) s.
Definition vmargin (t b : Z) (s : style) : style := s_margin (Len (pxu t)) (Len zero_px) (Len (pxu b)) (Len zero_px) s.
Ltac laid_tac := repeat first [ apply laid_out_root; vm_compute; reflexivity
  | eapply laid_out_kid; [|vm_compute; reflexivity] ].
