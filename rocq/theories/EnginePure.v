(** * The layout computation without origins

    [layout_box] of Engine.v threads a tree whose boxes push origins to their
    descendants.  Here the same computation is given on trees without origins
    (all origins erased by [strip]); [layout_box_strip] proves that the engine
    computes exactly this, so geometry can be studied without propagation.
    Nothing here is part of the model: it is a proof device. *)
From Coq Require Import ZArith QArith Qcanon Lqa Lia Bool List.
From Verif Require Import PyNum NumFacts Units BoxModel BoxSpec BoxFacts Engine.
Import ListNotations.
Open Scope Z_scope.

(** ** Boxes with erased origins *)
Definition sb (b : box) : box := upd_origin_top n0 (upd_origin_left n0 b).

Definition commutes {A} (m : BM A) : Prop :=
  forall b, m (sb b) = let (b', r) := m b in (sb b', r).

Lemma commutes_ret {A} (a : A) : commutes (bret a). Proof. intros b. reflexivity. Qed.
Lemma commutes_fail {A} e : commutes (@bfail A e). Proof. intros b. reflexivity. Qed.
Lemma commutes_lift {A} (r : res A) : commutes (blift r). Proof. intros b. reflexivity. Qed.
Lemma commutes_bind {A B} (m : BM A) (f : A -> BM B) :
  commutes m -> (forall a, commutes (f a)) -> commutes (bbind m f).
Proof.
  intros Hm Hf b. unfold bbind. rewrite Hm. destruct (m b) as [b' [a|e]]; [apply Hf|reflexivity].
Qed.
Lemma commutes_mod f : (forall b, f (sb b) = sb (f b)) -> commutes (bmod f).
Proof. intros H b. unfold bmod. rewrite H. reflexivity. Qed.
Lemma commutes_get {A} (f : box -> A) : (forall b, f (sb b) = f b) -> commutes (bget f).
Proof. intros H b. unfold bget. rewrite H. reflexivity. Qed.
Lemma commutes_num f : (forall b, f (sb b) = f b) -> commutes (bnum f).
Proof. intros H b. unfold bnum. rewrite H. reflexivity. Qed.
Lemma commutes_add_unless_auto acc f : (forall b, f (sb b) = f b) -> commutes (add_unless_auto acc f).
Proof. intros H b. unfold add_unless_auto. rewrite H. destruct (is_auto (f b)); reflexivity. Qed.

Lemma sb_margin_top v b : set_margin_top v (sb b) = sb (set_margin_top v b).
Proof. destruct b. unfold set_margin_top. cbn. destruct (leqb _ _); reflexivity. Qed.
Lemma sb_margin_right v b : set_margin_right v (sb b) = sb (set_margin_right v b).
Proof. destruct b. unfold set_margin_right. cbn. destruct (leqb _ _); reflexivity. Qed.
Lemma sb_margin_bottom v b : set_margin_bottom v (sb b) = sb (set_margin_bottom v b).
Proof. destruct b. unfold set_margin_bottom. cbn. destruct (leqb _ _); reflexivity. Qed.
Lemma sb_margin_left v b : set_margin_left v (sb b) = sb (set_margin_left v b).
Proof. destruct b. unfold set_margin_left. cbn. destruct (leqb _ _); reflexivity. Qed.
Lemma sb_collapse_top v b : set_collapse_top v (sb b) = sb (set_collapse_top v b).
Proof. destruct b. reflexivity. Qed.
Lemma sb_collapse_bottom v b : set_collapse_bottom v (sb b) = sb (set_collapse_bottom v b).
Proof. destruct b. reflexivity. Qed.
Lemma sb_cw v b : upd_content_width v (sb b) = sb (upd_content_width v b).
Proof. destruct b; reflexivity. Qed.
Lemma sb_ch v b : upd_content_height v (sb b) = sb (upd_content_height v b).
Proof. destruct b; reflexivity. Qed.
Lemma sb_bt v b : upd_border_top_width v (sb b) = sb (upd_border_top_width v b).
Proof. destruct b; reflexivity. Qed.
Lemma sb_br v b : upd_border_right_width v (sb b) = sb (upd_border_right_width v b).
Proof. destruct b; reflexivity. Qed.
Lemma sb_bb v b : upd_border_bottom_width v (sb b) = sb (upd_border_bottom_width v b).
Proof. destruct b; reflexivity. Qed.
Lemma sb_bl v b : upd_border_left_width v (sb b) = sb (upd_border_left_width v b).
Proof. destruct b; reflexivity. Qed.
Lemma sb_pt v b : upd_padding_top v (sb b) = sb (upd_padding_top v b).
Proof. destruct b; reflexivity. Qed.
Lemma sb_pr v b : upd_padding_right v (sb b) = sb (upd_padding_right v b).
Proof. destruct b; reflexivity. Qed.
Lemma sb_pb v b : upd_padding_bottom v (sb b) = sb (upd_padding_bottom v b).
Proof. destruct b; reflexivity. Qed.
Lemma sb_pl v b : upd_padding_left v (sb b) = sb (upd_padding_left v b).
Proof. destruct b; reflexivity. Qed.
Lemma sb_ct v b : upd_content_top v (sb b) = sb (upd_content_top v b).
Proof. destruct b; reflexivity. Qed.
Lemma sb_cl v b : upd_content_left v (sb b) = sb (upd_content_left v b).
Proof. destruct b; reflexivity. Qed.
Lemma sb_ot v b : sb (upd_origin_top v b) = sb b. Proof. destruct b; reflexivity. Qed.
Lemma sb_ol v b : sb (upd_origin_left v b) = sb b. Proof. destruct b; reflexivity. Qed.
Lemma sb_idem b : sb (sb b) = sb b. Proof. destruct b; reflexivity. Qed.

Ltac commute := repeat first
  [ apply commutes_ret | apply commutes_fail | apply commutes_lift
  | apply commutes_bind; [|intros ?]
  | apply commutes_mod; intros ?; first
      [ apply sb_margin_top | apply sb_margin_right | apply sb_margin_bottom | apply sb_margin_left
      | apply sb_collapse_bottom | apply sb_cw | apply sb_ch | apply sb_bt | apply sb_br | apply sb_bb
      | apply sb_bl | apply sb_pt | apply sb_pr | apply sb_pb | apply sb_pl ]
  | apply commutes_get; intros []; reflexivity
  | apply commutes_num; intros []; reflexivity
  | apply commutes_add_unless_auto; intros []; reflexivity
  | match goal with |- commutes (match ?x with _ => _ end) => destruct x end ].

Lemma commutes_auto_left0 : commutes auto_left0.
Proof.
  apply commutes_mod. intros b.
  replace (is_auto (margin_left (sb b))) with (is_auto (margin_left b)) by (destruct b; reflexivity).
  destruct (is_auto (margin_left b)); [apply sb_margin_left|reflexivity].
Qed.
Lemma commutes_auto_right0 : commutes auto_right0.
Proof.
  apply commutes_mod. intros b.
  replace (is_auto (margin_right (sb b))) with (is_auto (margin_right b)) by (destruct b; reflexivity).
  destruct (is_auto (margin_right b)); [apply sb_margin_right|reflexivity].
Qed.
Lemma commutes_auto_top0 : commutes auto_top0.
Proof.
  apply commutes_mod. intros b.
  replace (is_auto (margin_top (sb b))) with (is_auto (margin_top b)) by (destruct b; reflexivity).
  destruct (is_auto (margin_top b)); [apply sb_margin_top|reflexivity].
Qed.
Lemma commutes_auto_bottom0 : commutes auto_bottom0.
Proof.
  apply commutes_mod. intros b.
  replace (is_auto (margin_bottom (sb b))) with (is_auto (margin_bottom b)) by (destruct b; reflexivity).
  destruct (is_auto (margin_bottom b)); [apply sb_margin_bottom|reflexivity].
Qed.
Ltac commute' := repeat first
  [ apply commutes_auto_left0 | apply commutes_auto_right0 | apply commutes_auto_top0
  | apply commutes_auto_bottom0 | progress commute ].

Lemma commutes_copy_edges s hz vt : commutes (copy_edges s hz vt).
Proof. unfold copy_edges. commute'. Qed.
Lemma commutes_left_edge : commutes left_edge. Proof. unfold left_edge. commute'. Qed.
Lemma commutes_top_edge : commutes top_edge. Proof. unfold top_edge. commute'. Qed.
Lemma commutes_avail_width c : commutes (avail_width c). Proof. unfold avail_width. commute'. Qed.
Lemma commutes_calculate_width s i c : commutes (calculate_width s i c).
Proof.
  unfold calculate_width, inline_replaced_width, inline_non_replaced_width, block_non_replaced_width,
    drop_auto_margins, solve_right, solve_left, split_margins.
  repeat first [ apply commutes_left_edge | apply commutes_avail_width | progress commute' ].
Qed.

(** The last child's box only matters up to origins. *)
Lemma border_box_bottom_sb b : border_box_bottom (sb b) = border_box_bottom b.
Proof. destruct b; reflexivity. Qed.
Lemma commutes_calculate_height s i ph last c : commutes (calculate_height s i ph last c).
Proof.
  unfold calculate_height, inline_replaced_height, inline_non_replaced_height, block_non_replaced_height,
    block_content_height.
  repeat first [ apply commutes_top_edge | progress commute' ].
Qed.
Lemma calculate_height_last s i ph last c :
  calculate_height s i ph (option_map (option_map sb) last) c = calculate_height s i ph last c.
Proof.
  unfold calculate_height, block_non_replaced_height, block_content_height.
  destruct last as [[lb|]|]; cbn [option_map]; [|reflexivity|reflexivity].
  rewrite border_box_bottom_sb. destruct lb; reflexivity.
Qed.

(** ** The computation without origins *)
Definition run {A} (m : BM A) (b : box) : res (box * A) :=
  match m b with (b', Ok a) => Ok (b', a) | (_, Err e) => Err e end.
Definition setn (v old : num) : num := if neqb v old then old else v.
Definition move_top (v : num) (b : box) : box := upd_content_top (setn v (content_top b)) b.
Definition move_left (v : num) (b : box) : box := upd_content_left (setn v (content_left b)) b.

Definition wphase (s : style) (i : size) (hz vt : ctx) (b : box) : res box :=
  p <-r run (copy_edges s hz vt) b ;;
  q <-r run (calculate_width s i hz) (fst p) ;;
  Ok (match snd q with Some l => move_left l (fst q) | None => fst q end).

Definition hphase (s : style) (i : size) (ph : option unit_) (last : option (option box)) (vt : ctx)
    (b : box) : res box :=
  q <-r run (calculate_height s i ph last vt) b ;;
  Ok (move_top (nadd (content_top (fst q)) (snd q)) (fst q)).

Section Pure.
Context {S : Type} (sty : S -> style).
Notation node := (node S).
Notation cblock := (@cblock S).

Fixpoint strip (n : node) : node :=
  let 'Node s i b ks := n in Node s i (option_map sb b) (map strip ks).
Definition scb (cb : cblock) : cblock :=
  match cb with CBView => CBView | CBNode s b => CBNode s (sb b) end.

Definition shift_box (d : display_t) (f : font_t) (cb : cblock) (s : style) (b : box) : res box :=
  if is_relative s then
    vl <-r rel_offset (hctx d f cb) (st_left s) (st_right s)
             (cb_attr (fun b => Ok (content_left b)) cb) (cb_attr content_right cb) ;;
    vt <-r rel_offset (vctx d f cb) (st_top s) (st_bottom s)
             (cb_attr (fun b => Ok (content_top b)) cb) (cb_attr content_bottom cb) ;;
    Ok (let b1 := move_left (nadd (content_left b) vl) b in
        move_top (nadd (content_top b1) vt) b1)
  else Ok b.

Fixpoint pall (lay : node -> res node) (ks : list node) : res (list node) :=
  match ks with
  | [] => Ok []
  | k :: ks' => k' <-r lay k ;; ks2 <-r pall lay ks' ;; Ok (k' :: ks2)
  end.

Definition pplace (kb b : box) (off : num) (bm : option Z) : res (box * box * num * option Z) :=
  let b1 := match bm with None => set_collapse_top (LNum (NI (collapse_top kb))) b | Some _ => b end in
  o <-r match bm with
        | None => Ok off
        | Some m => mt <-r as_num (margin_top kb) ;; Ok (nadd off (nmax (NI m) mt))
        end ;;
  h <-r border_box_height kb ;;
  Ok (move_top (nadd (content_top kb) o) kb, b1, nadd o h, Some (collapse_bottom kb)).

Fixpoint pflow (lay : box -> node -> res node) (ks : list node) (pend : bool)
    (b : box) (off : num) (bm : option Z) : res (list node * box) :=
  match ks with
  | [] => Ok ([], b)
  | k :: ks' =>
      if is_block_level (sty (n_style k)) then
        if pend then Err AttributeError
        else
          k1 <-r lay b k ;;
          match n_box k1 with
          | None => Err AttributeError
          | Some kb =>
              q <-r pplace kb b off bm ;;
              let '(kb', b', off', bm') := q in
              r <-r pflow lay ks' false b' off' bm' ;;
              Ok (with_box (Some kb') k1 :: fst r, snd r)
          end
      else
        r <-r pflow lay ks' true b off bm ;; Ok (k :: fst r, snd r)
  end.

Definition pchildren (lay : cblock -> node -> res node) (s : S) (i : size) (b : box) (ks : list node)
    : res (list node * box) :=
  if establishes_inline sty (Node s i (Some b) ks)
  then r <-r pall (lay (CBNode s b)) ks ;; Ok (r, b)
  else pflow (fun b0 => lay (CBNode s b0)) ks false b n0 None.

Definition last_box (ks : list node) : option (option box) :=
  match rev ks with [] => None | k :: _ => Some (n_box k) end.

Fixpoint plb (fuel : nat) (d : display_t) (f : font_t) (cb : cblock) (n : node) {struct fuel} : res node :=
  match fuel with
  | O => Err OutOfFuel
  | Datatypes.S fuel' =>
      let 'Node s0 i bx ks := n in
      let s := sty s0 in
      let hz := hctx d f cb in
      let vt := vctx d f cb in
      match st_display s with
      | None => Ok (Node s0 i None ks)
      | Some _ =>
          b1 <-r wphase s i hz vt (match bx with Some b => b | None => box0 end) ;;
          b2 <-r (if is_relative s then hphase s i (cb_style_height sty cb) (last_box ks) vt b1 else Ok b1) ;;
          r <-r (if is_abspos s then Err NotImplementedError
                 else if is_float s then Err NotImplementedError
                 else pchildren (plb fuel' d f) s0 i b2 ks) ;;
          b3 <-r hphase s i (cb_style_height sty cb) (last_box (fst r)) vt (snd r) ;;
          b4 <-r shift_box d f cb s b3 ;;
          Ok (Node s0 i (Some b4) (fst r))
      end
  end.

Definition pfinish (d : display_t) (html5 : bool) (n : node) : res node :=
  let 'Node s i bx ks := n in
  match bx with
  | None => Err AttributeError
  | Some b =>
      let b1 := move_top (nadd (content_top b) (NI (collapse_top b))) b in
      Ok (Node s i (Some (if html5
        then upd_content_height
              (LNum (nsub (nsub (disp_height d) (NI (collapse_top b))) (NI (collapse_bottom b)))) b1
        else b1)) ks)
  end.

Definition playout (d : display_t) (html5 : bool) (n : node) : res node :=
  n1 <-r plb (height n) d dummy_font CBView n ;; pfinish d html5 n1.

(** ** The engine computes [plb] *)
Definition outcome (p : node * res unit) : res node :=
  match p with (n', Ok _) => Ok (strip n') | (_, Err e) => Err e end.

Lemma n_style_strip n : n_style (strip n) = n_style n. Proof. destruct n; reflexivity. Qed.
Lemma n_intr_strip n : n_intr (strip n) = n_intr n. Proof. destruct n; reflexivity. Qed.
Lemma n_box_strip n : n_box (strip n) = option_map sb (n_box n). Proof. destruct n; reflexivity. Qed.
Lemma n_kids_strip n : n_kids (strip n) = map strip (n_kids n). Proof. destruct n; reflexivity. Qed.

Lemma strip_origin_top v n : strip (set_origin_top v n) = strip n.
Proof.
  revert v. induction n as [s i b ks IH] using node_ind'. intros v. destruct b as [b|]; [|reflexivity].
  cbn [set_origin_top]. destruct (neqb v (origin_top b)); [reflexivity|].
  cbn [strip option_map]. rewrite sb_ot. f_equal. rewrite map_map. apply map_ext_in. intros k Hk. apply IH, Hk.
Qed.
Lemma strip_origin_left v n : strip (set_origin_left v n) = strip n.
Proof.
  revert v. induction n as [s i b ks IH] using node_ind'. intros v. destruct b as [b|]; [|reflexivity].
  cbn [set_origin_left]. destruct (neqb v (origin_left b)); [reflexivity|].
  cbn [strip option_map]. rewrite sb_ol. f_equal. rewrite map_map. apply map_ext_in. intros k Hk. apply IH, Hk.
Qed.
Lemma upd_content_top_same b : upd_content_top (content_top b) b = b. Proof. destruct b; reflexivity. Qed.
Lemma upd_content_left_same b : upd_content_left (content_left b) b = b. Proof. destruct b; reflexivity. Qed.
Lemma content_top_sb b : content_top (sb b) = content_top b. Proof. destruct b; reflexivity. Qed.
Lemma content_left_sb b : content_left (sb b) = content_left b. Proof. destruct b; reflexivity. Qed.
Lemma move_top_sb v b : move_top v (sb b) = sb (move_top v b).
Proof. unfold move_top. rewrite content_top_sb, sb_ct. reflexivity. Qed.
Lemma move_left_sb v b : move_left v (sb b) = sb (move_left v b).
Proof. unfold move_left. rewrite content_left_sb, sb_cl. reflexivity. Qed.

Lemma strip_content_top v (s : S) i b ks :
  strip (set_content_top v (Node s i (Some b) ks)) = Node s i (Some (move_top v (sb b))) (map strip ks).
Proof.
  rewrite move_top_sb. unfold move_top, setn. cbn [set_content_top]. destruct (neqb v (content_top b)).
  - rewrite upd_content_top_same. reflexivity.
  - cbn [strip option_map]. f_equal. rewrite map_map. apply map_ext. intros k. apply strip_origin_top.
Qed.
Lemma strip_content_left v (s : S) i b ks :
  strip (set_content_left v (Node s i (Some b) ks)) = Node s i (Some (move_left v (sb b))) (map strip ks).
Proof.
  rewrite move_left_sb. unfold move_left, setn. cbn [set_content_left]. destruct (neqb v (content_left b)).
  - rewrite upd_content_left_same. reflexivity.
  - cbn [strip option_map]. f_equal. rewrite map_map. apply map_ext. intros k. apply strip_origin_left.
Qed.

Lemma run_sb {A} (m : BM A) b : commutes m ->
  run m (sb b) = (p <-r run m b ;; Ok (sb (fst p), snd p)).
Proof. intros H. unfold run. rewrite H. destruct (m b) as [b' [a|e]]; reflexivity. Qed.

Lemma cb_width_scb d cb : cb_width d (scb cb) = cb_width d cb.
Proof. destruct cb as [|s b]; [reflexivity|]. destruct b; reflexivity. Qed.
Lemma cb_height_scb d cb : cb_height d (scb cb) = cb_height d cb.
Proof. destruct cb as [|s b]; [reflexivity|]. destruct b; reflexivity. Qed.
Lemma hctx_scb d f cb : hctx d f (scb cb) = hctx d f cb.
Proof. unfold hctx. rewrite cb_width_scb. reflexivity. Qed.
Lemma vctx_scb d f cb : vctx d f (scb cb) = vctx d f cb.
Proof. unfold vctx. rewrite cb_height_scb. reflexivity. Qed.
Lemma cb_style_height_scb cb : cb_style_height sty (scb cb) = cb_style_height sty cb.
Proof. destruct cb; reflexivity. Qed.
Lemma cb_attr_scb g cb : (forall b, g (sb b) = g b) -> cb_attr g (scb cb) = cb_attr g cb.
Proof. intros H. destruct cb as [|s b]; [reflexivity|]. apply H. Qed.

(** Box computations of the engine, seen through [run]. *)
Lemma on_box_some {A} (m : BM A) (s : S) i b ks :
  on_box m (Node s i (Some b) ks) =
  match run m b with
  | Ok (b', a) => (Node s i (Some b') ks, Ok a)
  | Err e => (Node s i (Some (fst (m b))) ks, Err e)
  end.
Proof. unfold on_box, run. destruct (m b) as [b' [a|e]]; reflexivity. Qed.

Lemma last_layout_strip (s : S) i b ks :
  last_box (map strip ks) = option_map (option_map sb) (last_layout (Node s i b ks)).
Proof.
  unfold last_box, last_layout. cbn [n_kids]. rewrite <- map_rev. destruct (rev ks) as [|k l]; [reflexivity|].
  cbn [map option_map]. rewrite n_box_strip. reflexivity.
Qed.

(** Height step. *)
Lemma height_step vt (cb : cblock) (s : S) i b ks :
  match calculate_height_and_margins sty vt cb (Node s i (Some b) ks) with
  | (n', Ok _) => exists b' ks', n' = Node s i (Some b') ks' /\ map strip ks' = map strip ks
       /\ hphase (sty s) i (cb_style_height sty cb) (last_box (map strip ks)) vt (sb b) = Ok (sb b')
  | (_, Err e) => hphase (sty s) i (cb_style_height sty cb) (last_box (map strip ks)) vt (sb b) = Err e
  end.
Proof.
  unfold calculate_height_and_margins, mbind. cbn [n_style n_intr]. rewrite on_box_some.
  rewrite (last_layout_strip s i (Some b) ks). unfold hphase. rewrite calculate_height_last.
  rewrite run_sb by apply commutes_calculate_height.
  destruct (run _ b) as [[b1 a]|e]; cbn [bindr fst snd]; [|reflexivity].
  unfold add_content_top. cbn [n_box].
  pose proof (strip_content_top (nadd (content_top b1) a) s i b1 ks) as X.
  destruct (set_content_top _ _) as [s' i' bx' ks'] eqn:E. cbn [strip] in X. injection X as -> -> X2 X3.
  destruct bx' as [b'|]; [|discriminate]. exists b', ks'. cbn [option_map] in X2. injection X2 as X2.
  split; [reflexivity|]. split; [exact X3|]. rewrite content_top_sb, X2. reflexivity.
Qed.

(** Width step. *)
Lemma width_step hz (s : S) i b ks :
  match calculate_width_and_margins sty hz (Node s i (Some b) ks) with
  | (n', Ok _) => exists b' ks', n' = Node s i (Some b') ks' /\ map strip ks' = map strip ks
       /\ (q <-r run (calculate_width (sty s) i hz) (sb b) ;;
           Ok (match snd q with Some l => move_left l (fst q) | None => fst q end)) = Ok (sb b')
  | (_, Err e) => (q <-r run (calculate_width (sty s) i hz) (sb b) ;;
           Ok (match snd q with Some l => move_left l (fst q) | None => fst q end)) = Err e
  end.
Proof.
  unfold calculate_width_and_margins, mbind. cbn [n_style n_intr]. rewrite on_box_some.
  rewrite run_sb by apply commutes_calculate_width.
  destruct (run _ b) as [[b1 a]|e]; cbn [bindr fst snd]; [|reflexivity].
  destruct a as [l|]; cbn [mmod mret].
  - unfold mmod. pose proof (strip_content_left l s i b1 ks) as X.
    destruct (set_content_left _ _) as [s' i' bx' ks'] eqn:E. cbn [strip] in X. injection X as -> -> X2 X3.
    destruct bx' as [b'|]; [|discriminate]. exists b', ks'. cbn [option_map] in X2. injection X2 as X2.
    split; [reflexivity|]. split; [exact X3|]. rewrite X2. reflexivity.
  - exists b1, ks. repeat split.
Qed.

Lemma lay_all_strip (lay : node -> node * res unit) (lay' : node -> res node) ks :
  (forall k, In k ks -> lay' (strip k) = outcome (lay k)) ->
  match lay_all lay ks with
  | (ks', Ok _) => pall lay' (map strip ks) = Ok (map strip ks')
  | (_, Err e) => pall lay' (map strip ks) = Err e
  end.
Proof.
  induction ks as [|k ks IH]; intros H; [reflexivity|]. cbn [lay_all map pall].
  rewrite (H k) by (left; reflexivity). unfold outcome. destruct (lay k) as [k' [[]|e]]; cbn [bindr]; [|reflexivity].
  specialize (IH (fun k0 Hk => H k0 (or_intror Hk))).
  destruct (lay_all lay ks) as [ks' [[]|e]]; rewrite IH; reflexivity.
Qed.

Lemma border_box_height_sb b : border_box_height (sb b) = border_box_height b.
Proof. destruct b; reflexivity. Qed.
Lemma margin_top_sb b : margin_top (sb b) = margin_top b. Proof. destruct b; reflexivity. Qed.
Lemma collapse_top_sb b : collapse_top (sb b) = collapse_top b. Proof. destruct b; reflexivity. Qed.
Lemma collapse_bottom_sb b : collapse_bottom (sb b) = collapse_bottom b. Proof. destruct b; reflexivity. Qed.

Lemma place_child_strip k kb b off bm : n_box k = Some kb ->
  match place_child k b off bm with
  | (k', b', Ok (off', bm')) => exists kb', strip k' = with_box (Some (sb kb')) (strip k)
       /\ pplace (sb kb) (sb b) off bm = Ok (sb kb', sb b', off', bm')
  | (_, _, Err e) => pplace (sb kb) (sb b) off bm = Err e
  end.
Proof.
  intros Hk. unfold place_child. rewrite Hk. destruct k as [ks0 ki kbx kks]. cbn in Hk. subst kbx.
  unfold pplace. rewrite margin_top_sb, collapse_top_sb, border_box_height_sb, collapse_bottom_sb, content_top_sb.
  destruct bm as [m|].
  - destruct (as_num (margin_top kb)) as [mt|e]; cbn [bindr]; [|reflexivity].
    destruct (border_box_height kb) as [h|e]; cbn [bindr]; [|reflexivity].
    eexists. split; [rewrite strip_content_top, move_top_sb; reflexivity|]. rewrite move_top_sb. reflexivity.
  - cbn [bindr]. destruct (border_box_height kb) as [h|e]; cbn [bindr]; [|reflexivity].
    eexists. split; [rewrite strip_content_top, move_top_sb; reflexivity|].
    rewrite move_top_sb, sb_collapse_top. reflexivity.
Qed.

Lemma flow_strip (lay : box -> node -> node * res unit) (lay' : box -> node -> res node) ks :
  (forall b k, In k ks -> lay' (sb b) (strip k) = outcome (lay b k)) ->
  forall pend b off bm,
  match flow sty lay ks pend b off bm with
  | (ks', b', Ok _) => pflow lay' (map strip ks) pend (sb b) off bm = Ok (map strip ks', sb b')
  | (_, _, Err e) => pflow lay' (map strip ks) pend (sb b) off bm = Err e
  end.
Proof.
  induction ks as [|k ks IH]; intros H pend b off bm; [reflexivity|].
  specialize (IH (fun b0 k0 Hk => H b0 k0 (or_intror Hk))).
  cbn [flow map pflow]. rewrite n_style_strip. destruct (is_block_level (sty (n_style k))).
  - destruct pend; [reflexivity|]. rewrite (H b k) by (left; reflexivity). unfold outcome.
    destruct (lay b k) as [k1 [[]|e]]; cbn [bindr]; [|reflexivity].
    rewrite n_box_strip. destruct (n_box k1) as [kb|] eqn:Ekb; cbn [option_map].
    + pose proof (place_child_strip k1 kb b off bm Ekb) as P.
      destruct (place_child k1 b off bm) as [[k2 b2] [[off' bm']|e]].
      * destruct P as (kb' & P1 & P2). rewrite P2. cbn [bindr]. specialize (IH false b2 off' bm').
        destruct (flow sty lay ks false b2 off' bm') as [[ks2 b3] [[]|e]]; rewrite IH; cbn [bindr fst snd map].
        -- rewrite P1. reflexivity.
        -- reflexivity.
      * rewrite P. reflexivity.
    + unfold place_child. rewrite Ekb. reflexivity.
  - specialize (IH true b off bm). destruct (flow sty lay ks true b off bm) as [[ks2 b2] [[]|e]]; rewrite IH; reflexivity.
Qed.

Lemma existsb_strip ks : existsb (fun k => is_block_level (sty (n_style k))) (map strip ks)
  = existsb (fun k => is_block_level (sty (n_style k))) ks.
Proof. induction ks as [|k ks IH]; [reflexivity|]. cbn. rewrite n_style_strip, IH. reflexivity. Qed.
Lemma establishes_strip (s : S) i b b' ks :
  establishes_inline sty (Node s i b' (map strip ks)) = establishes_inline sty (Node s i b ks).
Proof. unfold establishes_inline. cbn [n_style n_intr n_kids]. rewrite existsb_strip. reflexivity. Qed.

Lemma children_strip (lay : cblock -> node -> node * res unit) (lay' : cblock -> node -> res node) (s : S) i b ks :
  (forall cb k, lay' (scb cb) (strip k) = outcome (lay cb k)) ->
  match layout_children sty lay (Node s i (Some b) ks) with
  | (n', Ok _) => exists b' ks', n' = Node s i (Some b') ks'
       /\ pchildren lay' s i (sb b) (map strip ks) = Ok (map strip ks', sb b')
  | (_, Err e) => pchildren lay' s i (sb b) (map strip ks) = Err e
  end.
Proof.
  intros H. unfold layout_children, pchildren. rewrite (establishes_strip s i (Some b)).
  destruct (establishes_inline sty (Node s i (Some b) ks)).
  - pose proof (lay_all_strip (lay (CBNode s b)) (lay' (CBNode s (sb b))) ks (fun k _ => H (CBNode s b) k)) as X.
    destruct (lay_all (lay (CBNode s b)) ks) as [ks' [[]|e]]; rewrite X; cbn [bindr]; [|reflexivity].
    exists b, ks'. split; reflexivity.
  - pose proof (flow_strip (fun b0 => lay (CBNode s b0)) (fun b0 => lay' (CBNode s b0)) ks
      (fun b0 k _ => H (CBNode s b0) k) false b n0 None) as X.
    destruct (flow sty _ ks false b n0 None) as [[ks' b'] [[]|e]]; rewrite X; [|reflexivity].
    exists b', ks'. split; reflexivity.
Qed.

(** A step on the node's own box and positions. *)
Lemma add_left_step v (s : S) i b ks : exists b' ks',
  add_content_left v (Node s i (Some b) ks) = (Node s i (Some b') ks', Ok tt)
  /\ map strip ks' = map strip ks /\ sb b' = move_left (nadd (content_left b) v) (sb b).
Proof.
  unfold add_content_left. cbn [n_box]. pose proof (strip_content_left (nadd (content_left b) v) s i b ks) as X.
  destruct (set_content_left _ _) as [s' i' bx' ks']. cbn [strip] in X. injection X as -> -> X2 X3.
  destruct bx' as [b'|]; [|discriminate]. injection X2 as X2. exists b', ks'. auto.
Qed.
Lemma add_top_step v (s : S) i b ks : exists b' ks',
  add_content_top v (Node s i (Some b) ks) = (Node s i (Some b') ks', Ok tt)
  /\ map strip ks' = map strip ks /\ sb b' = move_top (nadd (content_top b) v) (sb b).
Proof.
  unfold add_content_top. cbn [n_box]. pose proof (strip_content_top (nadd (content_top b) v) s i b ks) as X.
  destruct (set_content_top _ _) as [s' i' bx' ks']. cbn [strip] in X. injection X as -> -> X2 X3.
  destruct bx' as [b'|]; [|discriminate]. injection X2 as X2. exists b', ks'. auto.
Qed.

Lemma shift_step d f (cb : cblock) (s : S) i b ks :
  match relative_shift sty d f cb (Node s i (Some b) ks) with
  | (n', Ok _) => exists b' ks', n' = Node s i (Some b') ks' /\ map strip ks' = map strip ks
       /\ shift_box d f (scb cb) (sty s) (sb b) = Ok (sb b')
  | (_, Err e) => shift_box d f (scb cb) (sty s) (sb b) = Err e
  end.
Proof.
  unfold relative_shift, shift_box. cbn [n_style]. destruct (is_relative (sty s)).
  2:{ exists b, ks. repeat split. }
  rewrite hctx_scb, vctx_scb.
  rewrite !cb_attr_scb by (intros []; reflexivity).
  unfold mbind, mlift.
  destruct (rel_offset (hctx d f cb) _ _ _ _) as [vl|e]; cbn [bindr]; [|reflexivity].
  destruct (add_left_step vl s i b ks) as (b1 & ks1 & E1 & K1 & B1). rewrite E1.
  destruct (rel_offset (vctx d f cb) _ _ _ _) as [vt|e]; cbn [bindr]; [|reflexivity].
  destruct (add_top_step vt s i b1 ks1) as (b2 & ks2 & E2 & K2 & B2). rewrite E2.
  exists b2, ks2. split; [reflexivity|]. split; [congruence|].
  rewrite content_left_sb, <- B1, content_top_sb, <- B2. reflexivity.
Qed.

Lemma strip_ensure (n : node) : strip (ensure_box n) = 
  let 'Node s i b ks := strip n in Node s i (Some (match b with Some b => b | None => box0 end)) ks.
Proof.
  destruct n as [s i [b|] ks]; [reflexivity|]. unfold ensure_box. cbn [n_box reset_self strip option_map].
  f_equal. rewrite map_map. apply map_ext. intros k. rewrite strip_origin_left, strip_origin_top. reflexivity.
Qed.

Theorem layout_box_strip : forall fuel d f cb (n : node),
  plb fuel d f (scb cb) (strip n) = outcome (layout_box sty fuel d f cb n).
Proof.
  induction fuel as [|fuel IH]; intros d f cb n; [reflexivity|].
  cbn [plb layout_box].
  pose proof (strip_ensure n) as HE.
  destruct n as [s i bx ks]. cbn [n_style strip] in *.
  destruct (st_display (sty s)) as [dk|]; [|reflexivity].
  rewrite hctx_scb, vctx_scb, cb_style_height_scb.
  unfold mbind at 1, mmod at 1.
  destruct (ensure_box (Node s i bx ks)) as [s' i' bx' ks'] eqn:EB. cbn [strip] in HE.
  injection HE as -> -> HE2 HE3. destruct bx' as [b'|]; [|discriminate]. cbn [option_map] in HE2.
  injection HE2 as HE2. rewrite <- HE2, <- HE3. clear HE2 HE3 EB bx ks. rename b' into b, ks' into ks.
  (* copy edges *)
  unfold mbind at 1. rewrite on_box_some. unfold wphase.
  rewrite run_sb by apply commutes_copy_edges.
  destruct (run _ b) as [[b1 []]|e]; cbn [bindr fst snd]; [|reflexivity].
  (* width *)
  unfold mbind at 1. pose proof (width_step (hctx d f cb) s i b1 ks) as W.
  destruct (calculate_width_and_margins sty _ _) as [nw [[]|e]]; [|rewrite W; reflexivity].
  destruct W as (b2 & ks2 & -> & K2 & ->). cbn [bindr].
  (* first height pass *)
  unfold mbind at 1.
  assert (H1 : match (if is_relative (sty s) then calculate_height_and_margins sty (vctx d f cb) cb else mret tt)
                       (Node s i (Some b2) ks2) with
    | (n', Ok _) => exists b' ks', n' = Node s i (Some b') ks' /\ map strip ks' = map strip ks
       /\ (if is_relative (sty s) then hphase (sty s) i (cb_style_height sty cb) (last_box (map strip ks)) (vctx d f cb) (sb b2)
           else Ok (sb b2)) = Ok (sb b')
    | (_, Err e) => (if is_relative (sty s) then hphase (sty s) i (cb_style_height sty cb) (last_box (map strip ks)) (vctx d f cb) (sb b2)
           else Ok (sb b2)) = Err e
    end).
  { destruct (is_relative (sty s)).
    - pose proof (height_step (vctx d f cb) cb s i b2 ks2) as X. rewrite K2 in X. exact X.
    - exists b2, ks2. repeat split. exact K2. }
  destruct ((if is_relative (sty s) then calculate_height_and_margins sty (vctx d f cb) cb else mret tt) (Node s i (Some b2) ks2)) as [nr [[]|e]]; [|rewrite H1; reflexivity].
  destruct H1 as (b3 & ks3 & -> & K3 & ->). cbn [bindr].
  (* children *)
  unfold mbind at 1.
  destruct (is_abspos (sty s)); [reflexivity|]. destruct (is_float (sty s)); [reflexivity|].
  pose proof (children_strip (layout_box sty fuel d f) (plb fuel d f) s i b3 ks3
    (fun cb k => IH d f cb k)) as C. rewrite K3 in C.
  destruct (layout_children sty _ _) as [nc [[]|e]]; [|rewrite C; reflexivity].
  destruct C as (b4 & ks4 & -> & ->). cbn [bindr fst snd].
  (* second height pass *)
  unfold mbind at 1. pose proof (height_step (vctx d f cb) cb s i b4 ks4) as X.
  destruct (calculate_height_and_margins sty _ _ _) as [nh [[]|e]]; [|rewrite X; reflexivity].
  destruct X as (b5 & ks5 & -> & K5 & ->). cbn [bindr].
  (* relative shift *)
  pose proof (shift_step d f cb s i b5 ks5) as Y.
  destruct (relative_shift sty d f cb _) as [ns [[]|e]]; [|rewrite Y; reflexivity].
  destruct Y as (b6 & ks6 & -> & K6 & ->). cbn [bindr outcome strip option_map]. rewrite K6, K5. reflexivity.
Qed.

Lemma height_strip (n : node) : height (strip n) = height n.
Proof.
  induction n as [s i b ks IH] using node_ind'. cbn [height strip]. f_equal. f_equal. rewrite map_map.
  apply map_ext_in. exact IH.
Qed.
Lemma height_reset (n : node) : height (reset n) = height n.
Proof.
  induction n as [s i b ks IH] using node_ind'. destruct b as [b|]; [|reflexivity].
  cbn [height reset]. f_equal. f_equal. rewrite map_map. apply map_ext_in. exact IH.
Qed.

Lemma finish_strip d h5 (n : node) : pfinish d h5 (strip n) = outcome (finish_root d h5 n).
Proof.
  destruct n as [s i [b|] ks]; [|reflexivity]. unfold pfinish, finish_root. cbn [strip option_map n_box].
  pose proof (strip_content_top (nadd (content_top b) (NI (collapse_top b))) s i b ks) as X.
  destruct (set_content_top _ _) as [s' i' bx' ks']. cbn [strip] in X. injection X as -> -> X2 X3.
  destruct bx' as [b'|]; [|discriminate]. injection X2 as X2.
  rewrite content_top_sb, collapse_top_sb, collapse_bottom_sb, <- X2, <- X3.
  destruct h5; cbn; [|reflexivity]. rewrite <- sb_ch. reflexivity.
Qed.

(** The whole engine. *)
Theorem layout_strip : forall d h5 (n : node) b, n_box n = Some b ->
  playout d h5 (strip (reset n)) = outcome (layout sty d h5 n).
Proof.
  intros d h5 n b Hb. unfold playout, layout. rewrite Hb. unfold mbind, mmod.
  rewrite height_strip, height_reset.
  pose proof (layout_box_strip (height n) d dummy_font CBView (reset n)) as X. cbn [scb] in X. rewrite X.
  destruct (layout_box sty (height n) d dummy_font CBView (reset n)) as [n' [[]|e]]; cbn [outcome bindr]; [|reflexivity].
  apply finish_strip.
Qed.
End Pure.
