(** * Sizes, boxes and trees of nodes -- /repo/src/colosseum/dimensions.py

    A document node (tests/utils.py:25-36, docs/tutorial/tutorial-1.rst) has a
    style, an intrinsic [Size], an optional layout [Box] and children.
    Simplifications: the document is a finite tree (no sharing, no cycles),
    [child.parent] is the node whose [children] contains it, and
    [node.layout.node] is [node]. *)
From Coq Require Import ZArith QArith Qcanon Bool List.
From Verif Require Import PyNum.
Import ListNotations.
Open Scope Z_scope.

(** dimensions.py:16-24 *)
Record size := mkSize {
  s_width : option num; s_height : option num;
  s_exact_width : bool; s_exact_height : bool;
  s_ratio : option num; s_replaced : bool }.
(** dimensions.py:16-24 *)
Definition size0 : size := mkSize None None true true None false.

(** Dirtiness: True / False / None (dimensions.py:536-542). *)
Definition dirt := option bool.
(** Comparison of dirtiness values. *)
Definition dirt_eqb (a b : dirt) : bool :=
  match a, b with
  | Some x, Some y => Bool.eqb x y
  | None, None => true
  | _, _ => false
  end.

(** dimensions.py:180-231, the stored attributes of a Box.
    [visible] is never read or changed by the library and is omitted.
    Collapse extents are ints (line 339: only ints are ever stored). *)
Record box := mkBox {
  content_width : lval; content_height : lval;
  content_top : num; content_left : num;
  origin_top : num; origin_left : num;
  margin_top : lval; margin_right : lval; margin_bottom : lval; margin_left : lval;
  collapse_top : Z; collapse_right : Z; collapse_bottom : Z; collapse_left : Z;
  border_top_width : num; border_right_width : num;
  border_bottom_width : num; border_left_width : num;
  padding_top : num; padding_right : num; padding_bottom : num; padding_left : num;
  dirty : dirt }.

(** dimensions.py:180-231: the values after _reset. *)
Definition box0 : box :=
  mkBox l0 l0 n0 n0 n0 n0 l0 l0 l0 l0 0 0 0 0 n0 n0 n0 n0 n0 n0 n0 n0 (Some true).

(** Plain attribute assignments (no property setter in the source). *)
Definition upd_content_width (v : lval) (b : box) : box :=
  let 'mkBox _ ch ct cl ot ol mt mr mb ml kt kr kb kl bt br bb bl pt pr pb pl d := b in
  mkBox v ch ct cl ot ol mt mr mb ml kt kr kb kl bt br bb bl pt pr pb pl d.
(** Plain assignment of the stored attribute (dimensions.py:190). *)
Definition upd_content_height (v : lval) (b : box) : box :=
  let 'mkBox cw _ ct cl ot ol mt mr mb ml kt kr kb kl bt br bb bl pt pr pb pl d := b in
  mkBox cw v ct cl ot ol mt mr mb ml kt kr kb kl bt br bb bl pt pr pb pl d.
(** Plain assignment of the stored attribute (dimensions.py:193, 276). *)
Definition upd_content_top (v : num) (b : box) : box :=
  let 'mkBox cw ch _ cl ot ol mt mr mb ml kt kr kb kl bt br bb bl pt pr pb pl d := b in
  mkBox cw ch v cl ot ol mt mr mb ml kt kr kb kl bt br bb bl pt pr pb pl d.
(** Plain assignment of the stored attribute (dimensions.py:194, 288). *)
Definition upd_content_left (v : num) (b : box) : box :=
  let 'mkBox cw ch ct _ ot ol mt mr mb ml kt kr kb kl bt br bb bl pt pr pb pl d := b in
  mkBox cw ch ct v ot ol mt mr mb ml kt kr kb kl bt br bb bl pt pr pb pl d.
(** Plain assignment of the stored attribute (dimensions.py:198, 249). *)
Definition upd_origin_top (v : num) (b : box) : box :=
  let 'mkBox cw ch ct cl _ ol mt mr mb ml kt kr kb kl bt br bb bl pt pr pb pl d := b in
  mkBox cw ch ct cl v ol mt mr mb ml kt kr kb kl bt br bb bl pt pr pb pl d.
(** Plain assignment of the stored attribute (dimensions.py:199, 261). *)
Definition upd_origin_left (v : num) (b : box) : box :=
  let 'mkBox cw ch ct cl ot _ mt mr mb ml kt kr kb kl bt br bb bl pt pr pb pl d := b in
  mkBox cw ch ct cl ot v mt mr mb ml kt kr kb kl bt br bb bl pt pr pb pl d.
(** Plain assignment of the stored attribute (dimensions.py:202, 300). *)
Definition upd_margin_top (v : lval) (b : box) : box :=
  let 'mkBox cw ch ct cl ot ol _ mr mb ml kt kr kb kl bt br bb bl pt pr pb pl d := b in
  mkBox cw ch ct cl ot ol v mr mb ml kt kr kb kl bt br bb bl pt pr pb pl d.
(** Plain assignment of the stored attribute (dimensions.py:203, 310). *)
Definition upd_margin_right (v : lval) (b : box) : box :=
  let 'mkBox cw ch ct cl ot ol mt _ mb ml kt kr kb kl bt br bb bl pt pr pb pl d := b in
  mkBox cw ch ct cl ot ol mt v mb ml kt kr kb kl bt br bb bl pt pr pb pl d.
(** Plain assignment of the stored attribute (dimensions.py:204, 320). *)
Definition upd_margin_bottom (v : lval) (b : box) : box :=
  let 'mkBox cw ch ct cl ot ol mt mr _ ml kt kr kb kl bt br bb bl pt pr pb pl d := b in
  mkBox cw ch ct cl ot ol mt mr v ml kt kr kb kl bt br bb bl pt pr pb pl d.
(** Plain assignment of the stored attribute (dimensions.py:205, 330). *)
Definition upd_margin_left (v : lval) (b : box) : box :=
  let 'mkBox cw ch ct cl ot ol mt mr mb _ kt kr kb kl bt br bb bl pt pr pb pl d := b in
  mkBox cw ch ct cl ot ol mt mr mb v kt kr kb kl bt br bb bl pt pr pb pl d.
(** Plain assignment of the stored attribute (dimensions.py:208, 340). *)
Definition upd_collapse_top (v : Z) (b : box) : box :=
  let 'mkBox cw ch ct cl ot ol mt mr mb ml _ kr kb kl bt br bb bl pt pr pb pl d := b in
  mkBox cw ch ct cl ot ol mt mr mb ml v kr kb kl bt br bb bl pt pr pb pl d.
(** Plain assignment of the stored attribute (dimensions.py:209, 349). *)
Definition upd_collapse_right (v : Z) (b : box) : box :=
  let 'mkBox cw ch ct cl ot ol mt mr mb ml kt _ kb kl bt br bb bl pt pr pb pl d := b in
  mkBox cw ch ct cl ot ol mt mr mb ml kt v kb kl bt br bb bl pt pr pb pl d.
(** Plain assignment of the stored attribute (dimensions.py:210, 358). *)
Definition upd_collapse_bottom (v : Z) (b : box) : box :=
  let 'mkBox cw ch ct cl ot ol mt mr mb ml kt kr _ kl bt br bb bl pt pr pb pl d := b in
  mkBox cw ch ct cl ot ol mt mr mb ml kt kr v kl bt br bb bl pt pr pb pl d.
(** Plain assignment of the stored attribute (dimensions.py:211, 367). *)
Definition upd_collapse_left (v : Z) (b : box) : box :=
  let 'mkBox cw ch ct cl ot ol mt mr mb ml kt kr kb _ bt br bb bl pt pr pb pl d := b in
  mkBox cw ch ct cl ot ol mt mr mb ml kt kr kb v bt br bb bl pt pr pb pl d.
(** Plain assignment of the stored attribute (dimensions.py:214). *)
Definition upd_border_top_width (v : num) (b : box) : box :=
  let 'mkBox cw ch ct cl ot ol mt mr mb ml kt kr kb kl _ br bb bl pt pr pb pl d := b in
  mkBox cw ch ct cl ot ol mt mr mb ml kt kr kb kl v br bb bl pt pr pb pl d.
(** Plain assignment of the stored attribute (dimensions.py:215). *)
Definition upd_border_right_width (v : num) (b : box) : box :=
  let 'mkBox cw ch ct cl ot ol mt mr mb ml kt kr kb kl bt _ bb bl pt pr pb pl d := b in
  mkBox cw ch ct cl ot ol mt mr mb ml kt kr kb kl bt v bb bl pt pr pb pl d.
(** Plain assignment of the stored attribute (dimensions.py:216). *)
Definition upd_border_bottom_width (v : num) (b : box) : box :=
  let 'mkBox cw ch ct cl ot ol mt mr mb ml kt kr kb kl bt br _ bl pt pr pb pl d := b in
  mkBox cw ch ct cl ot ol mt mr mb ml kt kr kb kl bt br v bl pt pr pb pl d.
(** Plain assignment of the stored attribute (dimensions.py:217). *)
Definition upd_border_left_width (v : num) (b : box) : box :=
  let 'mkBox cw ch ct cl ot ol mt mr mb ml kt kr kb kl bt br bb _ pt pr pb pl d := b in
  mkBox cw ch ct cl ot ol mt mr mb ml kt kr kb kl bt br bb v pt pr pb pl d.
(** Plain assignment of the stored attribute (dimensions.py:220). *)
Definition upd_padding_top (v : num) (b : box) : box :=
  let 'mkBox cw ch ct cl ot ol mt mr mb ml kt kr kb kl bt br bb bl _ pr pb pl d := b in
  mkBox cw ch ct cl ot ol mt mr mb ml kt kr kb kl bt br bb bl v pr pb pl d.
(** Plain assignment of the stored attribute (dimensions.py:221). *)
Definition upd_padding_right (v : num) (b : box) : box :=
  let 'mkBox cw ch ct cl ot ol mt mr mb ml kt kr kb kl bt br bb bl pt _ pb pl d := b in
  mkBox cw ch ct cl ot ol mt mr mb ml kt kr kb kl bt br bb bl pt v pb pl d.
(** Plain assignment of the stored attribute (dimensions.py:222). *)
Definition upd_padding_bottom (v : num) (b : box) : box :=
  let 'mkBox cw ch ct cl ot ol mt mr mb ml kt kr kb kl bt br bb bl pt pr _ pl d := b in
  mkBox cw ch ct cl ot ol mt mr mb ml kt kr kb kl bt br bb bl pt pr v pl d.
(** Plain assignment of the stored attribute (dimensions.py:223). *)
Definition upd_padding_left (v : num) (b : box) : box :=
  let 'mkBox cw ch ct cl ot ol mt mr mb ml kt kr kb kl bt br bb bl pt pr pb _ d := b in
  mkBox cw ch ct cl ot ol mt mr mb ml kt kr kb kl bt br bb bl pt pr pb v d.
(** Plain assignment of the stored attribute (dimensions.py:226). *)
Definition upd_dirty (v : dirt) (b : box) : box :=
  let 'mkBox cw ch ct cl ot ol mt mr mb ml kt kr kb kl bt br bb bl pt pr pb pl _ := b in
  mkBox cw ch ct cl ot ol mt mr mb ml kt kr kb kl bt br bb bl pt pr pb pl v.

(** dimensions.py:337-340 (and 346-349, 355-358, 364-367): the collapse setters
    only accept ints that exceed the current extent. *)
Definition grow (v : lval) (old : Z) : Z :=
  match v with
  | LNum (NI z) => if old <? z then z else old
  | _ => old
  end.
(** dimensions.py:337-340 *)
Definition set_collapse_top (v : lval) (b : box) : box := upd_collapse_top (grow v (collapse_top b)) b.
(** dimensions.py:346-349 *)
Definition set_collapse_right (v : lval) (b : box) : box := upd_collapse_right (grow v (collapse_right b)) b.
(** dimensions.py:355-358 *)
Definition set_collapse_bottom (v : lval) (b : box) : box := upd_collapse_bottom (grow v (collapse_bottom b)) b.
(** dimensions.py:364-367 *)
Definition set_collapse_left (v : lval) (b : box) : box := upd_collapse_left (grow v (collapse_left b)) b.

(** dimensions.py:297-301 *)
Definition set_margin_top (v : lval) (b : box) : box :=
  if leqb v (margin_top b) then b else set_collapse_top v (upd_margin_top v b).
(** dimensions.py:307-311 *)
Definition set_margin_right (v : lval) (b : box) : box :=
  if leqb v (margin_right b) then b else set_collapse_right v (upd_margin_right v b).
(** dimensions.py:317-321 *)
Definition set_margin_bottom (v : lval) (b : box) : box :=
  if leqb v (margin_bottom b) then b else set_collapse_bottom v (upd_margin_bottom v b).
(** dimensions.py:327-331 *)
Definition set_margin_left (v : lval) (b : box) : box :=
  if leqb v (margin_left b) then b else set_collapse_left v (upd_margin_left v b).

(** ** Computed coordinates *)
(** dimensions.py:373-374 *)
Definition border_box_top (b : box) : num :=
  nsub (nsub (content_top b) (padding_top b)) (border_top_width b).
(** dimensions.py:377-383 *)
Definition border_box_right (b : box) : res num :=
  w <-r as_num (content_width b) ;;
  Ok (nadd (nadd (nadd (content_left b) w) (padding_right b)) (border_right_width b)).
(** dimensions.py:386-392 *)
Definition border_box_bottom (b : box) : res num :=
  h <-r as_num (content_height b) ;;
  Ok (nadd (nadd (nadd (content_top b) h) (padding_bottom b)) (border_bottom_width b)).
(** dimensions.py:395-396 *)
Definition border_box_left (b : box) : num :=
  nsub (nsub (content_left b) (padding_left b)) (border_left_width b).
(** dimensions.py:399-406 *)
Definition border_box_width (b : box) : res num :=
  w <-r as_num (content_width b) ;;
  Ok (nadd (nadd (nadd (nadd (border_left_width b) (padding_left b)) w) (padding_right b))
           (border_right_width b)).
(** dimensions.py:409-416 *)
Definition border_box_height (b : box) : res num :=
  h <-r as_num (content_height b) ;;
  Ok (nadd (nadd (nadd (nadd (border_top_width b) (padding_top b)) h) (padding_bottom b))
           (border_bottom_width b)).
(** dimensions.py:419-425 *)
Definition absolute_border_box_top (b : box) : num :=
  nsub (nsub (nadd (origin_top b) (content_top b)) (padding_top b)) (border_top_width b).
(** dimensions.py:428-435 *)
Definition absolute_border_box_right (b : box) : res num :=
  w <-r as_num (content_width b) ;;
  Ok (nadd (nadd (nadd (nadd (origin_left b) (content_left b)) w) (padding_right b))
           (border_right_width b)).
(** dimensions.py:438-445 *)
Definition absolute_border_box_bottom (b : box) : res num :=
  h <-r as_num (content_height b) ;;
  Ok (nadd (nadd (nadd (nadd (origin_top b) (content_top b)) h) (padding_bottom b))
           (border_bottom_width b)).
(** dimensions.py:448-454 *)
Definition absolute_border_box_left (b : box) : num :=
  nsub (nsub (nadd (origin_left b) (content_left b)) (padding_left b)) (border_left_width b).
(** dimensions.py:460-461 *)
Definition padding_box_top (b : box) : num := nsub (content_top b) (padding_top b).
(** dimensions.py:464-465 *)
Definition padding_box_right (b : box) : res num :=
  w <-r as_num (content_width b) ;; Ok (nadd (nadd (content_left b) w) (padding_right b)).
(** dimensions.py:468-469 *)
Definition padding_box_bottom (b : box) : res num :=
  h <-r as_num (content_height b) ;; Ok (nadd (nadd (content_top b) h) (padding_bottom b)).
(** dimensions.py:472-473 *)
Definition padding_box_left (b : box) : num := nsub (content_left b) (padding_left b).
(** dimensions.py:476-477 *)
Definition padding_box_width (b : box) : res num :=
  w <-r as_num (content_width b) ;; Ok (nadd (nadd (padding_left b) w) (padding_right b)).
(** dimensions.py:480-481 *)
Definition padding_box_height (b : box) : res num :=
  h <-r as_num (content_height b) ;; Ok (nadd (nadd (padding_top b) h) (padding_bottom b)).
(** dimensions.py:484-485 *)
Definition absolute_padding_box_top (b : box) : num :=
  nsub (nadd (origin_top b) (content_top b)) (padding_top b).
(** dimensions.py:488-494 *)
Definition absolute_padding_box_right (b : box) : res num :=
  w <-r as_num (content_width b) ;;
  Ok (nadd (nadd (nadd (origin_left b) (content_left b)) w) (padding_right b)).
(** dimensions.py:497-503 *)
Definition absolute_padding_box_bottom (b : box) : res num :=
  h <-r as_num (content_height b) ;;
  Ok (nadd (nadd (nadd (origin_top b) (content_top b)) h) (padding_bottom b)).
(** dimensions.py:506-507 *)
Definition absolute_padding_box_left (b : box) : num :=
  nsub (nadd (origin_left b) (content_left b)) (padding_left b).
(** dimensions.py:513-514 *)
Definition content_bottom (b : box) : res num :=
  h <-r as_num (content_height b) ;; Ok (nadd (content_top b) h).
(** dimensions.py:517-518 *)
Definition content_right (b : box) : res num :=
  w <-r as_num (content_width b) ;; Ok (nadd (content_left b) w).
(** dimensions.py:521-522 *)
Definition absolute_content_top (b : box) : num := nadd (origin_top b) (content_top b).
(** dimensions.py:525-526 *)
Definition absolute_content_right (b : box) : res num :=
  w <-r as_num (content_width b) ;; Ok (nadd (nadd (origin_left b) (content_left b)) w).
(** dimensions.py:529-530 *)
Definition absolute_content_bottom (b : box) : res num :=
  h <-r as_num (content_height b) ;; Ok (nadd (nadd (origin_top b) (content_top b)) h).
(** dimensions.py:533-534 *)
Definition absolute_content_left (b : box) : num := nadd (origin_left b) (content_left b).

(** ** Trees of nodes *)
(** The style type is a parameter: the engine uses the typed [style] of
    Engine.v, the declaration level uses [css] of Decl.v. *)
Inductive node (S : Type) :=
| Node (st : S) (intr : size) (bx : option box) (kids : list (node S)).
Arguments Node {S} st intr bx kids.

Section Trees.
Context {S : Type}.
(** Nodes with styles of type [S]. *)
Notation node := (node S).

(** node.style *)
Definition n_style (n : node) : S := let 'Node s _ _ _ := n in s.
(** node.intrinsic *)
Definition n_intr (n : node) : size := let 'Node _ i _ _ := n in i.
(** node.layout *)
Definition n_box (n : node) : option box := let 'Node _ _ b _ := n in b.
(** node.children *)
Definition n_kids (n : node) : list node := let 'Node _ _ _ ks := n in ks.
(** node.layout = b *)
Definition with_box (b : option box) (n : node) : node :=
  let 'Node s i _ ks := n in Node s i b ks.

(** dimensions.py:246-252: the _origin_top setter, applied to the layout of
    [n] when it has one (lines 251, 278: "if child.layout"). *)
Fixpoint set_origin_top (v : num) (n : node) : node :=
  match n with
  | Node s i None ks => n
  | Node s i (Some b) ks =>
      if neqb v (origin_top b) then n
      else let b' := upd_origin_top v b in
           Node s i (Some b') (map (set_origin_top (absolute_content_top b')) ks)
  end.

(** dimensions.py:258-264 *)
Fixpoint set_origin_left (v : num) (n : node) : node :=
  match n with
  | Node s i None ks => n
  | Node s i (Some b) ks =>
      if neqb v (origin_left b) then n
      else let b' := upd_origin_left v b in
           Node s i (Some b') (map (set_origin_left (absolute_content_left b')) ks)
  end.

(** dimensions.py:273-279: node.layout.content_top = v (layout present). *)
Definition set_content_top (v : num) (n : node) : node :=
  match n with
  | Node s i None ks => n
  | Node s i (Some b) ks =>
      if neqb v (content_top b) then n
      else let b' := upd_content_top v b in
           Node s i (Some b') (map (set_origin_top (absolute_content_top b')) ks)
  end.

(** dimensions.py:285-291 *)
Definition set_content_left (v : num) (n : node) : node :=
  match n with
  | Node s i None ks => n
  | Node s i (Some b) ks =>
      if neqb v (content_left b) then n
      else let b' := upd_content_left v b in
           Node s i (Some b') (map (set_origin_left (absolute_content_left b')) ks)
  end.

(** dimensions.py:547-553 *)
Fixpoint set_dirty (v : dirt) (n : node) : node :=
  match n with
  | Node s i None ks => n
  | Node s i (Some b) ks =>
      if dirt_eqb v (dirty b) then n
      else Node s i (Some (upd_dirty v b)) (map (set_dirty v) ks)
  end.

(** dimensions.py:180-231: _reset of a box belonging to [n] (also what
    Box(node) does, 165-167).  The origins are first set to None, so the
    assignments of 0 at 230-231 always propagate 0 + 0 to the children. *)
Definition reset_self (n : node) : node :=
  let 'Node s i _ ks := n in
  Node s i (Some box0) (map (fun k => set_origin_left n0 (set_origin_top n0 k)) ks).

(** dimensions.py:233-237.  Simplification: the propagation of origin 0 into a
    child that is reset immediately afterwards is skipped here; BoxFacts.v
    proves [reset_unfold], the literal recursive equation of the source. *)
Fixpoint reset (n : node) : node :=
  match n with
  | Node s i None ks => n
  | Node s i (Some _) ks => Node s i (Some box0) (map reset ks)
  end.

(** Depth of the tree: recursion fuel for layout. *)
Fixpoint height (n : node) : nat :=
  let 'Node _ _ _ ks := n in
  Datatypes.S (fold_right Nat.max 0%nat (map height ks)).
End Trees.

(** ** Intrinsic sizes -- dimensions.py:26-92 *)
Inductive sattr :=
| AWidth (v : option num) | AHeight (v : option num)
| AExactWidth (v : bool) | AExactHeight (v : bool)
| ARatio (v : option num) | AReplaced (v : bool).

(** == on optional numbers (dimensions.py:40, 50, 80). *)
Definition onum_eqb (a b : option num) : bool :=
  match a, b with Some x, Some y => neqb x y | None, None => true | _, _ => false end.

(** The comparison [self._attr != value] of each setter. *)
Definition size_attr_same (a : sattr) (s : size) : bool :=
  match a with
  | AWidth v => onum_eqb (s_width s) v
  | AHeight v => onum_eqb (s_height s) v
  | AExactWidth v => Bool.eqb (s_exact_width s) v
  | AExactHeight v => Bool.eqb (s_exact_height s) v
  | ARatio v => onum_eqb (s_ratio s) v
  | AReplaced v => Bool.eqb (s_replaced s) v
  end.

(** The assignment of the attribute (dimensions.py:41, 51, 61, 71, 81, 91). *)
Definition size_store (a : sattr) (s : size) : size :=
  let 'mkSize w h ew eh r p := s in
  match a with
  | AWidth v => mkSize v h ew eh r p
  | AHeight v => mkSize w v ew eh r p
  | AExactWidth v => mkSize w h v eh r p
  | AExactHeight v => mkSize w h ew v r p
  | ARatio v => mkSize w h ew eh v p
  | AReplaced v => mkSize w h ew eh r v
  end.

(** dimensions.py:38-92: node.intrinsic.<attr> = v.  The dirty proxy (30-32)
    raises AttributeError when the node has no layout, after the store. *)
Definition set_intrinsic {S} (a : sattr) (n : node S) : node S * res unit :=
  let 'Node s i b ks := n in
  if size_attr_same a i then (n, Ok tt)
  else
    let n' := Node s (size_store a i) b ks in
    match b with
    | None => (n', Err AttributeError)
    | Some _ => (set_dirty (Some true) n', Ok tt)
    end.
