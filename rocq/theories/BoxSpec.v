(** * Specifications for boxes and trees of boxes *)
From Coq Require Import ZArith QArith Qcanon Bool List.
From Verif Require Import PyNum BoxModel.
Import ListNotations.
Open Scope Z_scope.

Section Spec.
Context {S : Type}.
Notation node := (node S).

(** Every child's absolute position is its parent's absolute content position
    plus its own relative position. *)
Inductive consistent : node -> Prop :=
| consistent_node s i bx ks :
    (forall k, In k ks -> consistent k) ->
    (forall b k kb, bx = Some b -> In k ks -> n_box k = Some kb ->
       nval (absolute_content_top kb) = (nval (absolute_content_top b) + nval (content_top kb))%Qc
       /\ nval (absolute_content_left kb) = (nval (absolute_content_left b) + nval (content_left kb))%Qc) ->
    consistent (Node s i bx ks).

(** Apply [f] to the descendant at path [p] (a list of child indices). *)
Fixpoint upd_nth {A} (j : nat) (f : A -> A) (l : list A) {struct l} : list A :=
  match l, j with
  | [], _ => []
  | x :: l', O => f x :: l'
  | x :: l', Datatypes.S j' => x :: upd_nth j' f l'
  end.
Fixpoint at_path (p : list nat) (f : node -> node) (n : node) : node :=
  match p with
  | [] => f n
  | j :: p' => let 'Node s i b ks := n in Node s i b (upd_nth j (at_path p' f) ks)
  end.

(** Operations on the boxes of a tree that are available to a program. *)
Inductive box_op :=
| OpTop (p : list nat) (v : num)       (* n.layout.content_top = v *)
| OpLeft (p : list nat) (v : num)      (* n.layout.content_left = v *)
| OpResetRoot                          (* root.layout.reset() *)
| OpResetAt (p : list nat)             (* n.layout.reset() anywhere *)
| OpDirty (p : list nat) (v : dirt).   (* n.layout.dirty = v *)

Definition run_op (o : box_op) (n : node) : node :=
  match o with
  | OpTop p v => at_path p (set_content_top v) n
  | OpLeft p v => at_path p (set_content_left v) n
  | OpResetRoot => reset n
  | OpResetAt p => at_path p reset n
  | OpDirty p v => at_path p (set_dirty v) n
  end.
Definition run_ops (os : list box_op) (n : node) : node := fold_left (fun m o => run_op o m) os n.

(** Every descendant that is connected to [n] by nodes having a layout is
    dirty. *)
Inductive all_dirty : node -> Prop :=
| all_dirty_node s i b ks : dirty b = Some true ->
    (forall k, In k ks -> n_box k <> None -> all_dirty k) ->
    all_dirty (Node s i (Some b) ks).

(** Invalidations are complete: below a dirty node everything is dirty. *)
Inductive dirty_closed : node -> Prop :=
| dirty_closed_node s i bx ks :
    (forall k, In k ks -> dirty_closed k) ->
    (forall b k kb, bx = Some b -> dirty b = Some true -> In k ks -> n_box k = Some kb ->
       dirty kb = Some true) ->
    dirty_closed (Node s i bx ks).

(** The node at a path. *)
Fixpoint get_path (p : list nat) (n : node) : option node :=
  match p with
  | [] => Some n
  | j :: p' => match nth_error (n_kids n) j with Some k => get_path p' k | None => None end
  end.

(** Everything of a tree except dirtiness. *)
Fixpoint erase_dirty (n : node) : node :=
  let 'Node s i b ks := n in
  Node s i (option_map (upd_dirty (Some true)) b) (map erase_dirty ks).
End Spec.

(** ** Assignments to the margins and extents of one box *)
Inductive side := Top | Right | Bottom | Left.
Inductive margin_op :=
| SetMargin (s : side) (v : lval)      (* box.margin_<s> = v *)
| SetExtent (s : side) (v : lval).     (* box.collapse_<s> = v *)

Definition run_margin_op (o : margin_op) (b : box) : box :=
  match o with
  | SetMargin Top v => set_margin_top v b
  | SetMargin Right v => set_margin_right v b
  | SetMargin Bottom v => set_margin_bottom v b
  | SetMargin Left v => set_margin_left v b
  | SetExtent Top v => set_collapse_top v b
  | SetExtent Right v => set_collapse_right v b
  | SetExtent Bottom v => set_collapse_bottom v b
  | SetExtent Left v => set_collapse_left v b
  end.
Definition run_margin_ops (os : list margin_op) (b : box) : box :=
  fold_left (fun m o => run_margin_op o m) os b.

Definition extent_of (s : side) (b : box) : Z :=
  match s with
  | Top => collapse_top b | Right => collapse_right b
  | Bottom => collapse_bottom b | Left => collapse_left b
  end.

(** The ints assigned to side [s] by a sequence of assignments. *)
Fixpoint ints_assigned (s : side) (os : list margin_op) : list Z :=
  match os with
  | [] => []
  | (SetMargin s' (LNum (NI z)) | SetExtent s' (LNum (NI z))) :: os' =>
      match s, s' with
      | Top, Top | Right, Right | Bottom, Bottom | Left, Left => z :: ints_assigned s os'
      | _, _ => ints_assigned s os'
      end
  | _ :: os' => ints_assigned s os'
  end.
Fixpoint maxZ (l : list Z) : Z := match l with [] => 0 | z :: l' => Z.max z (maxZ l') end.

(** Numbers as px() returns them: floats are never whole (C03). *)
Definition normal_num (n : num) : Prop :=
  match n with NI _ => True | NF q => forall z, q <> Z2Qc z end.
Definition normal_op (o : margin_op) : Prop :=
  match o with SetMargin _ (LNum n) | SetExtent _ (LNum n) => normal_num n | _ => True end.

(** ** Intrinsic sizes: "the new value equals the old one" *)
Inductive same_opt_num : option num -> option num -> Prop :=
| same_none : same_opt_num None None
| same_some x y : nval x = nval y -> same_opt_num (Some x) (Some y).
Definition same_attr (a : sattr) (i : size) : Prop :=
  match a with
  | AWidth v => same_opt_num (s_width i) v
  | AHeight v => same_opt_num (s_height i) v
  | AExactWidth v => s_exact_width i = v
  | AExactHeight v => s_exact_height i = v
  | ARatio v => same_opt_num (s_ratio i) v
  | AReplaced v => s_replaced i = v
  end.
(** "The attribute is assigned": it has the new value [i'] and the others are those of [i]. *)
Definition assigned (a : sattr) (i i' : size) : Prop :=
  s_width i' = (match a with AWidth v => v | _ => s_width i end)
  /\ s_height i' = (match a with AHeight v => v | _ => s_height i end)
  /\ s_exact_width i' = (match a with AExactWidth v => v | _ => s_exact_width i end)
  /\ s_exact_height i' = (match a with AExactHeight v => v | _ => s_exact_height i end)
  /\ s_ratio i' = (match a with ARatio v => v | _ => s_ratio i end)
  /\ s_replaced i' = (match a with AReplaced v => v | _ => s_replaced i end).
