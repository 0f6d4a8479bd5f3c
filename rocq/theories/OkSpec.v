(** * Specification for C123: which documents can be laid out

    A condition on styles, intrinsic sizes and on which nodes have a box.  It
    mentions no sizes: only whether a size is known. *)
From Coq Require Import ZArith QArith Qcanon Bool List String.
From Verif Require Import PyNum Units BoxModel Engine.
Import ListNotations.

(** ** Lengths *)
Definition finite (p : pynum) : bool := match p with PI _ | PF (Fin _) => true | PF _ => false end.
Definition some {A} (o : option A) : bool := match o with Some _ => true | None => false end.
(** A finite length; a percentage only where the size it refers to is known;
    no angle. *)
Definition measurable (known : bool) (u : unit_) : bool :=
  finite (u_val u) &&
  match u_kind u with
  | KPx | KAbs _ _ | KVp _ _ => true
  | KFont s => String.eqb s "em" || String.eqb s "ex" || String.eqb s "ch"
  | KPct => known
  | KAngle _ _ => false
  end.
Definition measurable_or_auto (known : bool) (v : lenauto) : bool := match v with Auto => true | Len u => measurable known u end.
Definition measurable_border (known : bool) (v : bwidth) : bool := match v with BKw _ => true | BLen u => measurable known u end.
Definition measurable_if_any (known : bool) (v : option unit_) : bool := match v with None => true | Some u => measurable known u end.

(** The containing block: whether its width and height are known, whether it is
    the display, and its specified height. *)
Record around := mkAround { w_known : bool; h_known : bool; is_display : bool; spec_h : option unit_ }.

(** ** One node *)
Definition edges_ok (a : around) (s : style) : bool :=
  forallb (measurable_or_auto (w_known a)) [st_margin_left s; st_margin_right s]
  && forallb (measurable_or_auto (h_known a)) [st_margin_top s; st_margin_bottom s]
  && forallb (measurable_border (w_known a)) [st_border_top s; st_border_bottom s]
  && forallb (measurable_border (h_known a)) [st_border_left s; st_border_right s]
  && forallb (measurable (w_known a)) [st_padding_top s; st_padding_bottom s]
  && forallb (measurable (h_known a)) [st_padding_left s; st_padding_right s].

(** A pair of offsets.  Inheriting needs a containing block with a box, works
    only if the opposite offset is auto and, for right and bottom, needs a known
    size. *)
Definition offsets_ok (a : around) (known : bool) (start end_ : offset) : bool :=
  match start, end_ with
  | OAuto, OAuto => true
  | OLen u, _ => measurable known u
  | OAuto, OLen u => measurable known u
  | OInherit, OAuto => negb (is_display a)
  | OAuto, OInherit => negb (is_display a) && known
  | OInherit, _ => false
  end.

Inductive layout_kind := Block | Image | Word.
(** In flow, and laid out as a block, an inline replaced element or another inline element. *)
Definition kind_of (s : style) (i : size) : option layout_kind :=
  match st_float s, st_position s, st_display s, s_replaced i with
  | Some _, _, _, _ | _, PAbsolute, _, _ | _, PFixed, _, _ => None
  | None, _, Some (DBlock | DListItem | DTable), false => Some Block
  | None, _, Some DInline, true => Some Image
  | None, _, Some DInline, false => Some Word
  | None, _, _, _ => None
  end.
Definition relative (s : style) : bool := match st_position s with PRelative => true | _ => false end.

(** The size of words is known only if they bring one along. *)
Definition width_known (k : layout_kind) (i : size) : bool := match k with Word => some (s_width i) | _ => true end.
Definition height_known (k : layout_kind) (i : size) : bool := match k with Word => some (s_height i) | _ => true end.

Definition width_ok (a : around) (k : layout_kind) (s : style) (i : size) : bool :=
  match k with
  | Word => true
  | Image =>
      match st_width s, st_height s, s_width i, s_height i, s_ratio i with
      | Len u, _, _, _, _ => measurable (w_known a) u
      | Auto, Auto, None, None, Some _ => w_known a
      | _, _, _, _, _ => true
      end
  | Block =>
      w_known a &&
      match st_width s with
      | Auto => true
      | Len u => measurable true u && measurable_if_any true (st_max_width s) && measurable_or_auto true (st_min_width s)
      end
  end.
(** [last]: whether the last child, if any, has a known height. *)
Definition height_ok (a : around) (k : layout_kind) (s : style) (last : option bool) : bool :=
  match k, st_height s with
  | Word, _ => match st_margin_top s with Auto => false | Len _ => true end
  | Image, Auto => true
  | Image, Len u => measurable (h_known a) u
  | Block, Auto => match last with Some b => b | None => measurable_or_auto (h_known a) (st_min_height s) end
  | Block, Len u =>
      match spec_h a with
      | Some pu => measurable (h_known a) pu && measurable true u
      | None => measurable (h_known a) u
      end && measurable_if_any (h_known a) (st_max_height s)
  end.

(** ** Trees *)
Section Tree.
Context {S : Type} (sty : S -> style).
Notation node := (node S).

Definition block_child (k : node) : bool :=
  match st_display (sty (n_style k)) with Some (DBlock | DListItem | DTable) => true | _ => false end.
(** No block after something that is not a block. *)
Fixpoint blocks_first (ks : list node) : bool :=
  match ks with
  | [] => true
  | k :: ks' => if block_child k then blocks_first ks' else negb (existsb block_child ks')
  end.
(** What the last child contributes to an auto height.  While a relative block
    prepares for its children, and for a child that is skipped by a block
    container with blocks, it is enough to have a box. *)
Definition last_boxed (ks : list node) : option bool :=
  match rev ks with [] => None | k :: _ => Some (some (n_box k)) end.
Definition last_sized (stacks : bool) (ks : list node) : option bool :=
  match rev ks with
  | [] => None
  | k :: _ =>
      Some (if stacks && negb (block_child k) then some (n_box k)
            else match kind_of (sty (n_style k)) (n_intr k) with Some kd => height_known kd (n_intr k) | None => false end)
  end.

Fixpoint can_lay (a : around) (n : node) : bool :=
  let 'Node s0 i _ ks := n in
  let s := sty s0 in
  match st_display s with
  | None => true
  | Some dk =>
      match kind_of s i with
      | None => false
      | Some kd =>
          let inner := mkAround (width_known kd i) (if relative s then height_known kd i else true) false
                         (match st_height s with Auto => None | Len u => Some u end) in
          let stacks := match dk with DBlock | DListItem => existsb block_child ks | _ => false end in
          edges_ok a s && width_ok a kd s i
          && (if relative s
              then height_ok a kd s (last_boxed ks)
                   && offsets_ok a (w_known a) (st_left s) (st_right s)
                   && offsets_ok a (h_known a) (st_top s) (st_bottom s)
              else true)
          && (if stacks
              then blocks_first ks && forallb (fun k => if block_child k then can_lay inner k else true) ks
              else forallb (can_lay inner) ks)
          && height_ok a kd s (last_sized stacks ks)
      end
  end.
(** The root must be displayed and have a box. *)
Definition can_lay_out (n : node) : bool :=
  some (n_box n) && some (st_display (sty (n_style n))) && can_lay (mkAround true true true None) n.
End Tree.
