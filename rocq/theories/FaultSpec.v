(** * Specification for C135: which exception a failing layout raises

    The obstacles that layout can meet, the exception by which each of them is
    reported, and the order in which they are met.  As in OkSpec.v no sizes are
    mentioned, only whether a size is known. *)
From Coq Require Import ZArith QArith Qcanon Bool List String.
From Verif Require Import PyNum Units BoxModel Engine OkSpec.
Import ListNotations.

Inductive obstacle :=
| NotALength          (* an angle, or a font unit other than em, ex and ch *)
| NotFinite           (* an infinite or undefined amount *)
| UnknownSize         (* a size that is not known is needed *)
| AutoMargin          (* an auto margin above a word *)
| NotSupported        (* floats, absolute and fixed positions, inline blocks, replaced blocks *)
| NoSuchDisplay       (* any other value of display *)
| NothingToInherit    (* an offset cannot be inherited *)
| NoBox               (* the last child, or the root, has no box *)
| BlockAfterInline.   (* a block after something that is not a block *)

(** How each obstacle is reported. *)
Definition reported_as (o : obstacle) (e : exn) : Prop :=
  match o with
  | NotALength | NothingToInherit | NoBox | BlockAfterInline => e = AttributeError
  | UnknownSize | AutoMargin => e = TypeError
  | NotSupported => e = NotImplementedError
  | NoSuchDisplay => e = PlainException
  | NotFinite => e = OverflowError \/ e = ValueError
  end.

(** The first of two obstacles, and of a list. *)
Definition first (o o' : option obstacle) : option obstacle := match o with Some _ => o | None => o' end.
Definition firsts (l : list (option obstacle)) : option obstacle := fold_right first None l.
Definition unless (b : bool) (o : obstacle) : option obstacle := if b then None else Some o.

(** ** Lengths *)
Definition in_length (known : bool) (u : unit_) : option obstacle :=
  match u_kind u with
  | KAngle _ _ => Some NotALength
  | KFont s => if String.eqb s "em" || String.eqb s "ex" || String.eqb s "ch" then unless (finite (u_val u)) NotFinite else Some NotALength
  | KPct => first (unless known UnknownSize) (unless (finite (u_val u)) NotFinite)
  | KPx | KAbs _ _ | KVp _ _ => unless (finite (u_val u)) NotFinite
  end.
Definition in_auto (known : bool) (v : lenauto) : option obstacle := match v with Auto => None | Len u => in_length known u end.
Definition in_border (known : bool) (v : bwidth) : option obstacle := match v with BKw _ => None | BLen u => in_length known u end.
Definition in_any (known : bool) (v : option unit_) : option obstacle := match v with None => None | Some u => in_length known u end.

(** ** One node *)
Definition in_edges (a : around) (s : style) : option obstacle := firsts
  [ in_auto (h_known a) (st_margin_top s); in_auto (w_known a) (st_margin_right s);
    in_auto (h_known a) (st_margin_bottom s); in_auto (w_known a) (st_margin_left s);
    in_border (w_known a) (st_border_top s); in_border (h_known a) (st_border_right s);
    in_border (w_known a) (st_border_bottom s); in_border (h_known a) (st_border_left s);
    in_length (w_known a) (st_padding_top s); in_length (h_known a) (st_padding_right s);
    in_length (w_known a) (st_padding_bottom s); in_length (h_known a) (st_padding_left s) ].

Definition in_offsets (a : around) (known : bool) (start end_ : offset) : option obstacle :=
  match start, end_ with
  | OAuto, OAuto => None
  | OLen u, _ => in_length known u
  | OAuto, OLen u => in_length known u
  | OInherit, OAuto => unless (negb (is_display a)) NothingToInherit
  | OAuto, OInherit => first (unless (negb (is_display a)) NothingToInherit) (unless known UnknownSize)
  | OInherit, _ => Some NothingToInherit
  end.

(** Why a node has no kind of layout. *)
Definition in_kind (s : style) : obstacle :=
  match st_float s, st_position s, st_display s with
  | Some _, _, _ | _, PAbsolute, _ | _, PFixed, _ => NotSupported
  | None, _, Some (DBlock | DListItem | DTable | DInlineBlock) => NotSupported
  | None, _, _ => NoSuchDisplay
  end.

Definition in_width (a : around) (k : layout_kind) (s : style) (i : size) : option obstacle :=
  match k with
  | Word => None
  | Image =>
      match st_width s, st_height s, s_width i, s_height i, s_ratio i with
      | Len u, _, _, _, _ => in_length (w_known a) u
      | Auto, Auto, None, None, Some _ => unless (w_known a) UnknownSize
      | _, _, _, _, _ => None
      end
  | Block =>
      match st_width s with
      | Auto => unless (w_known a) UnknownSize
      | Len u => firsts [in_length (w_known a) u; in_any (w_known a) (st_max_width s); in_auto (w_known a) (st_min_width s);
                         unless (w_known a) UnknownSize]
      end
  end.

(** The last child: whether it has a box, and whether its height is known. *)
Inductive last_child := Boxless | Boxed (known : bool).
Definition in_height (a : around) (k : layout_kind) (s : style) (last : option last_child) : option obstacle :=
  match k, st_height s with
  | Word, _ => match st_margin_top s with Auto => Some AutoMargin | Len _ => None end
  | Image, Auto => None
  | Image, Len u => in_length (h_known a) u
  | Block, Auto =>
      match last with
      | Some Boxless => Some NoBox
      | Some (Boxed known) => unless known UnknownSize
      | None => in_auto (h_known a) (st_min_height s)
      end
  | Block, Len u =>
      first (match spec_h a with
             | Some pu => first (in_length (h_known a) pu) (in_length true u)
             | None => in_length (h_known a) u
             end)
            (in_any (h_known a) (st_max_height s))
  end.

(** ** Trees *)
Section Tree.
Context {S : Type} (sty : S -> style).
Notation node := (node S).

Definition last_before (ks : list node) : option last_child :=
  match rev ks with [] => None | k :: _ => Some (if some (n_box k) then Boxed true else Boxless) end.
Definition last_after (stacks : bool) (ks : list node) : option last_child :=
  match rev ks with
  | [] => None
  | k :: _ =>
      Some (if stacks && negb (block_child sty k) then if some (n_box k) then Boxed true else Boxless
            else match kind_of (sty (n_style k)) (n_intr k) with Some kd => Boxed (height_known kd (n_intr k)) | None => Boxless end)
  end.
(** Stacked blocks; [inline] if something that is not a block has been passed. *)
Definition in_stack (f : node -> option obstacle) : bool -> list node -> option obstacle :=
  fix go inline ks :=
    match ks with
    | [] => None
    | k :: ks' =>
        if block_child sty k
        then if inline then Some BlockAfterInline else first (f k) (go inline ks')
        else go true ks'
    end.

(** The first obstacle met in laying out a node. *)
Fixpoint in_node (a : around) (n : node) : option obstacle :=
  let 'Node s0 i _ ks := n in
  let s := sty s0 in
  match st_display s with
  | None => None
  | Some dk =>
      first (in_edges a s)
        match kind_of s i with
        | None => Some (in_kind s)
        | Some kd =>
            let inner := mkAround (width_known kd i) (if relative s then height_known kd i else true) false
                           (match st_height s with Auto => None | Len u => Some u end) in
            let stacks := match dk with DBlock | DListItem => existsb (block_child sty) ks | _ => false end in
            firsts
              [ in_width a kd s i;
                if relative s then in_height a kd s (last_before ks) else None;
                if stacks then in_stack (in_node inner) false ks else firsts (map (in_node inner) ks);
                in_height a kd s (last_after stacks ks);
                if relative s then first (in_offsets a (w_known a) (st_left s) (st_right s))
                                         (in_offsets a (h_known a) (st_top s) (st_bottom s))
                else None ]
        end
  end.
(** And in laying out a document. *)
Definition in_document (n : node) : option obstacle :=
  if some (n_box n) then first (in_node (mkAround true true true None) n) (unless (some (st_display (sty (n_style n)))) NoBox)
  else Some NoBox.
End Tree.
