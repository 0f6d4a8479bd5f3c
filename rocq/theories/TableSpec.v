(** * What C166 says: a declaration is a table, every operation writes entries of it *)
From Coq Require Import ZArith Bool String Ascii List.
From Verif Require Import PyNum PyStr Units Values Choices Shorthand Decl DeclSpec RaiseSpec GrammarSpec ShortSpec.
Import ListNotations.
Open Scope string_scope.

(** What an operation does to one longhand: nothing, unset it, or give it v. *)
Inductive change := Keep | Reset | Give (v : pyval).
(** What it does to every longhand. *)
Definition effect := longhand -> change.
Definition untouched (E : effect) : Prop := forall q, E q = Keep.
(** One effect after another: the later one counts. *)
Definition over (a b : change) : change := match b with Keep => a | _ => b end.
Definition followed_by (E F G : effect) : Prop := forall q, G q = over (E q) (F q).

(** The value is in the grammar of the property (C163). *)
Definition accepted (q : longhand) (v : pyval) : Prop := exists n w m, written q n v w m.
(** The exception for a value that is not: the one C161 lists, else ValueError. *)
Definition refusal (q : longhand) (v : pyval) (e : exn) : Prop :=
  raises q v e \/ ((forall x, ~ raises q v x) /\ e = ValueError).
Definition refusal_of_parts (sh : shorthand) (v : pyval) (e : exn) : Prop :=
  raising sh v e \/ ((forall x, ~ raising sh v x) /\ e = ValueError).

(** [assigning p v E r]: assigning v to p has effect E and raises r (None:
    raises nothing).  Neither E nor r depends on the declaration. *)
Inductive assigning : prop -> pyval -> effect -> option exn -> Prop :=
| assign_long q v E : q <> L_quotes -> accepted q v -> E q = Give v -> (forall r, r <> q -> E r = Keep) ->
    assigning (Long q) v E None
| refuse_long q v E e : q <> L_quotes -> ~ accepted q v -> refusal q v e -> untouched E -> assigning (Long q) v E (Some e)
| assign_sides d v f E : sides_of v = Some f -> (forall s, accepted (side_prop d s) (f s)) ->
    (forall s, E (side_prop d s) = Give (f s)) -> (forall q, (forall s, q <> side_prop d s) -> E q = Keep) ->
    assigning (Dir d) v E None
| refuse_side d v f done s E e : sides_of v = Some f -> stopped d f done s -> refusal (side_prop d s) (f s) e ->
    (forall r, In r done -> E (side_prop d r) = Give (f r)) -> (forall q, (forall r, In r done -> q <> side_prop d r) -> E q = Keep) ->
    assigning (Dir d) v E (Some e)
| refuse_number d v E : sides_of v = None -> untouched E -> assigning (Dir d) v E (Some ValueError)
| assign_parts sh v l ks E : parts_given v l -> filled sh ks l -> ~ Exists angle_text l ->
    Forall2 (fun k part => forall q, In q (component sh k) -> E q = Give part) ks l ->
    (forall k q, ~ In k ks -> In q (component sh k) -> E q = Reset) ->
    (forall q, ~ In q (longhands_of (Short sh)) -> E q = Keep) ->
    assigning (Short sh) v E None
| refuse_angle sh v l ks E : sh <> S_outline -> parts_given v l -> filled sh ks l -> Exists angle_text l -> untouched E ->
    assigning (Short sh) v E (Some ValueError)
| refuse_outline_angle v l ks E : parts_given v l -> filled S_outline ks l -> Exists angle_text l ->
    Forall2 (fun k part => k <> CWidth -> forall q, In q (component S_outline k) -> E q = Give part) ks l ->
    (forall k q, ~ In k ks -> In q (component S_outline k) -> E q = Reset) ->
    (forall q, q <> L_outline_color -> q <> L_outline_style -> E q = Keep) ->
    assigning (Short S_outline) v E (Some ValueError)
| refuse_parts sh v E e : (forall l ks, parts_given v l -> ~ filled sh ks l) -> refusal_of_parts sh v e -> untouched E ->
    assigning (Short sh) v E (Some e).

(** Deleting unsets the longhands the property stands for. *)
Definition deleting (p : prop) (E : effect) : Prop :=
  (forall q, In q (longhands_of p) -> E q = Reset) /\ (forall q, ~ In q (longhands_of p) -> E q = Keep).

(** One item of update(): None deletes. *)
Inductive updating_item : string -> pyval -> effect -> option exn -> Prop :=
| item_set name p v E r : names_prop name p -> v <> VNone -> assigning p v E r -> updating_item name v E r
| item_delete name p E : names_prop name p -> deleting p E -> updating_item name VNone E None
| item_unknown name v E : (forall p, ~ names_prop name p) -> untouched E -> updating_item name v E (Some NameError).
(** update() works through its items up to the first that raises. *)
Inductive updating : list (string * pyval) -> effect -> option exn -> Prop :=
| update_done E : untouched E -> updating [] E None
| update_next name v l E F G r : updating_item name v E None -> updating l F r -> followed_by E F G -> updating ((name, v) :: l) G r
| update_stop name v l E e : updating_item name v E (Some e) -> updating ((name, v) :: l) E (Some e).

Inductive operating : op -> effect -> option exn -> Prop :=
| operate_set p v E r : assigning p v E r -> operating (OpSet p v) E r
| operate_del p E : deleting p E -> operating (OpDel p) E None
| operate_update l E r : updating l E r -> operating (OpUpdate l) E r
| operate_setitem name p v E r : names_prop name p -> assigning p v E r -> operating (OpSetItem name v) E r
| operate_setitem_unknown name v E : (forall p, ~ names_prop name p) -> untouched E -> operating (OpSetItem name v) E (Some KeyError)
| operate_delitem name p E : names_prop name p -> deleting p E -> operating (OpDelItem name) E None
| operate_delitem_unknown name E : (forall p, ~ names_prop name p) -> untouched E -> operating (OpDelItem name) E (Some KeyError)
| operate_bind node E : untouched E -> operating (OpBind node) E None.

(** A program goes on after an operation that raises. *)
Inductive program : list op -> effect -> list (option exn) -> Prop :=
| program_end E : untouched E -> program [] E []
| program_step o l E F G r rs : operating o E r -> program l F rs -> followed_by E F G -> program (o :: l) G (r :: rs).

(** The program binds the declaration only to nodes that have a layout. *)
Definition with_layouts (l : list op) : Prop := ~ In (OpBind (Some None)) l.
(** The program does not assign to quotes (its values are the subject of C156). *)
Definition quotes_name (name : string) : Prop := names_prop name (Long L_quotes).
Definition spares_quotes (o : op) : Prop :=
  match o with
  | OpSet p _ => p <> Long L_quotes
  | OpUpdate l => forall name v, In (name, v) l -> quotes_name name -> v = VNone
  | OpSetItem name _ => ~ quotes_name name
  | _ => True
  end.

(** The exceptions the operations of a program raise, one by one. *)
Fixpoint exceptions (ho : hash_order) (l : list op) (c : css) (n : nat) : list (option exn) :=
  match l with
  | [] => []
  | o :: r => let '(c', n', x) := run_op ho o c n in (match x with Ok _ => None | Err e => Some e end) :: exceptions ho r c' n'
  end.
(** What q reads as after the change, which started from a declaration a. *)
Definition shows_change (ho : hash_order) (a c : css) (q : longhand) (x : change) : Prop :=
  match x with
  | Keep => c_store c q = c_store a q
  | Reset => c_store c q = None /\ (~ follower q -> get_prop ho c (Long q) = Ok (RValue (css_initial q)))
  | Give v => now ho c q v
  end.
