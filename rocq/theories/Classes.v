(** * The remaining small classes -- number validators with bounds
      (validators.py), Choices.__str__ and object identity in Choices.validate
      (constants.py), the Shorthand wrapper (wrappers.py) *)
From Coq Require Import ZArith QArith Qcanon Bool String Ascii List.
From Verif Require Import PyNum Units Float64 PyStr Colors Values Parser Choices Shorthand Decl.
Import ListNotations.
Open Scope string_scope.
Open Scope Z_scope.

(** ** Numbers with bounds (validators.py:11-71) *)
(** Python [float(v)]; TypeError for values that are no number and no text.
    OverflowError for integers that are too large comes from [float_of_int]. *)
Definition float_of (v : pyval) : res xq :=
  match v with
  | VInt z => float_of_int z
  | VFloat x => Ok x
  | VStr s => py_float s
  | _ => Err TypeError
  end.
(** num_value < min_value (validators.py:18) and num_value > max_value
    (validators.py:22) when the bound is given; comparisons with NaN are False. *)
Definition below (x : pynum) (lo : option pynum) : bool :=
  match lo with Some m => xltb (pval x) (pval m) | None => false end.
(** validators.py:22 *)
Definition above (x : pynum) (hi : option pynum) : bool :=
  match hi with Some m => xltb (pval m) (pval x) | None => false end.
(** validators.py:17-26 *)
Definition in_bounds (lo hi : option pynum) (x : pynum) : res pynum :=
  if below x lo then Err ValidationError else if above x hi then Err ValidationError else Ok x.
(** validators.py:29-48 with 11-26.  [is_number(min_value, max_value)] is a
    function of the value; without bounds is_number itself is that function. *)
Definition number_validator (lo hi : option pynum) (v : pyval) : res pynum :=
  x <-r as_validation_t (float_of v) ;; in_bounds lo hi (PF x).
(** validators.py:53-71 with 11-26, with bounds. *)
Definition integer_validator (lo hi : option pynum) (v : pyval) : res pynum :=
  z <-r as_validation_t (int_of v) ;; in_bounds lo hi (PI z).

(** ** Choices.__str__ (constants.py:44-53) *)
Section Message.
(** What str() gives for the object [default] (its text contains an address). *)
Variable object_text : string.
(** str(c).lower().replace("_", "-") (constants.py:45).  Simplification: the
    constants of the library are texts, None and [default]; other values give "". *)
Definition constant_text (c : pyval) : string :=
  dashed (lower (match c with VStr s => s | VNone => "None" | VDefault => object_text | _ => "" end)).
(** The attribute description of the validators (validators.py:50, 74, 86, 106,
    118, 135, 148, 161, 203-207). *)
Definition description (f : validator) : string :=
  match f with
  | is_length => "<length>" | is_percentage => "<percentage>" | is_integer => "<integer>" | is_color => "<color>"
  | is_border_spacing => "<length> <length>?" | is_rect => "<rect>" | is_quote => "[<string> <string>]+"
  | is_cursor => "[ [<uri> ,]* [ auto | crosshair | default | pointer | move | e-resize | ne-resize | nw-resize | n-resize | se-resize | sw-resize | s-resize | w-resize | text | wait | help | progress ] ]"
  end.
(** The explicit defaulting constants are added as they are (constants.py:49-51);
    they are texts. *)
Definition defaulting_text (c : pyval) : string := match c with VStr s => s | _ => "" end.
(** choices.add(s) on the set, kept as a sorted list without repetitions:
    sorted(choices) (constants.py:53) does not depend on how the set is kept. *)
Fixpoint add_text (s : string) (l : list string) : list string :=
  match l with
  | [] => [s]
  | t :: r => match String.compare s t with Lt => s :: l | Eq => l | Gt => t :: add_text s r end
  end.
(** constants.py:44-53; [order] is the iteration order of the set of constants. *)
Definition choices_str (order : list pyval -> list pyval) (ch : choices) : string :=
  join ", " (fold_left (fun l s => add_text s l)
    (map constant_text (order (ch_constants ch)) ++ map description (ch_validators ch) ++ map defaulting_text (ch_defaulting ch))%list []).
(** The end of the message of the ValueError raised by the setter
    (declaration.py:200-203). *)
Definition valid_values (ho : hash_order) (p : longhand) : string := choices_str (ho_set ho) (choices_of p).
End Message.

(** ** Identity of keywords (constants.py:23-42) *)
(** A Python object: which object it is, and its contents. *)
Record obj := mkObj { o_id : nat; o_val : pyval }.
(** constants.py:34-36, 38-40: [return const], the member itself. *)
Fixpoint find_obj (v : pyval) (l : list obj) : option obj :=
  match l with
  | [] => None
  | c :: r => if py_eqb v (o_val c) then Some c else find_obj v r
  end.
(** constants.py:23-42 on objects.  The validators make new objects, whose
    identity the model leaves open: [fresh]. *)
Definition validate_obj (fresh : nat) (order : list obj -> list obj) (constants defaulting : list obj) (fs : list validator)
  (next : nat) (v : obj) : res (obj * nat) :=
  r <-r first_valid fs next (o_val v) ;;
  match r with
  | Some (w, n) => Ok (mkObj fresh w, n)
  | None =>
      let x := if py_eqb (o_val v) (VStr "none") then VNone else o_val v in
      match find_obj x (order constants) with
      | Some c => Ok (c, next)
      | None => match find_obj x defaulting with Some c => Ok (c, next) | None => Err ValueError end
      end
  end.

(** ** The Shorthand wrapper (wrappers.py:88-155) *)
(** An object: its class (the class attribute VALID_KEYS goes with it) and the
    attributes that were set. *)
Record wrapper := mkWrapper { w_class : shorthand; w_dict : string -> option pyval }.
(** VALID_KEYS (wrappers.py:134-155) as names.  Simplification: the base class
    with its empty VALID_KEYS, whose constructor always raises ValueError, is
    left out. *)
Definition key_names (sh : shorthand) : list string := map (fun kp => prop_name (snd kp)) (valid_keys sh).
(** wrappers.py:91-100: the keyword arguments in the order given. *)
Fixpoint set_keys (sh : shorthand) (d : string -> option pyval) (kwargs : list (string * pyval)) : res (string -> option pyval) :=
  match kwargs with
  | [] => Ok d
  | (k, v) :: r =>
      if existsb (String.eqb k) (key_names sh) then set_keys sh (fun j => if String.eqb j k then Some v else d j) r
      else Err ValueError
  end.
(** wrappers.py:91-100 *)
Definition make_wrapper (sh : shorthand) (kwargs : list (string * pyval)) : res wrapper :=
  d <-r set_keys sh (fun _ => None) kwargs ;; Ok (mkWrapper sh d).
(** wrappers.py:124-131 *)
Definition to_dict (w : wrapper) : list (string * pyval) :=
  flat_map (fun k => match w_dict w k with Some v => [(k, v)] | None => [] end) (key_names (w_class w)).
(** d == e for dictionaries with distinct keys: the same keys with equal values.
    (OrderedDict compares in order; the keys of both come in the order of VALID_KEYS.)
    Simplification: a dictionary takes a value to equal itself even when its
    [==] says otherwise, which only a value with a NaN inside can tell. *)
Fixpoint dict_eqb (d e : list (string * pyval)) : bool :=
  match d, e with
  | [], [] => true
  | (k, v) :: d', (j, w) :: e' => String.eqb k j && py_eqb v w && dict_eqb d' e'
  | _, _ => false
  end.
(** other.__class__ == self.__class__ (wrappers.py:103). *)
Definition class_eqb (a b : shorthand) : bool := String.eqb (short_name a) (short_name b).
(** wrappers.py:102-103 *)
Definition wrapper_eqb (a b : wrapper) : bool := class_eqb (w_class a) (w_class b) && dict_eqb (to_dict a) (to_dict b).
(** What reading a shorthand returns: the wrapper, or "" (declaration.py:100-109). *)
Definition read_short (c : css) (sh : shorthand) : res (option wrapper) :=
  match get_short c sh with
  | [] => Ok None
  | l => w <-r make_wrapper sh (map (fun qv => (prop_name (fst qv), snd qv)) l) ;; Ok (Some w)
  end.
