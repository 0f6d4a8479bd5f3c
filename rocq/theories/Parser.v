(** * Value parsers -- /repo/src/colosseum/parser.py (without the shorthands,
      which are in Shorthand.v because they call the validators)

    Every parser that creates an object compared by identity takes the next
    free object number and returns it with the result.  On failure no number is
    returned: objects created by a failed parse are unreachable. *)
From Coq Require Import ZArith QArith Qcanon Bool String Ascii List.
From Verif Require Import PyNum Units Float64 PyStr Colors Values.
Import ListNotations.
Open Scope string_scope.
Open Scope Z_scope.

(** [try: m except ValueError: pass] followed by d. *)
Definition try_value {A} (m d : res A) : res A :=
  match m with Err e => if is_value_error e then d else m | Ok _ => m end.

(** ** units (parser.py:11-38) *)
(** parser.py:25-36: scan the registry, then try a bare number.  Creating the
    result appends it to the registry (units.py:31). *)
Fixpoint scan_units (reg : registry) (value : string) : option unit_ :=
  match reg with
  | [] => None
  | (suffix, unit) :: rest =>
      if endswith suffix value then
        match py_float (drop_end (String.length suffix) value) with
        | Ok x => Some (rmul (PF x) unit)
        | Err _ => scan_units rest value
        end
      else scan_units rest value
  end.
(** units(value) (parser.py:11-38), with the registry it reads (26) and extends (units.py:31). *)
Definition units_in (reg : registry) (value : pyval) : res (unit_ * registry) :=
  let created u := Ok (u, (reg ++ [reg_entry u])%list) in
  match value with
  | VUnit u => if is_unit_kind (u_kind u) then Ok (u, reg) else Err ValueError
  | VInt z => created (rmul (PI z) px_u)
  | VFloat x => created (rmul (PF x) px_u)
  | VStr s =>
      match scan_units reg s with
      | Some u => created u
      | None => try_value (x <-r py_float s ;; created (rmul (PF x) px_u)) (Err ValueError)
      end
  | _ => Err ValueError
  end.
(** The parser with the registry as it is after importing the library.
    Theorem C07 (UnitsParseProps.v) shows that the registry's later growth never
    changes the result, so the rest of the model uses this one. *)
Definition units (value : pyval) : res unit_ :=
  r <-r units_in base_registry value ;; Ok (fst r).

(** ** color (parser.py:41-111) and pound_sign_color (114-151) *)
Definition char_at (n : nat) (s : string) : string := take 1 (drop n s).
(** value[i] + value[i] (parser.py:126-135). *)
Definition twice (s : string) : string := s ++ s.
(** int(s, 16) as a colour component (parser.py:126-148). *)
Definition int16 (s : string) : res pynum := z <-r py_int16 s ;; Ok (PI z).
(** int(s, 16) / 0xFF *)
Definition alpha16 (s : string) : res pynum := z <-r py_int16 s ;; Ok (PF (int_div z 255)).
(** parser.py:114-151 *)
Definition pound_sign_color (v : string) : res color_t :=
  match String.length v with
  | 4%nat =>
      r <-r int16 (twice (char_at 1 v)) ;; g <-r int16 (twice (char_at 2 v)) ;;
      b <-r int16 (twice (char_at 3 v)) ;; Ok (Rgb r g b opaque)
  | 5%nat =>
      r <-r int16 (twice (char_at 1 v)) ;; g <-r int16 (twice (char_at 2 v)) ;;
      b <-r int16 (twice (char_at 3 v)) ;; a <-r alpha16 (twice (char_at 4 v)) ;; Ok (Rgb r g b a)
  | 7%nat =>
      r <-r int16 (take 2 (drop 1 v)) ;; g <-r int16 (take 2 (drop 3 v)) ;;
      b <-r int16 (take 2 (drop 5 v)) ;; Ok (Rgb r g b opaque)
  | 9%nat =>
      r <-r int16 (take 2 (drop 1 v)) ;; g <-r int16 (take 2 (drop 3 v)) ;;
      b <-r int16 (take 2 (drop 5 v)) ;; a <-r alpha16 (take 2 (drop 7 v)) ;; Ok (Rgb r g b a)
  | _ => Err ValueError
  end.
(** int(s) as a colour component (parser.py:69, 77, 86, 99). *)
Definition int10 (s : string) : res pynum := z <-r py_int s ;; Ok (PI z).
(** float(s) as the alpha component (parser.py:69, 89). *)
Definition float10 (s : string) : res pynum := x <-r py_float s ;; Ok (PF x).
(** int(s.strip().rstrip("%")) / 100.0 (parser.py:87-88, 99-100) *)
Definition percent10 (s : string) : res pynum :=
  z <-r py_int (rstrip_percent (strip s)) ;; x <-r int_fdiv z 100 ;; Ok (PF x).
(** parser.py:66-70, 75-77, 83-90, 96-102: the bodies of the try blocks; a
    wrong number of arguments falls through to the ValueError at line 111. *)
Definition rgba_args (l : list string) : res color_t :=
  match l with
  | [r; g; b; a] => r <-r int10 r ;; g <-r int10 g ;; b <-r int10 b ;; a <-r float10 a ;; Ok (Rgb r g b a)
  | _ => Err ValueError
  end.
(** parser.py:76-77 *)
Definition rgb_args (l : list string) : res color_t :=
  match l with
  | [r; g; b] => r <-r int10 r ;; g <-r int10 g ;; b <-r int10 b ;; Ok (Rgb r g b opaque)
  | _ => Err ValueError
  end.
(** parser.py:84-90 *)
Definition hsla_args (l : list string) : res color_t :=
  match l with
  | [h; s; l; a] => h <-r int10 h ;; s <-r percent10 s ;; l <-r percent10 l ;; a <-r float10 a ;; Ok (Hsl h s l a)
  | _ => Err ValueError
  end.
(** parser.py:97-102 *)
Definition hsl_args (l : list string) : res color_t :=
  match l with
  | [h; s; l] => h <-r int10 h ;; s <-r percent10 s ;; l <-r percent10 l ;; Ok (Hsl h s l opaque)
  | _ => Err ValueError
  end.
(** parser.py:61-111 for a string: a new object, or a NAMED_COLOR entry. *)
Definition color_text (value : string) : res (color_t + string) :=
  let new (m : res color_t) := c <-r try_value m (Err ValueError) ;; Ok (inl c) in
  match value with
  | EmptyString => Err IndexError
  | String c _ =>
      if Ascii.eqb c "#" then c <-r pound_sign_color value ;; Ok (inl c)
      else if startswith "rgba" value then new (rgba_args (split_on "," (inner 5 value)))
      else if startswith "rgb" value then new (rgb_args (split_on "," (inner 4 value)))
      else if startswith "hsla" value then new (hsla_args (split_on "," (inner 5 value)))
      else if startswith "hsl" value then new (hsl_args (split_on "," (inner 4 value)))
      else match assoc (lower value) NAMED_COLOR with
           | Some _ => Ok (inr (lower value))
           | None => Err ValueError
           end
  end.
(** NAMED_COLOR[key] (parser.py:107, colors.py:207-356). *)
Definition named_color (key : string) : pyval :=
  match assoc key NAMED_COLOR with
  | Some (r, g, b) => VColor (ONamed key) (Rgb (PI r) (PI g) (PI b) opaque)
  | None => VNone
  end.
(** color(value) (parser.py:41-111) *)
Definition color (next : nat) (value : pyval) : res (pyval * nat) :=
  match value with
  | VColor _ _ => Ok (value, next)
  | VStr s =>
      r <-r color_text s ;;
      Ok (match r with inl c => (VColor (OId next) c, S next) | inr key => (named_color key, next) end)
  | _ => Err ValueError
  end.

(** ** border_spacing (parser.py:154-179) *)
Definition border_spacing (next : nat) (value : pyval) : res (pyval * nat) :=
  values <-r match sequence value, value with
             | Some l, _ => Ok l
             | None, VInt _ | None, VFloat _ => Ok [value]
             | None, VStr s => Ok (map (fun x => VStr (strip x)) (split_ws s))
             | None, _ => Err AttributeError (* value.split *)
             end ;;
  match values with
  | [h] => h <-r units h ;; Ok (VSpacing (OId next) h None, S next)
  | [h; v] => h <-r units h ;; v <-r units v ;; Ok (VSpacing (OId next) h (Some v), S next)
  | _ => Err ValueError
  end.

(** ** rect (parser.py:182-204).  Rect's parameters are top, right, left,
    bottom in this order (shapes.py:4). *)
Definition rect (value : pyval) : res pyval :=
  match value with
  | VStr s =>
      let v := join " " (map strip (split_ws s)) in
      if startswith "rect(" v && endswith ")" v && Nat.eqb (count "rect(" v) 1 && Nat.eqb (count ")" v) 1 then
        let v := strip (remove_all ")" (remove_all "rect(" v)) in
        let values :=
          if Nat.eqb (count "," v) 3 then Some (split_on "," v)
          else if Nat.eqb (count "," v) 0 && Nat.eqb (count " " v) 3 then Some (split_on " " v)
          else None in
        match values with
        | Some [a; b; c; d] =>
            a <-r units (VStr (strip a)) ;; b <-r units (VStr (strip b)) ;;
            c <-r units (VStr (strip c)) ;; d <-r units (VStr (strip d)) ;; Ok (VRect a b c d)
        | _ => Err ValueError
        end
      else Err ValueError
  | _ => Err AttributeError (* value.split *)
  end.

(** ** quotes (parser.py:207-244) *)
(** repr(item) for strings, integers and None (other items are not decided;
    parser.py:219). *)
Definition repr_val (v : pyval) : res string :=
  match v with VStr s => Ok (repr_str s) | VInt z => Ok (show_Z z) | VNone => Ok "None" | _ => Err Unmodelled end.
(** A list comprehension whose element expression may raise (parser.py:201, 219). *)
Fixpoint map_res {A B} (f : A -> res B) (l : list A) : res (list B) :=
  match l with
  | [] => Ok []
  | x :: r => y <-r f x ;; ys <-r map_res f r ;; Ok (y :: ys)
  end.
(** parser.py:219: [repr(item) for sublist in value for item in sublist] *)
Fixpoint flatten_repr (l : list pyval) : res (list string) :=
  match l with
  | [] => Ok []
  | sub :: r => items <-r iterate sub ;; xs <-r map_res repr_val items ;; ys <-r flatten_repr r ;; Ok (xs ++ ys)%list
  end.
(** literal_eval of one item (parser.py:232-233); SyntaxError becomes
    ValueError (parser.py:239-240).  [None] is a value without len(). *)
Definition eval_quote (s : string) : res (option string) :=
  match literal_eval s with
  | LitStr t => Ok (Some t)
  | LitNoLen => Ok None
  | LitBad => Err ValueError
  | LitUnknown => Err Unmodelled
  end.
(** len(x) == 0 (parser.py:236) leads to ValueError; without len() it is a
    TypeError, which is not caught. *)
Definition check_len (o : option string) : res string :=
  match o with None => Err TypeError | Some s => if is_empty s then Err ValueError else Ok s end.
(** parser.py:226-240: both of a pair are evaluated, then checked for emptiness *)
Fixpoint quote_pairs (l : list string) : res (list (string * string)) :=
  match l with
  | a :: b :: r =>
      a <-r eval_quote a ;; b <-r eval_quote b ;;
      a <-r check_len a ;; b <-r check_len b ;;
      ps <-r quote_pairs r ;; Ok ((a, b) :: ps)
  | _ => Ok []
  end.
(** quotes(value) (parser.py:207-244) *)
Definition quotes (value : pyval) : res pyval :=
  values <-r match value with
             | VStr s => Ok (map strip (split_ws s))
             | _ => match sequence value with
                    | Some l => flatten_repr l
                    | None => Err ValueError
                    end
             end ;;
  if negb (Nat.eqb (List.length values) 0) && Nat.even (List.length values) then
    ps <-r quote_pairs values ;; Ok (VQuotes ps)
  else Err ValueError.

(** ** uri (parser.py:406-437) *)
Definition uri_text (s : string) : res string :=
  let v := strip s in
  if startswith "url(" v && endswith ")" v then
    let v := strip (inner 4 v) in
    if startswith "'" v && endswith "'" v then Ok (inner 1 v)
    else if startswith """" v && endswith """" v then Ok (inner 1 v)
    else Ok v
  else Err ValueError.
(** uri(value) (parser.py:406-437) *)
Definition uri (next : nat) (value : pyval) : res (pyval * nat) :=
  match value with
  | VStr s => u <-r uri_text s ;; Ok (VUri (OId next) u, S next)
  | _ => Err ValueError
  end.

(** ** cursor (parser.py:443-478) *)
(** constants.py:575-593 *)
Definition CURSOR_OPTIONS : list string :=
  ["auto"; "crosshair"; "default"; "pointer"; "move"; "e-resize"; "ne-resize"; "nw-resize"; "n-resize";
   "se-resize"; "sw-resize"; "s-resize"; "w-resize"; "text"; "wait"; "progress"; "help"].
(** value in CURSOR_OPTIONS (parser.py:454, constants.py:575-593). *)
Definition is_cursor_option (v : pyval) : bool := existsb (fun s => py_eqb v (VStr s)) CURSOR_OPTIONS.
(** the loop at parser.py:453-476; [seen] = has_cursor_option *)
Fixpoint cursor_items (next : nat) (seen : bool) (l : list pyval) : res (list pyval * nat) :=
  match l with
  | [] => Ok ([], next)
  | v :: r =>
      if is_cursor_option v then
        if seen then Err ValueError
        else x <-r cursor_items next true r ;; Ok (v :: fst x, snd x)
      else if seen then Err ValueError
      else
        u <-r try_value (uri next v) (Err ValueError) ;;
        x <-r cursor_items (snd u) false r ;; Ok (fst u :: fst x, snd x)
  end.
(** cursor(values) (parser.py:443-478) *)
Definition cursor (next : nat) (values : pyval) : res (pyval * nat) :=
  l <-r match values with
        | VStr s => Ok (map (fun x => VStr (strip x)) (split_on "," s))
        | _ => iterate values
        end ;;
  x <-r cursor_items next false l ;; Ok (VCursor (fst x), snd x).
