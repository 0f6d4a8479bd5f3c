(** * Specifications for C148, C149: repr and hash of values *)
From Coq Require Import ZArith QArith Qcanon Bool String Ascii List DecimalString.
From Verif Require Import PyNum Units Float64 PyStr Colors Values Decl DeclSpec ParseSpec ParserSpec Wrappers Text Classes Repr.
Import ListNotations.
Open Scope string_scope.
Open Scope Z_scope.

(** [within a v]: the value a is v itself or is contained in it. *)
Inductive within : pyval -> pyval -> Prop :=
| within_self v : within v v
| within_tuple a v l : In v l -> within a v -> within a (VTuple l)
| within_list a v l : In v l -> within a v -> within a (VList l)
| within_cursor a v l : In v l -> within a v -> within a (VCursor l).
(** [length_of v u]: u is one of the lengths of which the value v consists. *)
Inductive length_of : pyval -> unit_ -> Prop :=
| length_itself u : length_of (VUnit u) u
| length_horizontal o h w : length_of (VSpacing o h w) h
| length_vertical o h w : length_of (VSpacing o h (Some w)) w
| length_side t r l b u : In u [t; r; l; b] -> length_of (VRect t r l b) u.

(** ** Python's way of writing a string (Latin-1)
    The quote is ', or " if the string contains ' and no "; the quote and \ get
    a \ before them; tab, newline and return are written \t, \n and \r; what
    has no glyph is written \x and two hexadecimal digits, the rest as it is. *)
Definition q1 : ascii := "039".
Definition q2c : ascii := "034".
Definition bs : ascii := "092".
Definition quoted_by (s : string) (q : ascii) : Prop :=
  (In q1 (list_ascii_of_string s) /\ ~ In q2c (list_ascii_of_string s) /\ q = q2c)
  \/ (~ (In q1 (list_ascii_of_string s) /\ ~ In q2c (list_ascii_of_string s)) /\ q = q1).
Definition has_glyph (c : ascii) : Prop := let n := N_of_ascii c in ((32 <= n <= 126 \/ 161 <= n <= 255) /\ n <> 173)%N.
Inductive escaped (q : ascii) : ascii -> string -> Prop :=
| escaped_mark c : c = q \/ c = bs -> escaped q c (String bs (String c ""))
| escaped_tab : escaped q "009" (String bs "t")
| escaped_newline : escaped q "010" (String bs "n")
| escaped_return : escaped q "013" (String bs "r")
| escaped_not c : has_glyph c -> c <> q -> c <> bs -> escaped q c (String c "")
| escaped_code c i j x y : ~ has_glyph c -> ~ In c ["009"; "010"; "013"]%char -> (nat_of_ascii c = 16 * i + j)%nat ->
    String.get i "0123456789abcdef" = Some x -> String.get j "0123456789abcdef" = Some y ->
    escaped q c (String bs (String "x" (String x (String y "")))).
Definition quoted (s t : string) : Prop :=
  exists q ts, quoted_by s q /\ Forall2 (escaped q) (list_ascii_of_string s) ts /\ t = String q (String.concat "" ts ++ String q "").

Section Written.
Context (show : xq -> string) (obj : pyval -> string).
(** The decimal text of an integer, by the standard library of Coq. *)
Definition int_text (z : Z) : string := NilZero.string_of_int (Z.to_int z).
(** The text of an int or a float. *)
Definition number_written (m : pynum) : string := match m with PI z => int_text z | PF x => show x end.
(** A length: a whole magnitude as an integer, another as a float, then the unit. *)
Inductive length_written : unit_ -> string -> Prop :=
| length_whole u z : pval (u_val u) = Fin (Z2Qc z) -> length_written u (int_text z ++ suffix_of (u_kind u))
| length_fraction u q : pval (u_val u) = Fin q -> (forall z, q <> Z2Qc z) -> length_written u (show (Fin q) ++ suffix_of (u_kind u)).
(** The names of the constructors with their arguments, separated by commas. *)
Definition applied (f : string) (ts : list string) : string := f ++ "(" ++ String.concat ", " ts ++ ")".
Definition listed (ts : list string) : string := "[" ++ String.concat ", " ts ++ "]".
(** [written v t]: t is the text of v as a Python expression. *)
Inductive written : pyval -> string -> Prop :=
| written_none : written VNone "None"
| written_int z : written (VInt z) (int_text z)
| written_float x : written (VFloat x) (show x)
| written_text s t : quoted s t -> written (VStr s) t
| written_length u t : length_written u t -> written (VUnit u) t
| written_rgb o r g b a : written (VColor o (Rgb r g b a)) (applied "rgba" (map number_written [r; g; b; a]))
| written_hsl o h s l a : written (VColor o (Hsl h s l a)) (applied "hsla" (map number_written [h; s; l; a]))
| written_single v t : written v t -> written (VTuple [v]) ("(" ++ t ++ ",)")
| written_tuple l ts : List.length l <> 1%nat -> Forall2 written l ts -> written (VTuple l) (applied "" ts)
| written_list l ts : Forall2 written l ts -> written (VList l) (listed ts)
| written_spacing o h t : length_written h t -> written (VSpacing o h None) (applied "BorderSpacing" [t])
| written_spacing2 o h w t u : length_written h t -> length_written w u -> written (VSpacing o h (Some w)) (applied "BorderSpacing" [t; u])
| written_rect a b c d ts : Forall2 length_written [a; b; c; d] ts -> written (VRect a b c d) (applied "rect" ts)
| written_quotes l ts : Forall2 (fun p t => exists a b, quoted (fst p) a /\ quoted (snd p) b /\ t = applied "" [a; b]) l ts ->
    written (VQuotes l) (applied "Quotes" [listed ts])
| written_uri o x : written (VUri o x) (applied "url" [q2 ++ x ++ q2])
| written_no_cursor : written (VCursor []) "Cursor()"
| written_cursor l ts : l <> [] -> Forall2 written l ts -> written (VCursor l) (applied "Cursor" [listed ts])
| written_default : written VDefault (obj VDefault)
| written_object o : written (VObject o) (obj (VObject o)).
End Written.

(** A text without braces. *)
Definition brace_free (s : string) : Prop := ~ In "{"%char (list_ascii_of_string s) /\ ~ In "}"%char (list_ascii_of_string s).
(** ** Format strings (wrappers.py:115)
    A format string consists of characters that are no braces, of doubled braces
    and of fields in braces. *)
Inductive piece := P_char (c : ascii) | P_opening | P_closing | P_field (name : string).
Definition well_formed (p : piece) : Prop :=
  match p with
  | P_char c => c <> "{"%char /\ c <> "}"%char
  | P_opening | P_closing => True
  | P_field n => brace_free n
  end.
(** The text of a piece within a format string. *)
Definition piece_text (p : piece) : string :=
  match p with P_char c => String c "" | P_opening => "{{" | P_closing => "}}" | P_field n => "{" ++ n ++ "}" end.
Definition template (ps : list piece) : string := String.concat "" (map piece_text ps).
(** What cannot be the rest of a format string: a closing brace that is not
    doubled, and an opening brace that is not closed. *)
Inductive stray : string -> Prop :=
| stray_end : stray "}"
| stray_closing c r : c <> "}"%char -> stray (String "}" (String c r))
| stray_opening n : brace_free n -> stray (String "{" n).
(** A name that format() looks up as it is: no attribute, index, conversion or
    format specification in it, and not a number. *)
Definition simple_name (n : string) : Prop :=
  (forall c, In c ["."; "["; "!"; ":"]%char -> ~ In c (list_ascii_of_string n))
  /\ exists c, In c (list_ascii_of_string n) /\ ~ In c (list_ascii_of_string "0123456789").
(** [replaced props p t]: the piece p becomes the text t; a field becomes the text
    (str) of the property of that name. *)
Inductive replaced (show : xq -> string) (props : list (string * pyval)) : piece -> string -> Prop :=
| replaced_char c : replaced show props (P_char c) (String c "")
| replaced_opening : replaced show props P_opening "{"
| replaced_closing : replaced show props P_closing "}"
| replaced_field n v t : simple_name n -> In (n, v) props -> value_str show v = Ok t -> replaced show props (P_field n) t.
(** The name of the class of a shorthand reading. *)
Definition class_called (sh : shorthand) : string :=
  match sh with
  | S_outline => "Outline" | S_border => "Border"
  | S_border_side STop => "BorderTop" | S_border_side SRight => "BorderRight"
  | S_border_side SBottom => "BorderBottom" | S_border_side SLeft => "BorderLeft"
  end.
(** The lengths of a shorthand reading are in units of the library. *)
Definition library_units (w : wrapper) : Prop := forall k u, In (k, VUnit u) (to_dict w) -> exists t, In (t, u_kind u) css_units.

(** The values without a hash: lengths, rectangles, quotes and plain lists. *)
Inductive unhashable : pyval -> Prop :=
| unhashable_length u : unhashable (VUnit u)
| unhashable_rect t r l b : unhashable (VRect t r l b)
| unhashable_quotes l : unhashable (VQuotes l)
| unhashable_list l : unhashable (VList l).
(** The nested members that a hash looks at: not inside plain lists. *)
Inductive member : pyval -> pyval -> Prop :=
| member_self v : member v v
| member_tuple a v l : In v l -> member a v -> member a (VTuple l)
| member_cursor a v l : In v l -> member a v -> member a (VCursor l).
