(** * Python strings and text-to-number conversion

    The [str] methods used by /repo/src/colosseum/parser.py and declaration.py,
    and the built-in conversions [int(s)], [int(s, 16)], [float(s)], [str(int)],
    [repr(str)], [ast.literal_eval].

    Simplification: a Python [str] is a Coq [string], i.e. its characters are
    the 256 code points of Latin-1.  The 4300-digit limit of [int(s)] is not
    modelled. *)
From Coq Require Import ZArith QArith Qcanon Bool String Ascii List.
From Verif Require Import PyNum Float64.
Import ListNotations.
Open Scope string_scope.
Open Scope Z_scope.

(** ord(c). *)
Definition code (c : ascii) : Z := Z.of_N (N_of_ascii c).
(** A code point between two bounds. *)
Definition in_range (lo hi : Z) (c : ascii) : bool := (lo <=? code c) && (code c <=? hi).

(** [str.isspace] for one character (used by [strip()] and [split()]). *)
Definition is_space (c : ascii) : bool :=
  in_range 9 13 c || in_range 28 32 c || (code c =? 133) || (code c =? 160).
(** The blanks [int(s)] and [float(s)] skip at both ends (not 28-31). *)
Definition is_num_space (c : ascii) : bool :=
  in_range 9 13 c || (code c =? 32) || (code c =? 133) || (code c =? 160).

(** not s. *)
Definition is_empty (s : string) : bool := match s with EmptyString => true | _ => false end.

(** Drop the leading characters with a property (lstrip). *)
Fixpoint lstrip_by (f : ascii -> bool) (s : string) : string :=
  match s with
  | EmptyString => EmptyString
  | String c r => if f c then lstrip_by f r else s
  end.
(** Drop the trailing characters with a property (rstrip). *)
Fixpoint rstrip_by (f : ascii -> bool) (s : string) : string :=
  match s with
  | EmptyString => EmptyString
  | String c r => let r' := rstrip_by f r in if is_empty r' && f c then EmptyString else String c r'
  end.
(** [s.strip()] *)
Definition strip (s : string) : string := rstrip_by is_space (lstrip_by is_space s).
(** [s.rstrip("%")] *)
Definition rstrip_percent (s : string) : string := rstrip_by (Ascii.eqb "%"%char) s.

(** [s.split()]: the maximal runs of non-blank characters.  The helper returns
    the run at the very start and the runs after it. *)
Definition cons_word (w : string) (ws : list string) : list string :=
  match w with EmptyString => ws | _ => w :: ws end.
(** The first word of [s] (possibly empty) and the words after it. *)
Fixpoint split_aux (s : string) : string * list string :=
  match s with
  | EmptyString => (EmptyString, [])
  | String c r =>
      let (w, ws) := split_aux r in
      if is_space c then (EmptyString, cons_word w ws) else (String c w, ws)
  end.
(** s.split() (parser.py:169, 184, 216, 289, 357). *)
Definition split_ws (s : string) : list string := let (w, ws) := split_aux s in cons_word w ws.

(** [s.split(sep)] for a one-character separator. *)
Fixpoint split_on (sep : ascii) (s : string) : list string :=
  match s with
  | EmptyString => [EmptyString]
  | String c r =>
      if Ascii.eqb c sep then EmptyString :: split_on sep r
      else match split_on sep r with
           | w :: ws => String c w :: ws
           | [] => [String c EmptyString]
           end
  end.

(** [s.startswith(p)] *)
Fixpoint startswith (p s : string) : bool :=
  match p, s with
  | EmptyString, _ => true
  | String a p', String b s' => Ascii.eqb a b && startswith p' s'
  | _, _ => false
  end.
(** [s.endswith(p)] *)
Fixpoint endswith (p s : string) : bool :=
  String.eqb p s || match s with EmptyString => false | String _ r => endswith p r end.

(** [s[:n]], [s[n:]] *)
Fixpoint take (n : nat) (s : string) : string :=
  match n, s with
  | O, _ | _, EmptyString => EmptyString
  | S k, String c r => String c (take k r)
  end.
(** s[n:] (parser.py:66, 75, 83, 96, 424). *)
Fixpoint drop (n : nat) (s : string) : string :=
  match n, s with
  | O, _ => s
  | _, EmptyString => EmptyString
  | S k, String _ r => drop k r
  end.
(** [s[:-n]] for n > 0 *)
Definition drop_end (n : nat) (s : string) : string := take (String.length s - n) s.
(** [s[k:-1]] *)
Definition inner (k : nat) (s : string) : string := drop k (drop_end 1 s).

(** [s.count(p)] and [s.replace(p, "")] for a non-empty p: scan for
    non-overlapping occurrences; [skip] characters belong to the previous one. *)
Fixpoint count_from (p : string) (skip : nat) (s : string) : nat :=
  match s with
  | EmptyString => O
  | String _ r =>
      match skip with
      | S k => count_from p k r
      | O => if startswith p s then S (count_from p (pred (String.length p)) r) else count_from p O r
      end
  end.
(** s.count(p), non-overlapping occurrences (parser.py:188-197). *)
Definition count (p s : string) : nat := count_from p O s.
(** Auxiliary of [remove_all]; [skip] characters of an occurrence are still to be dropped. *)
Fixpoint remove_from (p : string) (skip : nat) (s : string) : string :=
  match s with
  | EmptyString => EmptyString
  | String c r =>
      match skip with
      | S k => remove_from p k r
      | O => if startswith p s then remove_from p (pred (String.length p)) r else String c (remove_from p O r)
      end
  end.
(** s.replace(p, "") (parser.py:191-192). *)
Definition remove_all (p s : string) : string := remove_from p O s.

(** [s.replace(a, b)] for single characters. *)
Fixpoint replace_char (a b : ascii) (s : string) : string :=
  match s with
  | EmptyString => EmptyString
  | String c r => String (if Ascii.eqb c a then b else c) (replace_char a b r)
  end.

(** [s.lower()] *)
Definition lower_char (c : ascii) : ascii :=
  if in_range 65 90 c || (in_range 192 222 c && negb (code c =? 215))
  then ascii_of_N (N_of_ascii c + 32) else c.
(** s.lower() (parser.py:107); Latin-1 characters only. *)
Fixpoint lower (s : string) : string :=
  match s with EmptyString => EmptyString | String c r => String (lower_char c) (lower r) end.

(** [sep.join(l)] *)
Fixpoint join (sep : string) (l : list string) : string :=
  match l with
  | [] => EmptyString
  | [x] => x
  | x :: r => x ++ sep ++ join sep r
  end.

(** Iterating over a string (parser.py:219, 453). *)
Fixpoint chars (s : string) : list string :=
  match s with EmptyString => [] | String c r => String c EmptyString :: chars r end.

(** ** int(s), int(s, 16) *)
(** Value of a digit in any base up to 36 (letters in either case). *)
Definition digit (c : ascii) : option Z :=
  if in_range 48 57 c then Some (code c - 48)
  else if in_range 97 122 c then Some (code c - 87)
  else if in_range 65 90 c then Some (code c - 55)
  else None.
(** The value of a digit in a base. *)
Definition digit_in (base : Z) (c : ascii) : option Z :=
  match digit c with Some v => if v <? base then Some v else None | None => None end.

(** digits with single underscores between them; [prev]: the previous
    character was a digit. *)
Fixpoint read_digits (base : Z) (s : string) (acc : Z) (prev : bool) : option Z :=
  match s with
  | EmptyString => if prev then Some acc else None
  | String c r =>
      if Ascii.eqb c "_"%char then (if prev then read_digits base r acc false else None)
      else match digit_in base c with
           | Some v => read_digits base r (acc * base + v) true
           | None => None
           end
  end.
(** int() and float() ignore surrounding blanks. *)
Definition num_strip (s : string) : string := rstrip_by is_num_space (lstrip_by is_num_space s).
(** An optional sign. *)
Definition read_sign (s : string) : bool * string :=
  match s with
  | String c r => if Ascii.eqb c "-"%char then (true, r) else if Ascii.eqb c "+"%char then (false, r) else (false, s)
  | EmptyString => (false, s)
  end.
(** the optional 0x of base 16, followed by an optional underscore *)
Definition skip_0x (s : string) : string :=
  if startswith "0x" s || startswith "0X" s then
    let r := drop 2 s in if startswith "_" r then drop 1 r else r
  else s.
(** int(s, base) for bases 10 and 16 (parser.py:69, 126-148). *)
Definition py_int_base (base : Z) (s : string) : res Z :=
  let (neg, t) := read_sign (num_strip s) in
  let t := if (base =? 16) then skip_0x t else t in
  match read_digits base t 0 false with
  | Some z => Ok (if neg then - z else z)
  | None => Err ValueError
  end.
(** Python [int(s)] *)
Definition py_int (s : string) : res Z := py_int_base 10 s.
(** Python [int(s, 16)] *)
Definition py_int16 (s : string) : res Z := py_int_base 16 s.

(** ** float(s) *)
Definition is_digit (c : ascii) : bool := in_range 48 57 c.
(** underscores must stand between digits; they are removed.  [prev]: the
    previous character was a digit. *)
Fixpoint drop_underscores (s : string) (prev : bool) : option string :=
  match s with
  | EmptyString => Some EmptyString
  | String c r =>
      if Ascii.eqb c "_"%char then
        if prev && match r with String d _ => is_digit d | _ => false end then drop_underscores r false else None
      else match drop_underscores r (is_digit c) with Some t => Some (String c t) | None => None end
  end.
(** the longest run of decimal digits: its value, its length, the rest *)
Fixpoint span_digits (s : string) (acc : Z) (n : Z) : Z * Z * string :=
  match s with
  | String c r => if is_digit c then span_digits r (acc * 10 + (code c - 48)) (n + 1) else (acc, n, s)
  | EmptyString => (acc, n, s)
  end.
(** 10^e as a rational *)
Definition qpow10 (e : Z) : Q :=
  if (0 <=? e) then inject_Z (10 ^ e) else (1 # Z.to_pos (10 ^ (- e))).
(** digits [. digits] [e [sign] digits], at least one digit before the e *)
Definition read_decimal (s : string) : option Q :=
  let '(ip, ni, r) := span_digits s 0 0 in
  let '(m, nf, r) :=
    match r with
    | String c r' => if Ascii.eqb c "."%char then
        let '(m, n, r'') := span_digits r' ip 0 in (m, n, r'') else (ip, 0, r)
    | EmptyString => (ip, 0, r)
    end in
  if (ni + nf =? 0) then None
  else
    match r with
    | EmptyString => Some (inject_Z m * qpow10 (- nf))%Q
    | String c r' =>
        if Ascii.eqb c "e"%char || Ascii.eqb c "E"%char then
          let (neg, t) := read_sign r' in
          let '(e, ne, t') := span_digits t 0 0 in
          if (ne =? 0) || negb (is_empty t') then None
          else Some (inject_Z m * qpow10 ((if neg then - e else e) - nf))%Q
        else None
    end.
(** Python [float(s)] *)
Definition py_float (s : string) : res xq :=
  match drop_underscores (num_strip s) false with
  | None => Err ValueError
  | Some t =>
      let (neg, u) := read_sign t in
      let l := lower u in
      if String.eqb l "inf" || String.eqb l "infinity" then Ok (Inf neg)
      else if String.eqb l "nan" then Ok Nan
      else match read_decimal u with
           | Some q => Ok (b64 (if neg then - q else q)%Q)
           | None => Err ValueError
           end
  end.

(** ** str(int) *)
Definition digit_char (d : Z) : ascii := ascii_of_N (Z.to_N (48 + d)).
(** decimal digits of a non-negative number, at most [fuel] of them *)
Fixpoint show_pos (fuel : nat) (z : Z) (acc : string) : string :=
  match fuel with
  | O => acc
  | S k =>
      let acc' := String (digit_char (z mod 10)) acc in
      if z <? 10 then acc' else show_pos k (z / 10) acc'
  end.
(** str(z) for z >= 0. *)
Definition show_nonneg (z : Z) : string := show_pos (S (Z.to_nat (Z.log2 z))) z EmptyString.
(** str(z) (units.py:38). *)
Definition show_Z (z : Z) : string := if z <? 0 then String "-"%char (show_nonneg (- z)) else show_nonneg z.

(** ** repr(str) and ast.literal_eval *)
Definition printable (c : ascii) : bool :=
  in_range 32 126 c || (in_range 161 255 c && negb (code c =? 173)).
(** A hexadecimal digit, lower case, as repr() writes it. *)
Definition hex_char (d : Z) : ascii := if d <? 10 then digit_char d else ascii_of_N (Z.to_N (87 + d)).
(** c in s. *)
Definition contains (c : ascii) (s : string) : bool := existsb (Ascii.eqb c) (list_ascii_of_string s).
(** The character '. *)
Definition squote : ascii := ascii_of_N 39.
(** The double quote character. *)
Definition dquote : ascii := ascii_of_N 34.
(** The character \. *)
Definition backslash : ascii := ascii_of_N 92.
(** one character inside a literal quoted by [q] *)
Definition repr_char (q c : ascii) : string :=
  if Ascii.eqb c q || Ascii.eqb c backslash then String backslash (String c EmptyString)
  else if (code c =? 9) then String backslash "t"
  else if (code c =? 10) then String backslash "n"
  else if (code c =? 13) then String backslash "r"
  else if printable c then String c EmptyString
  else String backslash (String "x" (String (hex_char (code c / 16)) (String (hex_char (code c mod 16)) EmptyString))).
(** The characters of a string as repr() writes them between the quotes (wrappers.py:62-63, parser.py:219). *)
Fixpoint repr_body (q : ascii) (s : string) : string :=
  match s with EmptyString => EmptyString | String c r => repr_char q c ++ repr_body q r end.
(** Python [repr(s)]: single quotes unless s has single but no double quotes *)
Definition repr_str (s : string) : string :=
  let q := if contains squote s && negb (contains dquote s) then dquote else squote in
  String q (repr_body q s ++ String q EmptyString).

(** Result of [ast.literal_eval] on a token (parser.py:232-233): a string; a
    number, True, False or None, which have no len(); a failure that the caller
    turns into ValueError; or something the model does not decide (containers,
    bytes, prefixes, concatenation, expressions, \U and \N escapes, and the
    escapes for characters beyond Latin-1). *)
Inductive literal := LitStr (s : string) | LitNoLen | LitBad | LitUnknown.
(** An octal digit. *)
Definition is_octal (c : ascii) : bool := in_range 48 55 c.
(** The second and third quotation mark of a literal in triple quotes. *)
Definition triple (q : ascii) (s : string) : bool :=
  match s with String a (String b _) => Ascii.eqb a q && Ascii.eqb b q | _ => false end.
(** The rest of a token after the opening quote [q], as literal_eval
    reads it (parser.py:232-233): escapes as in Python's lexical analysis,
    octal ones of one to three digits.  Literals side by side are one text, and
    a comment ends the token; a string that is an operand of anything is
    malformed.  Simplification: what lies beyond Latin-1, triple quotes, a
    comma (a tuple) and the letters that may be the prefix of a further literal
    are not decided. *)
Fixpoint read_literal (q : ascii) (s : string) : literal :=
  let out c l := match l with LitStr t => LitStr (String c t) | x => x end in
  match s with
  | EmptyString => LitBad
  | String c r =>
      if Ascii.eqb c q then
        match r with
        | EmptyString => LitStr EmptyString
        | String x r' =>
            if Ascii.eqb x squote || Ascii.eqb x dquote then if triple x r' then LitUnknown else read_literal x r'
            else if Ascii.eqb x "#" then LitStr EmptyString
            else if existsb (Ascii.eqb x) (list_ascii_of_string ",brfutBRFUT") then LitUnknown
            else LitBad
        end
      else if Ascii.eqb c backslash then
        match r with
        | EmptyString => LitBad
        | String d r' =>
            if Ascii.eqb d backslash || Ascii.eqb d squote || Ascii.eqb d dquote then out d (read_literal q r')
            else if Ascii.eqb d "n" then out (ascii_of_N 10) (read_literal q r')
            else if Ascii.eqb d "t" then out (ascii_of_N 9) (read_literal q r')
            else if Ascii.eqb d "r" then out (ascii_of_N 13) (read_literal q r')
            else if Ascii.eqb d "a" then out (ascii_of_N 7) (read_literal q r')
            else if Ascii.eqb d "b" then out (ascii_of_N 8) (read_literal q r')
            else if Ascii.eqb d "f" then out (ascii_of_N 12) (read_literal q r')
            else if Ascii.eqb d "v" then out (ascii_of_N 11) (read_literal q r')
            else if Ascii.eqb d "x" then
              match r' with
              | String h1 (String h2 r'') =>
                  match digit_in 16 h1, digit_in 16 h2 with
                  | Some a, Some b => out (ascii_of_N (Z.to_N (a * 16 + b))) (read_literal q r'')
                  | _, _ => LitBad
                  end
              | _ => LitBad
              end
            else if Ascii.eqb d "u" then
              match r' with
              | String h1 (String h2 (String h3 (String h4 r''))) =>
                  match digit_in 16 h1, digit_in 16 h2, digit_in 16 h3, digit_in 16 h4 with
                  | Some a, Some b, Some e, Some f =>
                      if (a =? 0) && (b =? 0) then out (ascii_of_N (Z.to_N (e * 16 + f))) (read_literal q r'') else LitUnknown
                  | _, _, _, _ => LitBad
                  end
              | _ => LitBad
              end
            else if is_octal d then
              match r' with
              | String e r2 =>
                  if is_octal e then
                    match r2 with
                    | String f r3 =>
                        if is_octal f then
                          if code d <=? 51 then out (ascii_of_N (Z.to_N ((code d - 48) * 64 + (code e - 48) * 8 + (code f - 48)))) (read_literal q r3)
                          else LitUnknown
                        else out (ascii_of_N (Z.to_N ((code d - 48) * 8 + (code e - 48)))) (read_literal q r2)
                    | EmptyString => LitBad
                    end
                  else out (ascii_of_N (Z.to_N (code d - 48))) (read_literal q r')
              | EmptyString => LitBad
              end
            else if Ascii.eqb d "U" || Ascii.eqb d "N" || (code d =? 10) || (code d =? 13) then LitUnknown
            else match read_literal q r' with LitStr t => LitStr (String c (String d t)) | x => x end
        end
      else if (code c =? 10) || (code c =? 13) then LitBad
      else out c (read_literal q r)
  end.
(** A character that starts no Python expression: operators and brackets that
    cannot come first, comments, control characters, and the characters of
    Latin-1 that are in no identifier.  Blanks are left out: no token of
    parser.py:216 or 219 starts with one. *)
Definition starts_nothing (c : ascii) : bool :=
  existsb (Ascii.eqb c) (list_ascii_of_string "<>=*/%&|^)]},:;!?$@#`\") || ((code c <? 32) && negb (is_space c)) || (code c =? 127)
  || ((128 <=? code c) && negb ((code c =? 170) || (code c =? 181) || (code c =? 186)
                                || in_range 192 214 c || in_range 216 246 c || in_range 248 255 c)).
(** Every character of a text satisfies f. *)
Definition all_of (f : ascii -> bool) (s : string) : bool := forallb f (list_ascii_of_string s).
(** A character that starts an identifier in ASCII. *)
Definition is_name_start (c : ascii) : bool := in_range 65 90 c || in_range 97 122 c || Ascii.eqb c "_".
(** A text without its sign, if it starts with one. *)
Definition unsigned (s : string) : string :=
  match s with String c r => if Ascii.eqb c "+" || Ascii.eqb c "-" then r else s | _ => s end.
(** ast.literal_eval (parser.py:232-233) of a token without quotes: names are
    malformed except the three constants; a decimal integer must not start
    with 0 unless it is zero; decimal fractions have digits on at least one
    side of the point.  Simplification: no limit on the number of digits. *)
Definition read_bare (s : string) : literal :=
  match s with
  | EmptyString => LitBad
  | String c r =>
      if starts_nothing c then LitBad
      else if is_name_start c && all_of (fun d => is_name_start d || is_digit d) r then
        if (s =? "True")%string || (s =? "False")%string || (s =? "None")%string then LitNoLen else LitBad
      else match unsigned s with
      | EmptyString => LitBad
      | String d t as u =>
          if all_of is_digit u then if negb (Ascii.eqb d "0") || all_of (Ascii.eqb "0") t then LitNoLen else LitBad
          else let '(_, n, rest) := span_digits u 0 0 in
               match rest with
               | String p f => if Ascii.eqb p "." && all_of is_digit f && ((0 <? n) || negb (is_empty f)) then LitNoLen else LitUnknown
               | EmptyString => LitUnknown
               end
      end
  end.
(** ast.literal_eval (parser.py:232-233) of a token without blanks. *)
Definition literal_eval (s : string) : literal :=
  if contains zero s then LitBad
  else match s with
  | String c r =>
      if Ascii.eqb c squote || Ascii.eqb c dquote then if triple c r then LitUnknown else read_literal c r else read_bare s
  | EmptyString => LitBad
  end.
