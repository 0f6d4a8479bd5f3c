(** * Specification for C187: what a backslash means in a word of quotes

    The escapes of Python's string literals, as far as they denote characters
    of Latin-1, in terms of the characters of the text only. *)
From Coq Require Import Arith String Ascii List.
Import ListNotations.
Open Scope string_scope.
Open Scope nat_scope.

(** the character with the given number *)
Definition chr (n : nat) : ascii := ascii_of_nat n.
(** the digits 0 to 7 *)
Definition octal (c : ascii) : Prop := In c (list_ascii_of_string "01234567").
Definition octal_digit (c : ascii) : nat := nat_of_ascii c - 48.
(** [hexadecimal c n]: c is the hexadecimal digit n, in either case *)
Definition hexadecimal (c : ascii) (n : nat) : Prop :=
  n < 16 /\ (nth_error (list_ascii_of_string "0123456789abcdef") n = Some c \/ nth_error (list_ascii_of_string "0123456789ABCDEF") n = Some c).
(** a backslash and one character that stand for another character *)
Definition short_escape (d c : ascii) : Prop :=
  In (d, c) [("\", "\"); ("'", "'"); ("""", """"); ("a", chr 7); ("b", chr 8); ("t", chr 9); ("n", chr 10); ("v", chr 11); ("f", chr 12); ("r", chr 13)]%char.
(** characters after which a backslash does not stand for itself *)
Definition meaningful (d : ascii) : Prop := In d (list_ascii_of_string "\'""abtnvfrxuUN01234567") \/ In (nat_of_ascii d) [0; 10; 13].
(** no octal digit comes first *)
Definition no_octal_next (s : string) : Prop := match s with EmptyString => True | String c _ => ~ octal c end.
(** [escaped q s t]: between two quotation marks q, the characters s denote the text t *)
Inductive escaped (q : ascii) : string -> string -> Prop :=
| esc_end : escaped q "" ""
| esc_itself c s t : c <> q -> c <> "\"%char -> ~ In (nat_of_ascii c) [0; 10; 13] -> escaped q s t -> escaped q (String c s) (String c t)
| esc_short d c s t : short_escape d c -> escaped q s t -> escaped q (String "\" (String d s)) (String c t)
| esc_octal1 a s t : octal a -> no_octal_next s -> escaped q s t ->
    escaped q (String "\" (String a s)) (String (chr (octal_digit a)) t)
| esc_octal2 a b s t : octal a -> octal b -> no_octal_next s -> escaped q s t ->
    escaped q (String "\" (String a (String b s))) (String (chr (8 * octal_digit a + octal_digit b)) t)
| esc_octal3 a b c s t : octal a -> octal b -> octal c -> octal_digit a < 4 -> escaped q s t ->
    escaped q (String "\" (String a (String b (String c s)))) (String (chr (64 * octal_digit a + 8 * octal_digit b + octal_digit c)) t)
| esc_hex h1 h2 m n s t : hexadecimal h1 m -> hexadecimal h2 n -> escaped q s t ->
    escaped q (String "\" (String "x" (String h1 (String h2 s)))) (String (chr (16 * m + n)) t)
| esc_unicode h1 h2 m n s t : hexadecimal h1 m -> hexadecimal h2 n -> escaped q s t ->
    escaped q (String "\" (String "u" (String "0" (String "0" (String h1 (String h2 s)))))) (String (chr (16 * m + n)) t)
| esc_kept d s t : ~ meaningful d -> escaped q s t -> escaped q (String "\" (String d s)) (String "\" (String d t)).
(** [literal_of w t]: the word w is a string literal in single or double
    quotation marks that denotes the text t *)
Definition literal_of (w t : string) : Prop :=
  exists q s, (q = "'"%char \/ q = """"%char) /\ escaped q s t /\ w = String q (s ++ String q "").
(** [broken_escape w]: somewhere after the opening quotation mark stand \x
    without two, or \u without four, hexadecimal digits *)
Definition starts_with_hex (n : nat) (r : string) : Prop :=
  exists h r', r = h ++ r' /\ String.length h = n /\ Forall (fun c => exists v, hexadecimal c v) (list_ascii_of_string h).
Definition broken_escape (w : string) : Prop :=
  exists q s t d n r, (q = "'"%char \/ q = """"%char) /\ escaped q s t /\ (d = "x"%char /\ n = 2 \/ d = "u"%char /\ n = 4) /\ ~ starts_with_hex n r
    /\ w = String q (s ++ String "\" (String d r)).
