(** * Specification for C156: texts given to quotes, word by word

    Which single words are Python string literals without escapes, which are
    literals without a length, and which are no literals at all, in terms of
    their characters only. *)
From Coq Require Import Arith String Ascii List.
Import ListNotations.
Open Scope string_scope.
Open Scope nat_scope.

Definition letter (c : ascii) : Prop := let n := nat_of_ascii c in 65 <= n <= 90 \/ 97 <= n <= 122 \/ n = 95.
Definition digit (c : ascii) : Prop := 48 <= nat_of_ascii c <= 57.
Definition each (P : ascii -> Prop) (s : string) : Prop := Forall P (list_ascii_of_string s).
Definition quote_mark (q : ascii) : Prop := q = "'"%char \/ q = """"%char.
(** neither the quotation mark nor a backslash nor NUL *)
Definition ordinary (q c : ascii) : Prop := c <> q /\ c <> "\"%char /\ nat_of_ascii c <> 0.
(** [quoted w s]: w is s in single or double quotation marks *)
Definition quoted (w s : string) : Prop := exists q, quote_mark q /\ each (ordinary q) s /\ w = String q (s ++ String q "").
(** an identifier *)
Definition name (w : string) : Prop := exists c r, w = String c r /\ letter c /\ each (fun d => letter d \/ digit d) r.
Definition sign (s : string) : Prop := s = "" \/ s = "+" \/ s = "-".
(** literals that have no length: constants, decimal integers, decimals *)
Inductive no_length : string -> Prop :=
| nl_constant w : In w ["True"; "False"; "None"] -> no_length w
| nl_integer s d r : sign s -> digit d -> each digit r -> d <> "0"%char \/ each (eq "0"%char) r -> no_length (s ++ String d r)
| nl_decimal s a b : sign s -> each digit a -> each digit b -> a <> "" \/ b <> "" -> no_length (s ++ a ++ "." ++ b).
(** no literals: other identifiers; texts starting with an operator, a closing
    bracket or a guillemet; a quotation mark that is never closed; integers
    with leading zeros *)
Inductive no_literal : string -> Prop :=
| nx_name w : name w -> ~ In w ["True"; "False"; "None"] -> no_literal w
| nx_start c r : In c (list_ascii_of_string "<>=*/%&|^)]},:;!?$@#`\") \/ In (nat_of_ascii c) [171; 187] -> no_literal (String c r)
| nx_open q r : quote_mark q -> each (ordinary q) r -> no_literal (String q r)
| nx_zeros s r : sign s -> each digit r -> ~ each (eq "0"%char) r -> no_literal (s ++ String "0" r).
