(** * Specifications for the parsers of shapes, spacings, quotes, URLs and cursors *)
From Coq Require Import ZArith Bool String Ascii List.
From Verif Require Import PyNum Units PyStr StrFacts Values Parser.
Import ListNotations.
Open Scope string_scope.
Open Scope Z_scope.

(** The blank characters of Python text (code points below 256). *)
Definition ws (c : ascii) : bool :=
  existsb (Ascii.eqb c) (map ascii_of_nat [9; 10; 11; 12; 13; 28; 29; 30; 31; 32; 133; 160]%nat).
Definition spaces (s : string) : Prop := all_chars ws s = true.
(** no blank at either end *)
Definition first_char (s : string) : option ascii := match s with EmptyString => None | String c _ => Some c end.
Fixpoint last_char (s : string) : option ascii :=
  match s with EmptyString => None | String c EmptyString => Some c | String _ r => last_char r end.
Definition trim_ends (s : string) : Prop :=
  (forall c, first_char s = Some c -> ws c = false) /\ (forall c, last_char s = Some c -> ws c = false).
(** A Python sequence (list, tuple or Cursor) with the given members. *)
Definition members (v : pyval) (l : list pyval) : Prop := v = VTuple l \/ v = VList l \/ v = VCursor l.
(** A text without blanks, commas and parentheses. *)
Definition plain_char (c : ascii) : bool :=
  negb (ws c) && negb (Ascii.eqb c ",") && negb (Ascii.eqb c "(") && negb (Ascii.eqb c ")").
Definition plain (s : string) : Prop := s <> "" /\ all_chars plain_char s = true.
Definition length_text (t : string) (u : unit_) : Prop := plain t /\ units (VStr t) = Ok u.

(** ** URLs *)
Definition q1 : string := "'".
Definition q2 : string := String (ascii_of_nat 34) "".
(** starts and ends with the quote (possibly the same character) *)
Definition quoted_by (q s : string) : Prop := (exists r, s = q ++ r) /\ (exists r, s = r ++ q).
Definition bare (x : string) : Prop := trim_ends x /\ ~ quoted_by q1 x /\ ~ quoted_by q2 x.
(** what may stand between the parentheses to denote the URL x *)
Definition url_body (body x : string) : Prop :=
  exists p q, spaces p /\ spaces q
    /\ (body = p ++ (q1 ++ x ++ q1) ++ q \/ body = p ++ (q2 ++ x ++ q2) ++ q \/ (body = p ++ x ++ q /\ bare x)).
Definition url_around (s body : string) : Prop :=
  exists p q, spaces p /\ spaces q /\ s = p ++ ("url(" ++ body ++ ")") ++ q.
Definition url_shaped (s : string) : Prop := exists body, url_around s body.

(** ** Cursors (CSS 2.1, section 18.1) *)
Definition cursor_keywords : list string :=
  ["auto"; "crosshair"; "default"; "pointer"; "move"; "e-resize"; "ne-resize"; "nw-resize"; "n-resize";
   "se-resize"; "sw-resize"; "s-resize"; "w-resize"; "text"; "wait"; "help"; "progress"].
Definition url_value (v : pyval) : Prop := exists s, v = VStr s /\ url_shaped s.
Definition keyword_value (v : pyval) : Prop := exists k, v = VStr k /\ In k cursor_keywords.
Definition cursor_list (l : list pyval) : Prop :=
  exists us ks, l = (us ++ ks)%list /\ Forall url_value us /\ (ks = [] \/ exists k, ks = [k] /\ keyword_value k).
