(** * Specifications for the text of values (C113-C117) *)
From Coq Require Import ZArith QArith Qcanon Bool String Ascii List Permutation.
From Verif Require Import PyNum Units Float64 PyStr StrFacts Colors Values Parser Choices Shorthand Decl DeclSpec ParseSpec ParserSpec ColorSpec Wrappers Text.
Import ListNotations.
Open Scope string_scope.
Open Scope Z_scope.

(** Python's repr of this float is a plain text that float() reads as the same
    float (documented for every finite float). *)
Definition shown_float (show : xq -> string) (x : xq) : Prop := plain (show x) /\ py_float (show x) = Ok x.
(** A finite magnitude that survives printing: a whole number that a float can
    hold, or another float whose repr is as documented. *)
Definition shown_magnitude (show : xq -> string) (m : pynum) : Prop :=
  exists q, pval m = Fin q
    /\ ((exists z, q = Z2Qc z /\ whole_double z) \/ ((forall z, q <> Z2Qc z) /\ shown_float show (Fin q))).
(** Likewise for a length in one of the units of the library. *)
Definition shown_length (show : xq -> string) (u : unit_) : Prop :=
  (exists t, In (t, u_kind u) css_units) /\ shown_magnitude show (u_val u).
Definition shown_alpha (show : xq -> string) (a : pynum) : Prop :=
  match a with PI z => whole_double z | PF x => x <> Nan /\ shown_float show x end.
Definition blank_less (s : string) : Prop := forall c, In c (list_ascii_of_string s) -> c <> " "%char.

(** [readable show v]: the values whose text denotes them: keywords, integers,
    lengths, spacings and rectangles of such lengths, rgb colours with integer
    components, quotes without blanks, cursors whose URLs have no comma.  Not
    None, not the default colour, not an hsl colour. *)
Inductive readable (show : xq -> string) : pyval -> Prop :=
| readable_text s : readable show (VStr s)
| readable_int z : readable show (VInt z)
| readable_length u : shown_length show u -> readable show (VUnit u)
| readable_color o r g b a : shown_alpha show a -> readable show (VColor o (Rgb (PI r) (PI g) (PI b) a))
| readable_spacing o h w : shown_length show h -> (forall x, w = Some x -> shown_length show x) -> readable show (VSpacing o h w)
| readable_rect t r l b : shown_length show t -> shown_length show r -> shown_length show l -> shown_length show b ->
    readable show (VRect t r l b)
| readable_quotes ps : Forall (fun p => blank_less (fst p) /\ blank_less (snd p)) ps -> readable show (VQuotes ps)
| readable_cursor l : l <> [] -> (forall o x, In (VUri o x) l -> no_comma x = true) -> readable show (VCursor l).

(** [same_look v w]: the values have the same contents.  (Colours, border
    spacings and URLs are compared by identity in Python, so reading back gives
    an object that is not equal to the original.) *)
Definition same_magnitude (a b : pynum) : Prop := same_number (pval a) (pval b).
Definition same_measure (u v : unit_) : Prop := u_kind u = u_kind v /\ same_magnitude (u_val u) (u_val v).
Definition same_color (c d : color_t) : Prop :=
  match c, d with
  | Rgb r g b a, Rgb r' g' b' a' => same_magnitude r r' /\ same_magnitude g g' /\ same_magnitude b b' /\ same_magnitude a a'
  | Hsl h s l a, Hsl h' s' l' a' => same_magnitude h h' /\ same_magnitude s s' /\ same_magnitude l l' /\ same_magnitude a a'
  | _, _ => False
  end.
Inductive same_item : pyval -> pyval -> Prop :=
| same_word s : same_item (VStr s) (VStr s)
| same_url o o' x : same_item (VUri o x) (VUri o' x).
Inductive same_look : pyval -> pyval -> Prop :=
| look_none : same_look VNone VNone
| look_default : same_look VDefault VDefault
| look_text s : same_look (VStr s) (VStr s)
| look_int z : same_look (VInt z) (VInt z)
| look_length u v : same_measure u v -> same_look (VUnit u) (VUnit v)
| look_color o o' c c' : same_color c c' -> same_look (VColor o c) (VColor o' c')
| look_spacing o o' h h' : same_measure h h' -> same_look (VSpacing o h None) (VSpacing o' h' None)
| look_spacing2 o o' h h' w w' : same_measure h h' -> same_measure w w' -> same_look (VSpacing o h (Some w)) (VSpacing o' h' (Some w'))
| look_rect t r l b t' r' l' b' : same_measure t t' -> same_measure r r' -> same_measure l l' -> same_measure b b' ->
    same_look (VRect t r l b) (VRect t' r' l' b')
| look_quotes ps : same_look (VQuotes ps) (VQuotes ps)
| look_cursor l m : Forall2 same_item l m -> same_look (VCursor l) (VCursor m).

(** [printed_item show a b]: b is the item a with the text of its value for its
    value, under the same name or under the name with dashes. *)
Definition printed_item (show : xq -> string) (a b : string * pyval) : Prop :=
  (fst b = fst a \/ fst b = with_dashes (fst a)) /\ exists t, value_str show (snd a) = Ok t /\ snd b = VStr t.
(** Every stored value of the declaration has a text that denotes it. *)
Definition all_readable (show : xq -> string) (c : css) : Prop := forall p v, c_store c p = Some v -> readable show v.
(** The text of a number with a decimal point or an exponent, as Python prints
    every finite float. *)
Definition point_text (t : string) : Prop :=
  plain t /\ exists c, In c (list_ascii_of_string t) /\ (c = "."%char \/ c = "e"%char).

(** One declaration "name: text". *)
Definition declaration_text (x : string * pyval) : string :=
  fst x ++ ": " ++ match snd x with VStr t => t | _ => "" end.
(** [rebuilt_from show ho a b]: b is an empty declaration (with a node that has a
    layout or without node) that was then updated with the texts of the values stored in a, in any
    order. *)
Definition rebuilt_from (show : xq -> string) (ho : hash_order) (a b : css) : Prop :=
  exists k l0 l node n n', reachable ho a k /\ all_readable show a
    /\ Permutation (items ho a) l0 /\ Forall2 (printed_item show) l0 l
    /\ node <> Some None /\ (first_free <= n)%nat /\ update ho l (mkCss (fun _ => None) node) n = (b, n', Ok tt).
