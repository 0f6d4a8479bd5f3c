(** * What C163 says: which values every property accepts, written out as a grammar *)
From Coq Require Import ZArith QArith Qcanon Bool String Ascii List.
From Verif Require Import PyNum Units Float64 PyStr StrFacts Colors ColorSpec Values Decl ParseSpec ParserSpec ParserProps ReadSpec AcceptSpec AnyColorSpec.
Import ListNotations.
Open Scope string_scope.

(** ** Lengths and whole numbers *)
(** A text that denotes a length: a number as float() reads it, alone (pixels)
    or followed by a unit. *)
Definition len_text (s : string) (u : unit_) : Prop :=
  exists d x, float_text d x /\ ((s = d /\ u = mkU KPx (PF x)) \/ exists t k, In (t, k) css_units /\ s = d ++ t /\ u = mkU k (PF x)).
Inductive length_of : pyval -> unit_ -> Prop :=
| len_object u : ~ is_angle u -> length_of (VUnit u) u
| len_int z : length_of (VInt z) (mkU KPx (PI z))
| len_float x : length_of (VFloat x) (mkU KPx (PF x))
| len_string s u : len_text s u -> length_of (VStr s) u.
(** Floats are cut towards zero. *)
Inductive whole_of : pyval -> Z -> Prop :=
| whole_int z : whole_of (VInt z) z
| whole_down q z : (Z2Qc z <= q)%Qc -> (q < Z2Qc (z + 1))%Qc -> (0 <= q)%Qc -> whole_of (VFloat (Fin q)) z
| whole_up q z : (q <= Z2Qc z)%Qc -> (Z2Qc (z - 1) < q)%Qc -> (q <= 0)%Qc -> whole_of (VFloat (Fin q)) z
| whole_string s z : int_text s z -> whole_of (VStr s) z.

(** ** Colours: an object, or a text (C162) *)
Inductive hue_of (n : nat) : pyval -> pyval -> nat -> Prop :=
| hue_object o c : hue_of n (VColor o c) (VColor o c) n
| hue_string s v m : color_of n s v m -> hue_of n (VStr s) v m.

(** ** Border spacings: one or two lengths *)
Inductive spacing_items : pyval -> list pyval -> Prop :=
| spacing_words s ts : Forall word ts -> spaced ts s -> spacing_items (VStr s) (map VStr ts)
| spacing_int z : spacing_items (VInt z) [VInt z]
| spacing_float x : spacing_items (VFloat x) [VFloat x]
| spacing_members v l : members v l -> spacing_items v l.
Inductive spacing_of (n : nat) : pyval -> pyval -> Prop :=
| spacing_one v h u : spacing_items v [h] -> length_of h u -> spacing_of n v (VSpacing (OId n) u None)
| spacing_two v h k a b : spacing_items v [h; k] -> length_of h a -> length_of k b -> spacing_of n v (VSpacing (OId n) a (Some b)).

(** ** Clip rectangles: a text rect( four lengths ) *)
(** t with blanks around. *)
Definition around (t x : string) : Prop := trim_ends t /\ exists p q, spaces p /\ spaces q /\ x = p ++ t ++ q.
Definition piece (x : string) (u : unit_) : Prop := exists t, around t x /\ len_text t u.
(** Between the parentheses: separated by commas, or by single spaces. *)
Inductive rect_inside : string -> unit_ -> unit_ -> unit_ -> unit_ -> Prop :=
| inside_commas ta tb tc td a b c d : piece ta a -> piece tb b -> piece tc c -> piece td d ->
    rect_inside (String.concat "," [ta; tb; tc; td]) a b c d
| inside_spaces p ta tb tc td q a b c d : spaces p -> spaces q -> word ta -> word tb -> word tc -> word td ->
    len_text ta a -> len_text tb b -> len_text tc c -> len_text td d ->
    rect_inside (p ++ String.concat " " [ta; tb; tc; td] ++ q) a b c d.
(** Runs of blanks count as one space. *)
Inductive rect_of : pyval -> pyval -> Prop :=
| rect_string s ts B a b c d : Forall word ts -> spaced ts s -> String.concat " " ts = "rect(" ++ B ++ ")" ->
    rect_inside B a b c d -> rect_of (VStr s) (VRect a b c d).

(** ** Cursors: any number of URLs, then possibly a keyword *)
(** Between the parentheses of url(...): quotes of either kind, which are
    dropped, or none; a lone quote is both the opening and the closing one. *)
Definition url_inside (body x : string) : Prop :=
  exists m, around m body /\
    (m = q1 ++ x ++ q1 \/ m = q2 ++ x ++ q2 \/ ((m = q1 \/ m = q2) /\ x = "") \/ (m = x /\ bare x)).
Definition url_text (s x : string) : Prop := exists body, url_around s body /\ url_inside body x.
(** Every URL is a new object. *)
Inductive cursor_items_of (n : nat) : list pyval -> list pyval -> nat -> Prop :=
| items_end : cursor_items_of n [] [] n
| items_keyword k : In k cursor_keywords -> cursor_items_of n [VStr k] [VStr k] n
| items_url s x l r m : url_text s x -> cursor_items_of (S n) l r m -> cursor_items_of n (VStr s :: l) (VUri (OId n) x :: r) m.
Inductive cursor_parts : pyval -> list pyval -> Prop :=
| parts_text ts ps : ts <> [] -> Forall2 (fun t p => no_comma p = true /\ around t p) ts ps -> cursor_parts (VStr (String.concat "," ps)) (map VStr ts)
| parts_members v l : members v l -> cursor_parts v l.
Inductive cursor_of (n : nat) : pyval -> pyval -> nat -> Prop :=
| cursor_is v l r m : cursor_parts v l -> cursor_items_of n l r m -> cursor_of n v (VCursor r) m.

(** ** Every property *)
(** [written p n v w m]: p accepts v and takes it as w; n and m are the next
    identities before and after.  The property quotes is left out (C156). *)
Inductive written (p : longhand) (n : nat) : pyval -> pyval -> nat -> Prop :=
| w_length v u : kind_of p = Some LengthK -> length_of v u -> written p n v (VUnit u) n
| w_whole v z : kind_of p = Some IntegerK -> whole_of v z -> written p n v (VInt z) n
| w_color v w m : kind_of p = Some ColorK -> hue_of n v w m -> written p n v w m
| w_spacing v w : kind_of p = Some SpacingK -> spacing_of n v w -> written p n v w (S n)
| w_rect v w : kind_of p = Some RectK -> rect_of v w -> written p n v w n
| w_cursor v w m : kind_of p = Some CursorK -> cursor_of n v w m -> written p n v w m
| w_keyword s : In s (keywords p) -> s <> "none" -> written p n (VStr s) (VStr s) n
| w_none_word : In "none" (keywords p) -> written p n (VStr "none") VNone n
| w_none : In "none" (keywords p) -> written p n VNone VNone n
| w_default : p = L_color \/ p = L_background_color -> written p n VDefault VDefault n.
