(** * Specifications for the colour properties *)
From Coq Require Import ZArith QArith Qcanon Qround Bool String Ascii List.
From Verif Require Import PyNum Float64 PyStr StrFacts Colors.
Import ListNotations.
Open Scope string_scope.
Open Scope Z_scope.

(** ** Hexadecimal digits *)
Definition hex_digits : list (ascii * Z) :=
  [("0", 0); ("1", 1); ("2", 2); ("3", 3); ("4", 4); ("5", 5); ("6", 6); ("7", 7); ("8", 8); ("9", 9);
   ("a", 10); ("b", 11); ("c", 12); ("d", 13); ("e", 14); ("f", 15);
   ("A", 10); ("B", 11); ("C", 12); ("D", 13); ("E", 14); ("F", 15)]%char.
Definition hex_value (c : ascii) : option Z :=
  match find (fun p => Ascii.eqb (fst p) c) hex_digits with Some p => Some (snd p) | None => None end.
Definition is_hex (c : ascii) : Prop := hex_value c <> None.
(** The text of the given characters after '#'. *)
Definition hash (l : list ascii) : string := String "#" (string_of_list_ascii l).
(** What int() reads from two characters in base 16: two digits; a sign and a
    digit; a digit with a blank on one side. *)
Definition blank (c : ascii) : bool := existsb (Ascii.eqb c) (map ascii_of_nat [9; 10; 11; 12; 13; 32; 133; 160]%nat).
Definition pair_value (a b : ascii) : option Z :=
  match hex_value a, hex_value b with
  | Some x, Some y => Some (16 * x + y)
  | None, Some y => if Ascii.eqb a "+" || blank a then Some y else if Ascii.eqb a "-" then Some (- y) else None
  | Some x, None => if blank b then Some x else None
  | None, None => None
  end.

(** ** The CSS named colours (CSS Color 4, section 6.1) *)
Definition css_colors : list (string * string) :=
  [("aliceblue", "F0F8FF");
   ("antiquewhite", "FAEBD7");
   ("aqua", "00FFFF");
   ("aquamarine", "7FFFD4");
   ("azure", "F0FFFF");
   ("beige", "F5F5DC");
   ("bisque", "FFE4C4");
   ("black", "000000");
   ("blanchedalmond", "FFEBCD");
   ("blue", "0000FF");
   ("blueviolet", "8A2BE2");
   ("brown", "A52A2A");
   ("burlywood", "DEB887");
   ("cadetblue", "5F9EA0");
   ("chartreuse", "7FFF00");
   ("chocolate", "D2691E");
   ("coral", "FF7F50");
   ("cornflowerblue", "6495ED");
   ("cornsilk", "FFF8DC");
   ("crimson", "DC143C");
   ("cyan", "00FFFF");
   ("darkblue", "00008B");
   ("darkcyan", "008B8B");
   ("darkgoldenrod", "B8860B");
   ("darkgray", "A9A9A9");
   ("darkgreen", "006400");
   ("darkgrey", "A9A9A9");
   ("darkkhaki", "BDB76B");
   ("darkmagenta", "8B008B");
   ("darkolivegreen", "556B2F");
   ("darkorange", "FF8C00");
   ("darkorchid", "9932CC");
   ("darkred", "8B0000");
   ("darksalmon", "E9967A");
   ("darkseagreen", "8FBC8F");
   ("darkslateblue", "483D8B");
   ("darkslategray", "2F4F4F");
   ("darkslategrey", "2F4F4F");
   ("darkturquoise", "00CED1");
   ("darkviolet", "9400D3");
   ("deeppink", "FF1493");
   ("deepskyblue", "00BFFF");
   ("dimgray", "696969");
   ("dimgrey", "696969");
   ("dodgerblue", "1E90FF");
   ("firebrick", "B22222");
   ("floralwhite", "FFFAF0");
   ("forestgreen", "228B22");
   ("fuchsia", "FF00FF");
   ("gainsboro", "DCDCDC");
   ("ghostwhite", "F8F8FF");
   ("gold", "FFD700");
   ("goldenrod", "DAA520");
   ("gray", "808080");
   ("green", "008000");
   ("greenyellow", "ADFF2F");
   ("grey", "808080");
   ("honeydew", "F0FFF0");
   ("hotpink", "FF69B4");
   ("indianred", "CD5C5C");
   ("indigo", "4B0082");
   ("ivory", "FFFFF0");
   ("khaki", "F0E68C");
   ("lavender", "E6E6FA");
   ("lavenderblush", "FFF0F5");
   ("lawngreen", "7CFC00");
   ("lemonchiffon", "FFFACD");
   ("lightblue", "ADD8E6");
   ("lightcoral", "F08080");
   ("lightcyan", "E0FFFF");
   ("lightgoldenrodyellow", "FAFAD2");
   ("lightgray", "D3D3D3");
   ("lightgreen", "90EE90");
   ("lightgrey", "D3D3D3");
   ("lightpink", "FFB6C1");
   ("lightsalmon", "FFA07A");
   ("lightseagreen", "20B2AA");
   ("lightskyblue", "87CEFA");
   ("lightslategray", "778899");
   ("lightslategrey", "778899");
   ("lightsteelblue", "B0C4DE");
   ("lightyellow", "FFFFE0");
   ("lime", "00FF00");
   ("limegreen", "32CD32");
   ("linen", "FAF0E6");
   ("magenta", "FF00FF");
   ("maroon", "800000");
   ("mediumaquamarine", "66CDAA");
   ("mediumblue", "0000CD");
   ("mediumorchid", "BA55D3");
   ("mediumpurple", "9370DB");
   ("mediumseagreen", "3CB371");
   ("mediumslateblue", "7B68EE");
   ("mediumspringgreen", "00FA9A");
   ("mediumturquoise", "48D1CC");
   ("mediumvioletred", "C71585");
   ("midnightblue", "191970");
   ("mintcream", "F5FFFA");
   ("mistyrose", "FFE4E1");
   ("moccasin", "FFE4B5");
   ("navajowhite", "FFDEAD");
   ("navy", "000080");
   ("oldlace", "FDF5E6");
   ("olive", "808000");
   ("olivedrab", "6B8E23");
   ("orange", "FFA500");
   ("orangered", "FF4500");
   ("orchid", "DA70D6");
   ("palegoldenrod", "EEE8AA");
   ("palegreen", "98FB98");
   ("paleturquoise", "AFEEEE");
   ("palevioletred", "DB7093");
   ("papayawhip", "FFEFD5");
   ("peachpuff", "FFDAB9");
   ("peru", "CD853F");
   ("pink", "FFC0CB");
   ("plum", "DDA0DD");
   ("powderblue", "B0E0E6");
   ("purple", "800080");
   ("rebeccapurple", "663399");
   ("red", "FF0000");
   ("rosybrown", "BC8F8F");
   ("royalblue", "4169E1");
   ("saddlebrown", "8B4513");
   ("salmon", "FA8072");
   ("sandybrown", "F4A460");
   ("seagreen", "2E8B57");
   ("seashell", "FFF5EE");
   ("sienna", "A0522D");
   ("silver", "C0C0C0");
   ("skyblue", "87CEEB");
   ("slateblue", "6A5ACD");
   ("slategray", "708090");
   ("slategrey", "708090");
   ("snow", "FFFAFA");
   ("springgreen", "00FF7F");
   ("steelblue", "4682B4");
   ("tan", "D2B48C");
   ("teal", "008080");
   ("thistle", "D8BFD8");
   ("tomato", "FF6347");
   ("turquoise", "40E0D0");
   ("violet", "EE82EE");
   ("wheat", "F5DEB3");
   ("white", "FFFFFF");
   ("whitesmoke", "F5F5F5");
   ("yellow", "FFFF00");
   ("yellowgreen", "9ACD32")].
(** Two texts that differ only in the case of the letters A-Z. *)
Definition same_letter (a b : ascii) : bool :=
  Ascii.eqb a b
  || let x := Z.of_N (N_of_ascii a) in let y := Z.of_N (N_of_ascii b) in
     ((65 <=? x) && (x <=? 90) && (y =? x + 32)) || ((65 <=? y) && (y <=? 90) && (x =? y + 32)).
Fixpoint same_ignoring_case (s t : string) : bool :=
  match s, t with
  | EmptyString, EmptyString => true
  | String a s', String b t' => same_letter a b && same_ignoring_case s' t'
  | _, _ => false
  end.
Definition is_letter (c : ascii) : bool :=
  let x := Z.of_N (N_of_ascii c) in ((65 <=? x) && (x <=? 90)) || ((97 <=? x) && (x <=? 122)).
(** [spells s r g b]: s is the six hexadecimal digits of the components. *)
Definition spells (s : string) (r g b : Z) : Prop :=
  exists c1 c2 c3 c4 c5 c6 x1 x2 x3 x4 x5 x6,
    s = string_of_list_ascii [c1; c2; c3; c4; c5; c6]
    /\ hex_value c1 = Some x1 /\ hex_value c2 = Some x2 /\ hex_value c3 = Some x3
    /\ hex_value c4 = Some x4 /\ hex_value c5 = Some x5 /\ hex_value c6 = Some x6
    /\ r = 16 * x1 + x2 /\ g = 16 * x3 + x4 /\ b = 16 * x5 + x6.

(** ** HSL to RGB: the algorithm of CSS Color 3, section 4.2.4 *)
Definition css_hue (m1 m2 h : Qc) : Qc :=
  let h := if qc_ltb h 0 then (h + 1)%Qc else if qc_ltb 1 h then (h - 1)%Qc else h in
  if qc_ltb (h * Z2Qc 6) 1 then (m1 + (m2 - m1) * h * Z2Qc 6)%Qc
  else if qc_ltb (h * Z2Qc 2) 1 then m2
  else if qc_ltb (h * Z2Qc 3) (Z2Qc 2) then (m1 + (m2 - m1) * (qfrac 2 3 - h) * Z2Qc 6)%Qc
  else m1.
(** hue in degrees; saturation and lightness as fractions *)
Definition css_hsl (hue s l : Qc) : Qc * Qc * Qc :=
  let h := (hue / Z2Qc 360)%Qc in
  let m2 := if qc_leb l (qfrac 1 2) then (l * (s + 1))%Qc else (l + s - l * s)%Qc in
  let m1 := (l * Z2Qc 2 - m2)%Qc in
  (css_hue m1 m2 (h + qfrac 1 3), css_hue m1 m2 h, css_hue m1 m2 (h - qfrac 1 3))%Qc.
(** a fraction as an integer in 0..255, nearest (ties to even) *)
Definition css_byte (x : Qc) : Z := round_half_even (this (x * Z2Qc 255)%Qc).
Definition css_hsl_rgb (hue s l : Qc) : Z * Z * Z :=
  let '(r, g, b) := css_hsl hue s l in (css_byte r, css_byte g, css_byte b).
Definition unit_interval (x : Qc) : Prop := (0 <= x /\ x <= 1)%Qc.

(** ** Functional notation *)
Definition call (name : string) (args : list string) : string := name ++ "(" ++ String.concat "," args ++ ")".
Definition no_comma (s : string) : bool := all_chars (fun c => negb (Ascii.eqb c ",")) s.

(** What the pairs of hexadecimal digits after '#' denote, for any character
    list: three or four single characters, doubled, or three or four pairs. *)
Definition hex_color (l : list ascii) : option (Z * Z * Z * option Z) :=
  let three p q r := match p, q, r with Some x, Some y, Some z => Some (x, y, z, None) | _, _, _ => None end in
  let four p q r s := match p, q, r, s with Some x, Some y, Some z, Some w => Some (x, y, z, Some w) | _, _, _, _ => None end in
  match l with
  | [a; b; c] => three (pair_value a a) (pair_value b b) (pair_value c c)
  | [a; b; c; d] => four (pair_value a a) (pair_value b b) (pair_value c c) (pair_value d d)
  | [a; a'; b; b'; c; c'] => three (pair_value a a') (pair_value b b') (pair_value c c')
  | [a; a'; b; b'; c; c'; d; d'] => four (pair_value a a') (pair_value b b') (pair_value c c') (pair_value d d')
  | _ => None
  end.
(** The colour object with these components; alpha is a fraction of 255,
    rounded to binary64. *)
Definition byte_color (v : Z * Z * Z * option Z) : color_t :=
  let '(r, g, b, a) := v in
  Rgb (PI r) (PI g) (PI b) (match a with Some a => PF (b64 (a # 255)) | None => PF (Fin 1%Qc) end).

(** ** Written numbers *)
(** The number a run of decimal digits denotes. *)
Fixpoint dec_value (acc : Z) (s : string) : Z :=
  match s with
  | EmptyString => acc
  | String c r => dec_value (acc * 10 + (Z.of_N (N_of_ascii c) - 48)) r
  end.
Definition dec_digit (c : ascii) : bool := let x := Z.of_N (N_of_ascii c) in (48 <=? x) && (x <=? 57).
Definition digits (s : string) : Prop := all_chars dec_digit s = true.
(** a whole number: optional sign, decimal digits *)
Definition whole_text (s : string) (z : Z) : Prop :=
  exists ds, ds <> "" /\ digits ds
    /\ (s = ds /\ z = dec_value 0 ds \/ s = "+" ++ ds /\ z = dec_value 0 ds \/ s = "-" ++ ds /\ z = - dec_value 0 ds).
(** a number with a decimal point *)
Definition fraction_text (s : string) (q : Q) : Prop :=
  exists ip fp, digits ip /\ digits fp /\ ip ++ fp <> "" /\ s = ip ++ "." ++ fp
    /\ q = (dec_value 0 (ip ++ fp) # Z.to_pos (10 ^ Z.of_nat (String.length fp)))%Q.
Definition number_text (s : string) (q : Q) : Prop := fraction_text s q \/ exists z, whole_text s z /\ q = inject_Z z.
(** an argument: a text with any blanks around it *)
Definition blanks (s : string) : Prop := all_chars blank s = true.
Definition arg {A} (P : string -> A -> Prop) (t : string) (v : A) : Prop :=
  exists p s q, blanks p /\ blanks q /\ P s v /\ t = p ++ s ++ q.
Definition percent_text (s : string) (z : Z) : Prop := exists t, whole_text t z /\ s = t ++ "%".
(** characters of whole numbers and of numbers *)
Definition int_char (c : ascii) : bool := dec_digit c || blank c || Ascii.eqb c "+" || Ascii.eqb c "-" || Ascii.eqb c "_".
(** letters, digits, '-' and '_' *)
Definition ident_char (c : ascii) : bool := is_letter c || dec_digit c || Ascii.eqb c "-" || Ascii.eqb c "_".
