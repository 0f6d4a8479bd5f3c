(** * What C160 says: the texts rgb(...), rgba(...), hsl(...), hsla(...) *)
From Coq Require Import ZArith QArith Qcanon Bool String Ascii List.
From Verif Require Import PyNum Float64 PyStr StrFacts Colors ColorSpec ParserSpec ReadSpec.
Import ListNotations.
Open Scope string_scope.
Open Scope Z_scope.

(** A percentage: a whole number, any number of percent signs (none is fine
    too), blanks around. *)
Definition percents (s : string) : Prop := all_chars (fun c => Ascii.eqb c "%") s = true.
Definition percent_arg (t : string) (z : Z) : Prop :=
  exists p w k q, spaces p /\ spaces q /\ percents k /\ int_text w z /\ t = p ++ w ++ k ++ q.
(** The float of the whole number, divided by 100; there is none from half a
    unit above the largest float on. *)
Definition hundredth (z : Z) (x : xq) : Prop :=
  exists y, rounded (inject_Z z) (Fin y) /\ rounded (this y / 100)%Q x.
Definition too_large (z : Z) : Prop := exists neg, rounded (inject_Z z) (Inf neg).

Definition full_alpha : pynum := PF (Fin 1%Qc).
(** The colour a name with arguments denotes. *)
Inductive denotes : string -> list string -> color_t -> Prop :=
| denotes_rgb tr tg tb r g b : int_text tr r -> int_text tg g -> int_text tb b ->
    denotes "rgb" [tr; tg; tb] (Rgb (PI r) (PI g) (PI b) full_alpha)
| denotes_rgba tr tg tb ta r g b a : int_text tr r -> int_text tg g -> int_text tb b -> float_text ta a ->
    denotes "rgba" [tr; tg; tb; ta] (Rgb (PI r) (PI g) (PI b) (PF a))
| denotes_hsl th ts tl h s l x y : int_text th h -> percent_arg ts s -> percent_arg tl l -> hundredth s x -> hundredth l y ->
    denotes "hsl" [th; ts; tl] (Hsl (PI h) (PF x) (PF y) full_alpha)
| denotes_hsla th ts tl ta h s l x y a : int_text th h -> percent_arg ts s -> percent_arg tl l -> hundredth s x -> hundredth l y ->
    float_text ta a -> denotes "hsla" [th; ts; tl; ta] (Hsl (PI h) (PF x) (PF y) (PF a)).
(** The first percentage that is not a float is too large; the hue before it is
    a whole number, so that the percentage is reached. *)
Inductive overflows : string -> list string -> Prop :=
| overflows_s name th ts tl rest h s : (name = "hsl" /\ rest = []) \/ (name = "hsla" /\ List.length rest = 1%nat) ->
    int_text th h -> percent_arg ts s -> too_large s -> overflows name (th :: ts :: tl :: rest)
| overflows_l name th ts tl rest h s x l : (name = "hsl" /\ rest = []) \/ (name = "hsla" /\ List.length rest = 1%nat) ->
    int_text th h -> percent_arg ts s -> hundredth s x -> percent_arg tl l -> too_large l -> overflows name (th :: ts :: tl :: rest).
(** The name and the character after it: an 'a' would belong to the name. *)
Definition opened (name : string) (x : ascii) : Prop :=
  In name ["rgba"; "hsla"] \/ (In name ["rgb"; "hsl"] /\ x <> "a"%char).
(** A name, one character, the arguments with commas between, one character. *)
Definition applied (name : string) (x : ascii) (args : list string) (y : ascii) : string :=
  name ++ String x (String.concat "," args ++ String y "").
