(** * Units of length and angle -- /repo/src/colosseum/units.py *)
From Coq Require Import ZArith QArith Qcanon Bool List String.
From Verif Require Import PyNum.
Import ListNotations.
Open Scope Z_scope.

(** units.py:24 *)
Definition LU_PER_PIXEL : Z := 64.

(** units.py:179-182: the scale functions of the viewport units. *)
Inductive vpscale := ScaleVh | ScaleVmax | ScaleVmin | ScaleVw.

(** units.py:65-164: the concrete unit classes with their suffix and scale.
    [KPx] = PixelUnit (84), [KFont] = FontUnit (99), [KAbs] = AbsoluteUnit
    (114), [KVp] = ViewportUnit (131), [KPct] = Percent (148), [KAngle] =
    AngleUnit (65).  Simplification: the scale of AbsoluteUnit/AngleUnit is a
    finite number, the scale of a ViewportUnit one of the four lambdas. *)
Inductive ukind :=
| KPx
| KFont (suffix : string)
| KAbs (suffix : string) (scale : Qc)
| KVp (suffix : string) (scale : vpscale)
| KPct
| KAngle (suffix : string) (scale : Qc).

(** units.py:30-33: an instance is a class plus a magnitude [val]. *)
Record unit_ := mkU { u_kind : ukind; u_val : pynum }.

(** units.py:32, 86, 150: the suffix attribute. *)
Definition suffix_of (k : ukind) : string :=
  match k with
  | KPx => "px" | KPct => "%"
  | KFont s | KAbs s _ | KVp s _ | KAngle s _ => s
  end%string.

(** isinstance(u, Unit) (units.py:54): every class but AngleUnit. *)
Definition is_unit_kind (k : ukind) : bool := match k with KAngle _ _ => false | _ => true end.

(** The attributes of the display object the library reads
    (units.py:102,120,179-182; engine.py:309).  [fixed_size] is the
    user-supplied method mapping thin/medium/thick to a number. *)
Inductive bkw := Thin | Medium | Thick.
(** The display object given to layout (tests/utils.py, docs): its dpi (units.py:102, 120), its size (179-182, engine.py:87, 126) and fixed_size (engine.py:309). *)
Record display_t := mkDisp {
  dpi : num; disp_width : num; disp_height : num; fixed_size : bkw -> num }.

(** engine.py:90-104: DummyFont(size). *)
Record font_t := mkFont { f_size : num }.
(** engine.py:94-104, read through getattr(font, suffix) at units.py:102;
    any other suffix is an AttributeError. *)
Definition font_attr (f : font_t) (suffix : string) : res Qc :=
  if String.eqb suffix "em" then Ok (nval (f_size f))
  else if String.eqb suffix "ex" then Ok (qfrac 65 100 * nval (f_size f))%Qc
  else if String.eqb suffix "ch" then Ok (qfrac 71 100 * nval (f_size f))%Qc
  else Err AttributeError.

(** The keyword arguments (display, font, size) of lu/px. *)
Record ctx := mkCtx { c_disp : display_t; c_font : font_t; c_size : lval }.

(** units.py:179-182 *)
Definition vp_extent (v : vpscale) (d : display_t) : num :=
  match v with
  | ScaleVh => disp_height d
  | ScaleVw => disp_width d
  | ScaleVmax => nmax (disp_width d) (disp_height d)
  | ScaleVmin => nmin (disp_width d) (disp_height d)
  end.

(** LU_PER_PIXEL as an operand (units.py:56, 102, 120, 137, 153). *)
Definition lu64 : xq := Fin (Z2Qc LU_PER_PIXEL).

(** units.py:55-56 (px), 100-103 (font), 119-120 (absolute), 136-137
    (viewport), 152-153 (percent).  An AngleUnit has no [lu]: AttributeError. *)
Definition lu (c : ctx) (u : unit_) : res Z :=
  let v := pval (u_val u) in
  match u_kind u with
  | KPx => xround (xmul lu64 v)
  | KFont s =>
      f <-r font_attr (c_font c) s ;;
      xround (xmul (xmul (xmul lu64 v) (Fin (f / Z2Qc 72)%Qc)) (nx (dpi (c_disp c))))
  | KAbs _ scale =>
      xround (xmul (xmul (xmul lu64 v) (Fin (scale / Z2Qc 72)%Qc)) (nx (dpi (c_disp c))))
  | KVp _ sc =>
      xround (xmul (xmul (xmul lu64 v) (nx (vp_extent sc (c_disp c)))) (Fin (/ Z2Qc 100)%Qc))
  | KPct =>
      s <-r as_num (c_size c) ;;
      xround (xmul (xmul (xmul lu64 v) (Fin (/ Z2Qc 100)%Qc)) (nx s))
  | KAngle _ _ => Err AttributeError
  end.

(** units.py:60-62: value = logical_units / 64, as an int when integral. *)
Definition lu_to_px (k : Z) : num :=
  let value := qfrac k 64 in
  let int_value := trunc_q (this value) in
  if qc_eqb value (Z2Qc int_value) then NI int_value else NF value.

(** units.py:58-62 *)
Definition px (c : ctx) (u : unit_) : res num :=
  k <-r lu c u ;; Ok (lu_to_px k).

(** units.py:70-73: degrees of an angle. *)
Definition deg_of (u : unit_) : res pynum :=
  match u_kind u with
  | KAngle _ scale =>
      let value := xmul (pval (u_val u)) (Fin scale) in
      i <-r xtrunc value ;;
      Ok (if xeqb value (Fin (Z2Qc i)) then PI i else PF value)
  | _ => Err AttributeError
  end.

(** units.py:75-76,88-89,105-106,122-123,139-140,155-156: same class, suffix
    and scale with another magnitude. *)
Definition dup (u : unit_) (v : pynum) : unit_ := mkU (u_kind u) v.

(** units.py:43-45: n * unit. *)
Definition rmul (n : pynum) (u : unit_) : unit_ := dup u (pmul (u_val u) n).

(** units.py:47-51: -unit. *)
Definition uneg (u : unit_) : unit_ :=
  match u_val u with
  | PI _ => dup u (pmul (u_val u) (PI (-1)))
  | PF _ => dup u (pmul (u_val u) (PF (Fin (Z2Qc (-1)))))
  end.

(** units.py:78-81,91-96,108-111,125-128,142-145,158-161: [==] between units.
    (PixelUnit == int is [u_eq_int] below.) *)
Definition u_eqb (a b : unit_) : bool :=
  let veq := py_num_eqb (u_val a) (u_val b) in
  match u_kind a, u_kind b with
  | KPx, KPx => veq
  | KFont s, KFont t => veq && String.eqb s t
  | KAbs s _, KAbs t _ => veq && String.eqb s t
  | KVp s _, KVp t _ => veq && String.eqb s t
  | KPct, KPct => veq
  | KAngle s _, KAngle t _ => veq && String.eqb s t
  | _, _ => false
  end.

(** units.py:92-93: only PixelUnit compares equal to an int. *)
Definition u_eq_int (u : unit_) (z : Z) : bool :=
  match u_kind u with KPx => py_num_eqb (u_val u) (PI z) | _ => false end.

(** units.py:163-164 *)
Definition u_ltb (a b : unit_) : bool := py_num_ltb (u_val a) (u_val b).

(** units.py:167-189: the built-in units, in creation order (each creation
    appends (suffix, unit) to BaseUnit.UNITS, line 31).
    180/math.pi is the exact quotient by the binary64 value of math.pi. *)
Definition one : pynum := PI 1.
(** units.py:167 *)
Definition px_u := mkU KPx one.
(** units.py:169 *)
Definition em_u := mkU (KFont "em") one.
(** units.py:170 *)
Definition ex_u := mkU (KFont "ex") one.
(** units.py:171 *)
Definition ch_u := mkU (KFont "ch") one.
(** units.py:173 *)
Definition pt_u := mkU (KAbs "pt" (Z2Qc 1)) one.
(** units.py:174 *)
Definition pc_u := mkU (KAbs "pc" (Z2Qc 12)) one.
(** units.py:175 *)
Definition in_u := mkU (KAbs "in" (Z2Qc 72)) one.
(** units.py:176; the decimal literal 28.3465 exactly (FloatUnits.v uses the binary64 number) *)
Definition cm_u := mkU (KAbs "cm" (qfrac 283465 10000)) one.
(** units.py:177; the decimal literal 2.83465 exactly (FloatUnits.v uses the binary64 number) *)
Definition mm_u := mkU (KAbs "mm" (qfrac 283465 100000)) one.
(** units.py:179 *)
Definition vh_u := mkU (KVp "vh" ScaleVh) one.
(** units.py:180 *)
Definition vmax_u := mkU (KVp "vmax" ScaleVmax) one.
(** units.py:181 *)
Definition vmin_u := mkU (KVp "vmin" ScaleVmin) one.
(** units.py:182 *)
Definition vw_u := mkU (KVp "vw" ScaleVw) one.
(** units.py:184 *)
Definition pct_u := mkU KPct one.
(** units.py:186 *)
Definition deg_u := mkU (KAngle "deg" (Z2Qc 1)) one.
(** units.py:187; the decimal literal 0.9 exactly *)
Definition grad_u := mkU (KAngle "grad" (qfrac 9 10)) one.
(** units.py:188; 180 / math.pi as an exact quotient *)
Definition rad_u := mkU (KAngle "rad" (qfrac (180 * 281474976710656) 884279719003555)) one.
(** units.py:189 *)
Definition turn_u := mkU (KAngle "turn" (Z2Qc 360)) one.

(** units.py:167-189, in the order of creation. *)
Definition builtin_units : list unit_ :=
  [px_u; em_u; ex_u; ch_u; pt_u; pc_u; in_u; cm_u; mm_u;
   vh_u; vmax_u; vmin_u; vw_u; pct_u; deg_u; grad_u; rad_u; turn_u].

(** BaseUnit.UNITS (units.py:28): pairs of a suffix and a unit. *)
Definition registry := list (string * unit_).
(** What BaseUnit.__init__ appends (units.py:31). *)
Definition reg_entry (u : unit_) : string * unit_ := (suffix_of (u_kind u), u).
(** BaseUnit.UNITS after the module is imported (units.py:167-189). *)
Definition base_registry : registry := map reg_entry builtin_units.
