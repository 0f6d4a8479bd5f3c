(** * Specification of length conversion, independent of the model's [lu]/[px] *)
From Coq Require Import ZArith QArith Qcanon String.
From Verif Require Import PyNum Units.
Open Scope Qc_scope.

(** The rational denoted by a finite Python number. *)
Inductive magnitude : pynum -> Qc -> Prop :=
| mag_int z : magnitude (PI z) (Z2Qc z)
| mag_float q : magnitude (PF (Fin q)) q.

(** The extent a viewport unit refers to. *)
Inductive extent (d : display_t) : vpscale -> Qc -> Prop :=
| ext_vw : extent d ScaleVw (nval (disp_width d))
| ext_vh : extent d ScaleVh (nval (disp_height d))
| ext_vmax m : (m = nval (disp_width d) \/ m = nval (disp_height d)) ->
    nval (disp_width d) <= m -> nval (disp_height d) <= m -> extent d ScaleVmax m
| ext_vmin m : (m = nval (disp_width d) \/ m = nval (disp_height d)) ->
    m <= nval (disp_width d) -> m <= nval (disp_height d) -> extent d ScaleVmin m.

(** [exact_px c u q]: in context [c] the length [u] is mathematically [q] px.
    Font units: the font's em (ex = 0.65 em, ch = 0.71 em) in points, at
    dpi/72 px per point.  Absolute units: a scale in points. *)
Inductive exact_px (c : ctx) : unit_ -> Qc -> Prop :=
| exact_pixel p v : magnitude p v -> exact_px c (mkU KPx p) v
| exact_em p v : magnitude p v ->
    exact_px c (mkU (KFont "em") p)
      (v * nval (f_size (c_font c)) * nval (dpi (c_disp c)) / Z2Qc 72)
| exact_ex p v : magnitude p v ->
    exact_px c (mkU (KFont "ex") p)
      (v * (qfrac 65 100 * nval (f_size (c_font c))) * nval (dpi (c_disp c)) / Z2Qc 72)
| exact_ch p v : magnitude p v ->
    exact_px c (mkU (KFont "ch") p)
      (v * (qfrac 71 100 * nval (f_size (c_font c))) * nval (dpi (c_disp c)) / Z2Qc 72)
| exact_abs s points p v : magnitude p v ->
    exact_px c (mkU (KAbs s points) p) (v * points * nval (dpi (c_disp c)) / Z2Qc 72)
| exact_vp s sc p v e : magnitude p v -> extent (c_disp c) sc e ->
    exact_px c (mkU (KVp s sc) p) (v * e / Z2Qc 100)
| exact_pct p v n : magnitude p v -> c_size c = LNum n ->
    exact_px c (mkU KPct p) (v * nval n / Z2Qc 100).

(** Multiples of 1/64 px. *)
Definition on_grid (q : Qc) : Prop := exists k : Z, q = qfrac k 64.
