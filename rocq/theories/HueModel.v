(** Model of the colours of redeclipse/lighting/__init__.py:90-129 (PositionBasedLightManager.hue) and
    of the two functions of Python's colorsys it calls.

    Simplifications.  A float is a rational number; each operation is exact and then rounded by an
    arbitrary function [rd] (HueSpec.v says what is asked of it; rounding to nearest does that).  The noise
    library is an arbitrary function.  The two printed colours are left out. *)
From Coq Require Import QArith Qround Qminmax Qabs.
From Verif Require Import Py VecModel.
Local Open Scope Q_scope.

(** A coordinate as a number. *)
Definition q_of_num (n : num) : Q := match n with I z => inject_Z z | H h => h # 2 end.
(** Python's int() of a float. *)
Definition q_int (q : Q) : Z := if Qle_bool 0 q then Qfloor q else Qceiling q.
(** colorsys.py — rgb_to_hsv, of which only the hue is used, for ints. *)
Definition hsv_hue (rd : Q -> Q) (r g b : Z) : Q :=
  let maxc := Z.max r (Z.max g b) in
  let minc := Z.min r (Z.min g b) in
  if (minc =? maxc)%Z then 0
  else
    let range := inject_Z (maxc - minc) in
    let rc := rd (inject_Z (maxc - r) / range) in
    let gc := rd (inject_Z (maxc - g) / range) in
    let bc := rd (inject_Z (maxc - b) / range) in
    let h := if (r =? maxc)%Z then rd (bc - gc)
             else if (g =? maxc)%Z then rd (rd (2 + rc) - bc)
             else rd (rd (4 + gc) - rc) in
    let h6 := rd (h / 6) in
    rd (h6 - inject_Z (Qfloor h6)).
(** colorsys.py — hsv_to_rgb, for an int value [v]. *)
Definition hsv_rgb (rd : Q -> Q) (h s : Q) (v : Z) : Q * Q * Q :=
  let v := inject_Z v in
  if Qeq_bool s 0 then (v, v, v)
  else
    let h6 := rd (h * 6) in
    let i := q_int h6 in
    let f := rd (h6 - inject_Z i) in
    let p := rd (v * rd (1 - s)) in
    let q := rd (v * rd (1 - rd (s * f))) in
    let t := rd (v * rd (1 - rd (s * rd (1 - f)))) in
    match (i mod 6)%Z with
    | 0%Z => (v, t, p)
    | 1%Z => (q, v, p)
    | 2%Z => (p, v, t)
    | 3%Z => (p, q, v)
    | 4%Z => (t, p, v)
    | _ => (v, p, q)
    end.
(** lighting/__init__.py:106-129 — hue.  [scale] is 2 ** -8.4; [noise base x y z] is
    noise.pnoise3(x, y, z, base=base). *)
Definition position_hue (rd : Q -> Q) (noise : Z -> Q -> Q -> Q -> Q) (scale brightness saturation : Q) (pos : vec) : Z * Z * Z :=
  let n c := rd (q_of_num c * scale) in
  let kleur base := q_int (rd (Qabs (noise base (n (vx pos)) (n (vy pos)) (n (vz pos))) * 255)) in
  let hue := hsv_hue rd (kleur 10%Z) (kleur 0%Z) (kleur 43%Z) in
  let '(r, g, b) := hsv_rgb rd hue saturation (q_int (rd (255 * Qmin brightness 1))) in
  (q_int r, q_int g, q_int b).
