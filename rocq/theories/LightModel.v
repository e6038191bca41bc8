(** Model of redeclipse/lighting/__init__.py.

    Simplifications.  The size of the world is a power of two (then the division is exact).
    The colour a manager chooses (hue) is an arbitrary function of the position: the library
    of noise functions is not modelled. *)
From Verif Require Import Py VecModel VoxelModel CodecModel OutModel.

(** lighting/__init__.py:18-25 — a manager for worlds of size 2^lm_exp, with its hue. *)
Record lightman := LM { lm_exp : Z; lm_hue : vec -> Z * Z * Z }.
(** lighting/__init__.py:53-64 — the hue of the plain manager. *)
Definition white (_ : vec) : Z * Z * Z := (255, 255, 255).
(** lighting/__init__.py:18 — the default size, 2**7. *)
Definition default_lightman : lightman := LM 7 white.
(** prefabs/__init__.py:33 — LIGHTMAN, for worlds of size 2**8. *)
Definition LIGHTMAN (hue : vec -> Z * Z * Z) : lightman := LM 8 hue.

(** A float divided by 2^k. *)
Definition pf_shift (v : pfloat) (k : Z) : pfloat := match v with PF s m e => PF s m (e - k) | _ => v end.
Definition num_attr (n : num) : attr := match n with I z => AInt z | H h => AHalf h end.
(** lighting/__init__.py:66-87 — get_light, with entities/__init__.py:127-141.  The factor is
    2^lm_exp / 2^6; the quotient is a FineVector of floats. *)
Definition get_light (lm : lightman) (position : vec) (rgb : Z * Z * Z) (size_factor : num) : res entity :=
  let! q := ventity position in
  let coord n := pf_mul4 (pf_shift (pf_of_num n) (lm_exp lm - 6)) in
  let '(red, green, blue) := rgb in
  Ok (Ent (coord (vx q)) (coord (vy q)) (coord (vz q)) 1
          [num_attr (nmulz size_factor 64); AInt red; AInt green; AInt blue; AInt 0; AInt 0] [] [0; 0; 0]).
(** lighting/__init__.py:27-51 — light.  Without autocenter the variable [pos] is never set. *)
Definition light (lm : lightman) (m : rmap) (position : vec) (colour_override : option (Z * Z * Z))
  (autocenter : bool) (size_factor : num) : res rmap :=
  if autocenter then
    let! p := vadd position TILE_CENTER in
    let! pos := vadd p HALF_HEIGHT in
    let! e := get_light lm pos (match colour_override with Some c => c | None => lm_hue lm pos end) size_factor in
    Ok (apply_edit m (AddEnt e))
  else Err UnboundLocalError.
