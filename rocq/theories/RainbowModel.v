(** Model of RainbowPukeTextureManager (textures/__init__.py:287-301) and of TextureManager.random
    (textures/__init__.py:173-176).

    Simplifications.  Floats are binary64 numbers.  random.randint(0, 64) takes one value of the random
    stream. *)
From Coq Require Import SpecFloat.
From Verif Require Import Py UpmModel KitModel TexModel.
Local Open Scope Z_scope.

Definition fl_sub : spec_float -> spec_float -> spec_float := SFsub 53 1024.
Definition fl_one : spec_float := fl_int 1.

(** colorsys.py — hsv_to_rgb(h, s, v) for a float h and ints s, v; the value v is returned as the int. *)
Definition hsv_to_rgb (h : spec_float) (s v : Z) : res (comp * comp * comp) :=
  if s =? 0 then Ok (CInt v, CInt v, CInt v)
  else
    let h6 := fl_mul h (fl_int 6) in
    let! i := fl_trunc h6 in
    let f := fl_sub h6 (fl_int i) in
    let p := CFl (fl_mul (fl_int v) (fl_sub fl_one (fl_int s))) in
    let q := CFl (fl_mul (fl_int v) (fl_sub fl_one (fl_mul (fl_int s) f))) in
    let t := CFl (fl_mul (fl_int v) (fl_sub fl_one (fl_mul (fl_int s) (fl_sub fl_one f)))) in
    let v := CInt v in
    Ok (match i mod 6 with
        | 0 => (v, t, p)
        | 1 => (q, v, p)
        | 2 => (p, v, t)
        | 3 => (p, q, v)
        | 4 => (t, p, v)
        | _ => (v, p, q)
        end).
(** [c / 255]. *)
Definition by255 (c : comp) : comp :=
  CFl (match c with CInt z => int_div z 255 | CFl f => fl_div f (fl_int 255) end).
(** textures/__init__.py:292-294 and 298-300 — a random colour. *)
Definition random_colour (g : rng) : res (comp * comp * comp) * rng :=
  let (k, g1) := randint 0 64 g in
  let hue := k * 4 in
  ((let! c := hsv_to_rgb (int_div hue 256) 1 255 in
    let '(red, grn, blu) := c in Ok (by255 red, by255 grn, by255 blu)), g1).

(** textures/__init__.py:297-301 — get_colour. *)
Definition rainbow_get_colour (m : texman) (r g b : comp) (s : rng) : texman * res Z * rng :=
  match random_colour s with
  | (Err e, s1) => (m, Err e, s1)
  | (Ok (red, grn, blu), s1) => (get_colour m red grn blu, s1)
  end.
(** textures/__init__.py:290-295 — get_c. *)
Definition rainbow_get_c (m : texman) (category : string) (s : rng) : texman * res Z * rng :=
  match random_colour s with
  | (Err e, s1) => (m, Err e, s1)
  | (Ok (red, grn, blu), s1) => rainbow_get_colour m red grn blu s1
  end.

(** The calls of a manager: get, get_colour and get_c. *)
Inductive call := CallGet (name : string) | CallColour (r g b : comp) | CallCategory (category : string).
Definition rainbow_call (m : texman) (c : call) (s : rng) : texman * res Z * rng :=
  match c with
  | CallGet n => (get m (Named n), s)
  | CallColour r g b => rainbow_get_colour m r g b s
  | CallCategory k => rainbow_get_c m k s
  end.
(** The manager, the answers and the stream after a list of calls (a call that raises is caught by the
    caller). *)
Fixpoint rainbow_run (m : texman) (l : list call) (s : rng) : texman * list (res Z) * rng :=
  match l with
  | [] => (m, [], s)
  | c :: r =>
      let '(m1, a, s1) := rainbow_call m c s in
      let '(m2, x, s2) := rainbow_run m1 r s1 in (m2, a :: x, s2)
  end.
(** textures/__init__.py:156-161 — a new manager of this class, and of its base class, knows two
    textures. *)
Definition plain_known : list (tname * tex) := discovered [].

(** textures/__init__.py:173-176 — random. *)
Definition tm_random (m : texman) (s : rng) : texman * res Z * rng :=
  match choice ["gold"; "admin"; "stone"; "dirt"; "wood"]%string s with
  | (Err e, s1) => (m, Err e, s1)
  | (Ok n, s1) => (get m (Named n), s1)
  end.
