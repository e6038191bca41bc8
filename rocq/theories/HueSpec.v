(** Vocabulary for the property about the colours of lights. *)
From Coq Require Import QArith Qround Qminmax.
From Verif Require Import Py VecModel CodecModel HueModel.
Local Open Scope Q_scope.

(** What is asked of the rounding of floats: it never changes the order of two numbers, and
    integers of up to 53 bits are floats. *)
Definition rounding (rd : Q -> Q) : Prop :=
  (forall a b, a <= b -> rd a <= rd b) /\ (forall z, (- 2 ^ 53 <= z <= 2 ^ 53)%Z -> rd (inject_Z z) == inject_Z z).
(** The three numbers lie between [lo] and [hi], and both of these are among them. *)
Definition spans (lo hi : Z) (c : Z * Z * Z) : Prop :=
  let '(r, g, b) := c in (lo <= r <= hi)%Z /\ (lo <= g <= hi)%Z /\ (lo <= b <= hi)%Z /\ In hi [r; g; b] /\ In lo [r; g; b].
(** The greatest and the least number of a colour for a brightness and a saturation. *)
Definition bright (rd : Q -> Q) (brightness : Q) : Z := Qfloor (rd (255 * Qmin brightness 1)).
Definition dim (rd : Q -> Q) (brightness saturation : Q) : Z := Qfloor (rd (inject_Z (bright rd brightness) * rd (1 - saturation))).
(** The colour of a light entity. *)
Definition colour_of (e : entity) (c : Z * Z * Z) : Prop :=
  let '(r, g, b) := c in exists radius rest, e_attrs e = radius :: AInt r :: AInt g :: AInt b :: rest.
