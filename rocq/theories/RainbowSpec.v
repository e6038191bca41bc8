(** Vocabulary for the properties of the rainbow texture manager. *)
From Verif Require Import Py TexModel RainbowModel.
Local Open Scope Z_scope.

(** The circle of the fully saturated, fully bright colours, in 192 steps: six arcs of 32 steps, on each of
    which one component goes from 0 to 32 (or back) while the others are 0 and 32. *)
Definition circle (n : Z) : Z * Z * Z :=
  let u := n mod 32 in
  if n <? 32 then (32, u, 0)
  else if n <? 64 then (32 - u, 32, 0)
  else if n <? 96 then (0, 32, u)
  else if n <? 128 then (0, 32 - u, 32)
  else if n <? 160 then (u, 0, 32)
  else (32, 0, 32 - u).
(** The components of such a colour as the float numbers j/32. *)
Definition paint (c : Z * Z * Z) : comp * comp * comp :=
  let '(r, g, b) := c in (CFl (int_div r 32), CFl (int_div g 32), CFl (int_div b 32)).
(** The colours of the manager: every third step. *)
Definition hues : list (comp * comp * comp) := map (fun k => paint (circle (3 * k))) (zrange 0 64).
Definition rainbow_tex (t : tex) : Prop :=
  exists r g b, In (r, g, b) hues /\ t = Colour SIMPLE_COLOUR r g b.
(** The same kinds of calls, with any colours and categories. *)
Definition alike (a b : call) : Prop :=
  match a, b with
  | CallGet n, CallGet n' => n = n'
  | CallColour _ _ _, CallColour _ _ _ | CallCategory _, CallCategory _ => True
  | _, _ => False
  end.
(** The names that random chooses from. *)
Definition five : list string := ["gold"; "admin"; "stone"; "dirt"; "wood"]%string.
