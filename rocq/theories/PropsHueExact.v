(** Property C123 of the hue of lights.  Statements only; proofs are in HueExactProofs.v and
    HueRoundProofs.v. *)
From Coq Require Import QArith Qround Qminmax Qabs Lqa Lia.
From Verif Require Import Py VecModel HueModel HueSpec HueExactProofs HueRoundProofs PropsHue.

(** C123: a light has the hue of the noise at its place.  With red, green and blue of the noise (bases 10,
    0 and 43) not all alike, the greatest of them becomes the brightness, the least the brightness less the
    saturation, and the one between keeps its share of the distance.  Before it is cut to an int each
    component is that number up to 2^-31, for every rounding that keeps order and ints and is as fine as that
    of floats. *)
Theorem C123_hue : forall rd noise scale brightness saturation pos r g b, rounding rd -> close rd ->
  (0 <= brightness)%Q -> (0 <= saturation <= 1)%Q ->
  r = noise_rd rd noise scale pos 10 -> g = noise_rd rd noise scale pos 0 -> b = noise_rd rd noise scale pos 43 -> ~ (r = g /\ g = b) ->
  exists R G B, position_hue rd noise scale brightness saturation pos = (cut R, cut G, cut B) /\
  (Qabs (R - channel (value_rd rd brightness) saturation (least r g b) (most r g b) r) <= 1 # 2147483648)%Q /\
  (Qabs (G - channel (value_rd rd brightness) saturation (least r g b) (most r g b) g) <= 1 # 2147483648)%Q /\
  (Qabs (B - channel (value_rd rd brightness) saturation (least r g b) (most r g b) b) <= 1 # 2147483648)%Q.
Proof. intros rd noise scale br s pos r g b R C. exact (hue_rounded rd R C noise scale br s pos r g b). Qed.
Print Assumptions C123_hue.
(** Where the three are alike there is no hue, and the light is red. *)
Theorem C123_grey : forall rd noise scale brightness saturation pos, rounding rd -> close rd ->
  (0 <= brightness)%Q -> (0 <= saturation <= 1)%Q ->
  noise_rd rd noise scale pos 10 = noise_rd rd noise scale pos 0 -> noise_rd rd noise scale pos 0 = noise_rd rd noise scale pos 43 ->
  exists R G B, position_hue rd noise scale brightness saturation pos = (cut R, cut G, cut B) /\
  (Qabs (R - value_rd rd brightness) <= 1 # 2147483648)%Q /\
  (Qabs (G - value_rd rd brightness * (1 - saturation)) <= 1 # 2147483648)%Q /\
  (Qabs (B - value_rd rd brightness * (1 - saturation)) <= 1 # 2147483648)%Q.
Proof. intros rd noise scale br s pos R C. exact (grey_rounded rd R C noise scale br s pos). Qed.
Print Assumptions C123_grey.
(** With exact arithmetic these are the components, for every brightness and saturation. *)
Theorem C123_exact : forall noise scale brightness saturation pos r g b,
  r = noise_at noise scale pos 10 -> g = noise_at noise scale pos 0 -> b = noise_at noise scale pos 43 -> ~ (r = g /\ g = b) ->
  position_hue unrounded noise scale brightness saturation pos =
  (cut (channel (value brightness) saturation (least r g b) (most r g b) r),
   cut (channel (value brightness) saturation (least r g b) (most r g b) g),
   cut (channel (value brightness) saturation (least r g b) (most r g b) b)).
Proof. exact hue_exact. Qed.
Print Assumptions C123_exact.
Theorem C123_exact_grey : forall noise scale brightness saturation pos,
  noise_at noise scale pos 10 = noise_at noise scale pos 0 -> noise_at noise scale pos 0 = noise_at noise scale pos 43 ->
  position_hue unrounded noise scale brightness saturation pos =
  (cut (value brightness), cut (value brightness * (1 - saturation)), cut (value brightness * (1 - saturation))).
Proof. exact hue_grey. Qed.
Print Assumptions C123_exact_grey.
(** The rounding of C86_example is fine enough.  Noise with three different components, and noise that is 0, as
    it is at the origin; with that rounding and exactly. *)
Definition slope (b : Z) (x y z : Q) : Q := (((b - 20) # 43) * x)%Q.
Example C123_example : close grid /\
  noise_rd grid slope (1 # 338) (V Fine (I 300) (I 4) (H 9)) 10 = 52%Z /\ noise_rd grid slope (1 # 338) (V Fine (I 300) (I 4) (H 9)) 0 = 105%Z /\
  noise_rd grid slope (1 # 338) (V Fine (I 300) (I 4) (H 9)) 43 = 121%Z /\
  position_hue grid slope (1 # 338) b03 s06 (V Fine (I 300) (I 4) (H 9)) = (30, 65, 76)%Z /\
  position_hue grid slope (1 # 338) b03 s06 (V Fine (I 0) (I 4) (H 9)) = (76, 30, 30)%Z /\
  noise_at slope (1 # 338) (V Fine (I 300) (I 4) (H 9)) 10 = 52%Z /\ noise_at slope (1 # 338) (V Fine (I 300) (I 4) (H 9)) 0 = 105%Z /\
  position_hue unrounded slope (1 # 338) (3 # 10) (6 # 10) (V Fine (I 300) (I 4) (H 9)) = (30, 65, 76)%Z /\
  noise_at slope (1 # 338) (V Fine (I 0) (I 4) (H 9)) 10 = 0%Z /\
  position_hue unrounded slope (1 # 338) (3 # 10) (6 # 10) (V Fine (I 0) (I 4) (H 9)) = (76, 30, 30)%Z.
Proof.
  split; [|vm_compute; repeat split].
  intros q _. assert (grid q == inject_Z (Qfloor (q * inject_Z (2 ^ 60))) * (1 # 2 ^ 60))%Q as E by (unfold grid, Qeq; cbn [Qnum Qden inject_Z Qmult]; lia).
  pose proof (Qfloor_le (q * inject_Z (2 ^ 60))) as A. pose proof (Qlt_floor (q * inject_Z (2 ^ 60))) as B. rewrite inject_Z_plus in B.
  change (inject_Z (2 ^ 60)) with (1152921504606846976 # 1)%Q in *. change (1 # 2 ^ 60)%Q with (1 # 1152921504606846976)%Q in E. change (inject_Z 1) with 1%Q in B.
  apply Qabs_Qle_condition. split; lra.
Qed.
