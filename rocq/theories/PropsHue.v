(** Property C86 of the colours of lights.  Statements only; proofs are in HueProofs.v. *)
From Coq Require Import QArith Qround.
From Verif Require Import Py VecModel VecSpec VoxelModel VoxelSpec CodecModel CodecSpec OutModel OutSpec UpmModel UpmSpec KitModel KitSpec
  RoomModel MagicaModel RoomSpec TexModel TexSpec LightModel LightSpec VoxFileModel ShippedModel ShippedSpec DistModel DistSpec GenModel GenSpec HueModel HueSpec HueProofs.

(** C86: a light has the brightness and the saturation that were asked for, whatever the noise: its
    greatest component is 255 times the brightness and its least one that times 1 - saturation. *)
Theorem C86_hue : forall rd noise scale brightness saturation pos, rounding rd ->
  (0 <= brightness)%Q -> (0 <= saturation <= 1)%Q -> (rd saturation == saturation)%Q ->
  spans (dim rd brightness saturation) (bright rd brightness) (position_hue rd noise scale brightness saturation pos).
Proof. intros rd noise scale br s pos R. exact (hue_spans rd R noise scale br s pos). Qed.
Print Assumptions C86_hue.
(** So colours are bytes, as the theorems about map files ask for. *)
Theorem C86_bytes : forall rd noise scale brightness saturation, rounding rd ->
  (0 <= brightness)%Q -> (0 <= saturation <= 1)%Q -> (rd saturation == saturation)%Q ->
  byte_hues (position_hue rd noise scale brightness saturation).
Proof. intros rd noise scale br s R. exact (hue_bytes rd R noise scale br s). Qed.
Print Assumptions C86_bytes.
(** All lights of a generated map are like this. *)
Theorem C86_map : forall rd fuel e noise scale brightness saturation vecs tm size n ctf rooms m g tm' w m2 st g' es,
  rounding rd -> (0 <= brightness)%Q -> (0 <= saturation <= 1)%Q -> (rd saturation == saturation)%Q ->
  true_vectors vecs -> manager tm -> mirror_factor n -> good_env e ->
  generate fuel e (position_hue rd noise scale brightness saturation) vecs tm size (Some n) false ctf rooms m g = (tm', Ok (w, m2, st), g') ->
  m_ents m2 = m_ents m ++ es ->
  forall x, In x es -> e_type x = 1 ->
  exists c, colour_of x c /\ spans (dim rd brightness saturation) (bright rd brightness) c.
Proof. exact map_hues. Qed.
Print Assumptions C86_map.
(** Rounding down to multiples of 2^-60, the values of magica_rooms.py (0.3 and 0.6 as floats), and a
    colour. *)
Definition grid (q : Q) : Q := Qfloor (q * inject_Z (2 ^ 60)) # (2 ^ 60)%positive.
Definition b03 : Q := 5404319552844595 # 18014398509481984.
Definition s06 : Q := 5404319552844595 # 9007199254740992.
Example C86_example : rounding grid /\ (0 <= b03)%Q /\ (0 <= s06 <= 1)%Q /\ (grid s06 == s06)%Q /\ bright grid b03 = 76 /\ dim grid b03 s06 = 30 /\
  position_hue grid (fun b x y z => ((b - 20) # 43) * x)%Q (1 # 338)%Q b03 s06 (V Fine (I 300) (I 4) (H 9)) = (30, 65, 76).
Proof.
  split; [split|].
  - intros a b H. unfold grid, Qle. cbn [Qnum Qden]. apply Z.mul_le_mono_nonneg_r; [lia|]. apply Qfloor_resp_le.
    apply Qmult_le_compat_r; [exact H|]. unfold Qle. cbn. lia.
  - intros z _. unfold grid, Qeq. rewrite <- inject_Z_mult, Qfloor_Z. cbn [Qnum Qden inject_Z]. lia.
  - split; [vm_compute; discriminate|]. split; [split; vm_compute; discriminate|]. split; [vm_compute; reflexivity|].
    split; [vm_compute; reflexivity|]. split; [vm_compute; reflexivity|]. vm_compute. reflexivity.
Qed.
