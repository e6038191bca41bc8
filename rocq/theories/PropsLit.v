(** Property C124 of the colours of the lights of a generated map.  Statements only; proofs are in
    LitProofs.v. *)
From Coq Require Import QArith Qabs.
From Verif Require Import Py VecModel VecSpec VoxelModel VoxelSpec CodecModel CodecSpec OutModel OutSpec CodecSamples UpmModel UpmSpec KitModel KitSpec
  RoomModel RoomSpec TexModel TexSpec TexProofs LightModel LightSpec ShippedModel ShippedSpec DistModel DistSpec GenModel GenSpec RoomEntModel RoomEntSpec
  DebugModel DebugSpec DebugProofs PropsGen
  HueModel HueSpec HueExactProofs HueRoundProofs LitProofs PropsHue PropsHueExact PropsDebug.
Local Open Scope Z_scope.

(** C124: every light a run adds, in either mode, has the colour the manager of lights has for the very
    place the light stands at in the map; for all rooms, mirror factors, managers and random streams. *)
Theorem C124_place : forall fuel e hue vecs tm size mirror debug ctf rooms m g tm' w m2 st g',
  generate_any fuel e hue vecs tm size mirror debug ctf rooms m g = (tm', Ok (w, m2, st), g') ->
  exists es, m_ents m2 = m_ents m ++ es /\
  forall x, In x es -> e_type x = 1 -> exists q, stands x (fpos2 q) 2 /\ colour_of x (hue q).
Proof. exact generated_place. Qed.
Print Assumptions C124_place.
(** With the manager of the code this is the hue of the noise at that place (C123). *)
Theorem C124_hue : forall rd noise scale brightness saturation fuel e vecs tm size mirror debug ctf rooms m g tm' w m2 st g',
  rounding rd -> close rd -> (0 <= brightness)%Q -> (0 <= saturation <= 1)%Q ->
  generate_any fuel e (position_hue rd noise scale brightness saturation) vecs tm size mirror debug ctf rooms m g = (tm', Ok (w, m2, st), g') ->
  exists es, m_ents m2 = m_ents m ++ es /\
  forall x, In x es -> e_type x = 1 -> exists q R G B, stands x (fpos2 q) 2 /\ colour_of x (cut R, cut G, cut B) /\
    noise_hue rd noise scale brightness saturation q R G B.
Proof. exact generated_hue. Qed.
Print Assumptions C124_hue.
(** Such runs exist, also with that manager; and a light of a room with it. *)
Example C124_example : exists tm' w m2 st g',
  generate_any 400 (env_of castle_dist (fun q => q)) (position_hue grid slope (1 # 338) b03 s06) vecs0 (tm_init (discovered paper)) 256 (Some 2) true false 12 map256 stream = (tm', Ok (w, m2, st), g').
Proof. destruct hypotheses_met as (H1 & _ & H3 & _). exact (sample_debug _ vecs0 _ 256 map256 H1 H3). Qed.
Example C124_light :
  match light (LIGHTMAN (position_hue grid slope (1 # 338) b03 s06)) map256 (V Coarse (I 8) (I 8) (I 3)) None true (I 1) with
  | Ok m => match rev (m_ents m) with Ent x _ _ _ a _ _ :: _ => Some (x, a) | [] => None end
  | Err _ => None
  end = Some (PF false 544 (-1), [AInt 64; AInt 30; AInt 64; AInt 76; AInt 0; AInt 0]).
Proof. vm_compute. reflexivity. Qed.
