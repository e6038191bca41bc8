(** Vocabulary for the properties of the map that a generated map is based on. *)
From Coq Require Import String.
From Verif Require Import Py VecModel VecSpec VoxelModel CodecModel CodecSpec OutModel OutSpec LightSpec UpmModel UpmSpec KitModel RoomModel TexModel TexSpec
  ShippedModel ShippedSpec DistModel DistSpec GenModel GenSpec ShippedMaps.
Local Open Scope Z_scope.

(** The empty maps in the repository. *)
Definition empty_maps : list (list Z) := [map_empty_day; map_empty_night; map_empty2].
(** The number in the field of the header. *)
Definition field (m : rmap) (k : string) : option Z :=
  match dget String.eqb (m_meta m) k with Some (MInt n) => Some n | _ => None end.
(** The header has the right numbers of entities and variables. *)
Definition counted (m : rmap) : Prop :=
  field m "numents" = Some (len (m_ents m)) /\ field m "numvars" = Some (len (m_vars m)).
(** The header announces a section of the given kind after the octree. *)
Definition announces (m : rmap) (k : string) : Prop := exists n, field m k = Some n /\ 0 < n.
(** The three kinds: visibility, light maps, blend map. *)
Definition sections : list string := ["numpvs"; "lightmaps"; "blendmap"]%string.

(** The cell [d] of 8 by 8 by 8 voxels, in a file whose header has the size [ws] and whose octree
    is that of a world of side [size], each voxel being [ws/size] map units wide: the entity is
    in it. *)
Definition drawn_in_cell (size ws : Z) (e : entity) (d : cell) : Prop :=
  exists x y z, stands e (x, y, z) 0 /\ let '(a, b, h) := d in
    let within c v := 16 * c * ws <= v * size < 16 * (c + 1) * ws in
    within a x /\ within b y /\ within h z.
Definition drawn_in_room (size ws : Z) (r : room) (e : entity) : Prop :=
  exists d, In d (positions r) /\ drawn_in_cell size ws e d.

(** The entities of the room are drawn in it, unless it is of one of the classes that misplace
    something (ShippedSpec.v). *)
Definition drawn_well (size ws : Z) (ob : obj) (es : list entity) : Prop :=
  forall s, In s shipped_rooms -> s_class s = r_cls (snd ob) -> ~ In s bad_extras -> Forall (drawn_in_room size ws (snd ob)) es.
(** The entities of a file: [n] old ones, the sun, and those of the rooms, all well drawn. *)
Definition one_scale (size ws : Z) (hue : vec -> Z * Z * Z) (n : nat) (rs : list obj) (es : list entity) : Prop :=
  exists old sun ess ess', es = old ++ sun :: List.concat ess' /\ List.length old = n /\
    Forall2 (furniture hue) rs ess /\ Forall2 (Forall2 same_entity) ess ess' /\ Forall2 (drawn_well size ws) rs ess'.

(** What the properties of a run of the generator assume of it: see C65 (PropsGen.v). *)
Definition run_hyps (k fuelo : nat) (e : env) (hue : vec -> Z * Z * Z) (vecs : obj -> vec * vec) (tm : texman) (n : Z) : Prop :=
  true_vectors vecs /\ byte_hues hue /\ manager tm /\ mirror_factor n /\ good_env e /\ (7 <= k)%nat /\ (S k < fuelo)%nat /\
  Z.of_nat (List.length (tm_atlas tm)) <= 57000.
