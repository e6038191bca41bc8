(** Properties C113 and C114 of the files that the terrain programs and from_json leave behind.
    Statements only; proofs are in TerrainDiscProofs.v. *)
From Coq Require Import QArith.
From Verif Require Import Py VecModel VoxelModel CodecModel CodecSpec CodecSamples OutModel OutSpec TerrainModel TerrainSpec JsonModel JsonSamples PropsGen DiscModel DiscSpec
  TerrainDiscModel TerrainDiscProofs.
Local Open Scope Z_scope.

(** C113: the terrain programs can be run on a map in place.  Refuted: a map with a large reserved byte or a changed
    texture slot is lost, for every noise and all draws. *)
Theorem C113_lost_refuted : forall fuel noise g d i o b m ws, bounded noise -> (8 <= fuel)%nat -> d i = Some (Gz b) -> Forall is_byte b -> read_map b = Ok m -> counted m ->
  header_size m = Some ws -> 128 <= ws <= 8192 -> ~ plain_rest m ->
  exists d' x e, perlin_py fuel noise g d i o = (d', Some x) /\ same_but [o] d d' /\ parse d' o = Err e.
Proof. exact perlin_lost. Qed.
Print Assumptions C113_lost_refuted.
(** Every other readable map with a correct count and a header of at least the terrain's size is rewritten, also in
    place: the columns are those of the noise, everything else is kept, no other file is touched, and a second run with
    the same noise and draws reproduces the file byte for byte, so that terrain is replaced and not added. *)
Theorem C113_perlin_partial : forall fuel noise g d i o b m ws, bounded noise -> (8 <= fuel)%nat -> d i = Some (Gz b) -> Forall is_byte b -> read_map b = Ok m -> counted m ->
  header_size m = Some ws -> 128 <= ws <= 8192 -> plain_rest m ->
  exists d' m', perlin_py fuel noise g d i o = (d', None) /\ same_but [o] d d' /\ parse d' o = Ok m' /\ same_rest (set_numents m) m' /\
    (forall o2, exists d2, perlin_py fuel noise g d' o o2 = (d2, None) /\ d2 o2 = d' o) /\
    forall x y z, 0 <= x < 128 -> 0 <= y < 128 -> 0 <= z < 128 -> column noise g x y z (world_lookup 7 m' x y z).
Proof. exact perlin_file. Qed.
Print Assumptions C113_perlin_partial.
(** The same for snow_forest without a tree, spawn point or rock ... *)
Theorem C113_snow_partial : forall fuel noise d i o b m ws, bounded noise -> (9 <= fuel)%nat -> d i = Some (Gz b) -> Forall is_byte b -> read_map b = Ok m -> counted m ->
  header_size m = Some ws -> 256 <= ws <= 8192 -> plain_rest m ->
  (forall i j, 0 <= i < 256 -> 0 <= j < 256 -> ~ has_tree noise i j /\ ~ has_spawn noise i j /\ ~ has_rock noise i j) ->
  exists d' m', snow_py fuel noise d i o = (d', None) /\ same_but [o] d d' /\ parse d' o = Ok m' /\ same_rest (set_numents m) m' /\
    (forall o2, exists d2, snow_py fuel noise d' o o2 = (d2, None) /\ d2 o2 = d' o) /\
    forall i j z h, 0 <= i < 256 -> 0 <= j < 256 -> 0 <= z < 256 -> snow_level noise i j h ->
      (snow_block i j h z -> (snowy noise i j -> world_lookup 8 m' i j z = Some (repeat 13 6)) /\ (~ snowy noise i j -> world_lookup 8 m' i j z = Some (repeat 11 6))) /\
      (~ snow_block i j h z -> world_lookup 8 m' i j z = None).
Proof. exact snow_file. Qed.
Print Assumptions C113_snow_partial.
(** ... and with one, snow_forest fails and every file stays as it was. *)
Theorem C113_snow_untouched : forall fuel noise d i o m, parse d i = Ok m ->
  (exists i j, (0 <= i < 256) /\ (0 <= j < 256) /\ (has_tree noise i j \/ has_spawn noise i j \/ has_rock noise i j)) -> snow_py fuel noise d i o = (d, Some TypeError).
Proof. exact snow_untouched. Qed.
Print Assumptions C113_snow_untouched.
(** A file that is missing or no map makes both fail, and every file stays as it was. *)
Theorem C113_no_map_untouched : forall fuel noise g d i o x, (d i = None /\ x = FileNotFoundError) \/ (exists b, d i = Some (Gz b) /\ read_map b = Err x) ->
  perlin_py fuel noise g d i o = (d, Some x) /\ snow_py fuel noise d i o = (d, Some x).
Proof. exact terrain_not_a_map. Qed.
Print Assumptions C113_no_map_untouched.
(** Flat noise meets the hypotheses, and so do an empty map and one with a large reserved byte. *)
Definition file_large : list Z := firstn 12 file_reserved ++ le 4 256 ++ skipn 16 file_reserved.
Example C113_hypotheses : bounded (fun _ _ _ _ => 0%Q) /\ Forall is_byte (written map256) /\ read_map (written map256) = Ok map256 /\ counted map256 /\ header_size map256 = Some 256 /\ plain_rest map256.
Proof.
  split; [intros o b x y; split; vm_compute; discriminate|].
  split; [apply Forall_forall; intros z Hz; assert (X : forallb (fun z => (0 <=? z) && (z <? 256)) (written map256) = true) by (vm_compute; reflexivity);
          rewrite forallb_forall in X; specialize (X z Hz); unfold is_byte; lia|].
  split; [vm_compute; reflexivity|]. split; [intros n E; vm_compute in E; assert (n = 0) by congruence; subst; vm_compute; reflexivity|].
  split; [apply hypotheses_met|]. split; vm_compute; repeat constructor.
Qed.
Example C113_refuted_hypotheses : Forall is_byte file_large /\ read_map file_large = Ok (get_map file_large) /\ counted (get_map file_large) /\
  header_size (get_map file_large) = Some 256 /\ ~ plain_rest (get_map file_large).
Proof.
  split; [apply Forall_forall; intros z Hz; assert (X : forallb (fun z => (0 <=? z) && (z <? 256)) file_large = true) by (vm_compute; reflexivity);
          rewrite forallb_forall in X; specialize (X z Hz); unfold is_byte; lia|].
  split; [vm_compute; reflexivity|]. split; [intros n E; vm_compute in E; assert (n = 0) by congruence; subst; vm_compute; reflexivity|].
  split; [vm_compute; reflexivity|]. intros [P _]. vm_compute in P. inversion P as [|? ? Q _]. inversion Q as [|? ? Q1 _]. discriminate Q1.
Qed.

(** C114: a map taken to JSON and back is a map.  Refuted at the level of files: what to_json says of a well-formed map
    is either rejected, and every file stays as it was, or the output file is replaced by one that is no map. *)
Theorem C114_back_refuted : forall m j d o, wf_map m -> to_json m = Ok j ->
  (m_ents m <> [] -> exists x, from_json_py j d o = (d, Some x)) /\
  (m_ents m = [] -> exists d' x, from_json_py j d o = (d', None) /\ same_but [o] d d' /\ parse d' o = Err x).
Proof. exact json_leaves. Qed.
Print Assumptions C114_back_refuted.
Example C114_hypotheses : wf_map mapj /\ to_json mapj = Ok (jsonj mapj) /\ m_ents mapj = [].
Proof. split; [apply mapj_wf|]. split; [vm_compute; reflexivity|reflexivity]. Qed.
