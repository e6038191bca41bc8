(** Property theorems about the voxel world and the octree (C10-C14).  Statements
    only; proofs are in VoxelProofs.v. *)
From Verif Require Import Py VecModel VoxelModel VoxelSpec VoxelProofs.

(** C10: reading a position gives the last value set there and not deleted since. *)
Theorem C10_world_is_finite_map : forall (A : Type) size (ops : list (wop A)) x y z,
  get_point (wrun ops (new_world size)) x y z
  = latest (rev ops) (halves x, halves y, halves z).
Proof. exact @world_history_lemma. Qed.
Print Assumptions C10_world_is_finite_map.

(** C10: the stored entries are exactly the positions holding a value, each once. *)
Theorem C10_world_entries : forall (A : Type) size (ops : list (wop A)),
  let w := wrun ops (new_world size) in
  NoDup (map (fun e => kpos (fst e)) (w_map w)) /\
  (forall p a, latest (rev ops) p = Some a <-> exists k, In (k, a) (w_map w) /\ kpos k = p).
Proof. exact @world_entries_lemma. Qed.
Print Assumptions C10_world_entries.
Example C10_nonvacuous :
  let w := wrun [SetPoint (I 1) (I 2) (I 3) 7; SetPointV (V Fine (H 2) (H 5) (I 3)) 8;
                 SetPoint (H 2) (I 2) (H 6) 9; DelPointV (V Base (I 1) (H 5) (I 3));
                 DelPoint (I 9) (I 9) (I 9)] (new_world 8) in
  get_point w (I 1) (I 2) (I 3) = Some 9 /\ get_point w (I 1) (H 5) (I 3) = None /\
  List.length (w_map w) = 1%nat.
Proof. vm_compute. auto. Qed.

(** C11: the recorded bounds are exactly the extremes of the positions ever set and
    the initial values (size below, 0 above). *)
Theorem C11_bounds_exact : forall (A : Type) size (ops : list (wop A)),
  let w := wrun ops (new_world size) in
  let ps := set_positions ops in
  tight (halves (w_xmin w), halves (w_xmax w)) (2 * size) 0 (map p1 ps) /\
  tight (halves (w_ymin w), halves (w_ymax w)) (2 * size) 0 (map p2 ps) /\
  tight (halves (w_zmin w), halves (w_zmax w)) (2 * size) 0 (map p3 ps).
Proof. exact @boundaries_lemma. Qed.
Print Assumptions C11_bounds_exact.
(** C11: every stored voxel lies within them. *)
Theorem C11_bounds_enclose : forall (A : Type) size (ops : list (wop A)) x y z a,
  let w := wrun ops (new_world size) in
  get_point w x y z = Some a ->
  halves (w_xmin w) <= halves x <= halves (w_xmax w) /\
  halves (w_ymin w) <= halves y <= halves (w_ymax w) /\
  halves (w_zmin w) <= halves z <= halves (w_zmax w).
Proof. exact @enclosing_lemma. Qed.
Print Assumptions C11_bounds_enclose.
(** C11: no call ever narrows them. *)
Theorem C11_bounds_widen : forall (A : Type) (ops : list (wop A)) w,
  let w' := wrun ops w in
  halves (w_xmin w') <= halves (w_xmin w) /\ halves (w_xmax w) <= halves (w_xmax w') /\
  halves (w_ymin w') <= halves (w_ymin w) /\ halves (w_ymax w) <= halves (w_ymax w') /\
  halves (w_zmin w') <= halves (w_zmin w) /\ halves (w_zmax w) <= halves (w_zmax w').
Proof. exact @widen_lemma. Qed.
Print Assumptions C11_bounds_widen.
Example C11_nonvacuous :
  let w := wrun [SetPoint (I (-1)) (I 2) (H 7) tt; SetPoint (I 3) (I 20) (I 1) tt;
                 DelPoint (I 3) (I 20) (I 1)] (new_world 8) in
  (w_xmin w, w_xmax w, w_ymin w, w_ymax w, w_zmin w, w_zmax w)
  = (I (-1), I 3, I 2, I 20, I 1, H 7) /\
  get_point w (I (-1)) (I 2) (H 7) = Some tt.
Proof. vm_compute. auto. Qed.

(** C12, C13: for a world of size 2^(k+1) the conversion succeeds with a root list
    of eight well-shaped trees (inner nodes: eight children, at least one of them
    non-empty; voxels exactly at full depth), and looking up any position in the
    cube finds exactly the stored voxel. *)
Theorem C12_octree_faithful : forall (A : Type) k fuel (w : world A),
  (S k < fuel)%nat -> w_size w = 2 ^ Z.of_nat (S k) ->
  exists l, to_octree fuel w = Ok (OList l) /\ List.length l = 8%nat /\
    (forall t, In t l -> shaped k t) /\
    (forall x y z, 0 <= x < w_size w -> 0 <= y < w_size w -> 0 <= z < w_size w ->
       tlookup (S k) (TNode l) x y z = get_point w (I x) (I y) (I z)).
Proof. exact @octree_root. Qed.
Print Assumptions C12_octree_faithful.
Example C12_nonvacuous :
  let w := wrun [SetPoint (I 1) (I 2) (I 3) 7; SetPoint (I 0) (I 0) (I 0) 5] (new_world 4) in
  w_size w = 2 ^ Z.of_nat 2 /\
  to_octree 10 w = Ok (OList
    [TNode [TVox 5; TEmpty; TEmpty; TEmpty; TEmpty; TEmpty; TEmpty; TEmpty];
     TEmpty; TEmpty; TEmpty; TEmpty; TEmpty;
     TNode [TEmpty; TEmpty; TEmpty; TEmpty; TEmpty; TVox 7; TEmpty; TEmpty]; TEmpty]).
Proof. vm_compute. auto. Qed.

(** C13: in that tree no path is longer than log2 of the size, voxels sit at the
    end of the longest paths, every inner node has exactly eight children and, unless
    it is the root, holds a voxel. *)
Theorem C13_octree_minimal : forall (A : Type) k fuel (w : world A),
  (S k < fuel)%nat -> w_size w = 2 ^ Z.of_nat (S k) ->
  exists l, to_octree fuel w = Ok (OList l) /\ List.length l = 8%nat /\
    (forall n u, within (TNode l) n u -> (n <= S k)%nat /\
       (forall a, u = TVox a -> n = S k) /\
       (forall cs, u = TNode cs -> List.length cs = 8%nat /\ (n <> O -> exists a, holds u a))).
Proof. exact @octree_minimal. Qed.
Print Assumptions C13_octree_minimal.
Example C13_nonvacuous :
  let w := wrun [SetPoint (I 3) (I 0) (I 3) 7] (new_world 4) in
  let u := TNode [TEmpty; TEmpty; TEmpty; TEmpty; TEmpty; TVox 7; TEmpty; TEmpty] in
  to_octree 9 w = Ok (OList [TEmpty; TEmpty; TEmpty; TEmpty; TEmpty; u; TEmpty; TEmpty]) /\
  within (TNode [TEmpty; TEmpty; TEmpty; TEmpty; TEmpty; u; TEmpty; TEmpty]) 1 u /\ holds u 7.
Proof.
  split; [vm_compute; reflexivity|]. split.
  - eapply within_below; [|constructor]. cbn [In]. tauto.
  - eapply holds_below; [|constructor]. cbn [In]. tauto.
Qed.
(** C13: such a node holds its voxel at a position inside its own cube. *)
Theorem C13_no_hollow_nodes : forall (A : Type) k (t : tree A),
  shaped k t -> t <> TEmpty ->
  exists x y z a, 0 <= x < 2 ^ Z.of_nat k /\ 0 <= y < 2 ^ Z.of_nat k /\
    0 <= z < 2 ^ Z.of_nat k /\ tlookup k t x y z = Some a.
Proof. exact @shaped_inhabited. Qed.
Print Assumptions C13_no_hollow_nodes.
Example C13_shaped :
  let t := TNode [TEmpty; TEmpty; TEmpty; TEmpty; TEmpty; TVox 7; TEmpty; TEmpty] in
  shaped 1 t /\ t <> TEmpty.
Proof.
  split; [|discriminate]. apply shaped_node. split; [reflexivity|]. split.
  - exists (TVox 7). cbn [In]. split; [tauto|discriminate].
  - intros t Ht. cbn [In] in Ht.
    repeat (destruct Ht as [<-|Ht]; [cbn; auto|]). destruct Ht.
Qed.

(** C14, false as stated: a voxel inside a world of size 3 is lost, ... *)
Theorem C14_any_size_refuted : exists (w : world Z) x y z,
  0 <= x < w_size w /\ 0 <= y < w_size w /\ 0 <= z < w_size w /\
  get_point w (I x) (I y) (I z) = Some 7 /\
  to_octree 100 w = Ok (OList (repeat TEmpty 8)).
Proof.
  exists (wrun [SetPoint (I 0) (I 2) (I 0) 7] (new_world 3)), 0, 2, 0. vm_compute.
  repeat split; congruence.
Qed.
Print Assumptions C14_any_size_refuted.
(** ... a voxel just outside a power-of-two cube is lost, ... *)
Theorem C14_outside_refuted : exists (w : world Z),
  w_size w = 4 /\ get_point w (I 4) (I 0) (I 0) = Some 7 /\
  to_octree 100 w = Ok (OList (repeat TEmpty 8)).
Proof. exists (wrun [SetPoint (I 4) (I 0) (I 0) 7] (new_world 4)). vm_compute. auto. Qed.
Print Assumptions C14_outside_refuted.
(** ... voxels at fractional positions never matter, whatever the size, ... *)
Theorem C14_integer_positions_only : forall (A : Type) fuel (w w' : world A),
  w_size w = w_size w' ->
  (forall x y z, get_point w (I x) (I y) (I z) = get_point w' (I x) (I y) (I z)) ->
  to_octree fuel w = to_octree fuel w'.
Proof. exact @octree_ext. Qed.
Print Assumptions C14_integer_positions_only.
Example C14_nonvacuous :
  let w := wrun [SetPoint (H 1) (I 2) (I 0) 7] (new_world 4) in
  get_point w (H 1) (I 2) (I 0) = Some 7 /\
  (forall x y z, get_point w (I x) (I y) (I z) = get_point (new_world 4) (I x) (I y) (I z)).
Proof. exact fractional_example. Qed.
(** ... a world of size 1 gives no list, and size 0 recurses for ever. *)
Theorem C14_size_one_refuted : forall (A : Type) fuel (w : world A),
  w_size w = 1 ->
  to_octree (S fuel) w = match get_point w (I 0) (I 0) (I 0) with
                         | None => Ok ONone | Some a => Ok (OTree (TVox a)) end.
Proof. exact @octree_size_one. Qed.
Print Assumptions C14_size_one_refuted.
Theorem C14_size_zero_refuted : forall (A : Type) fuel (w : world A),
  w_size w = 0 -> to_octree fuel w = Err RecursionError.
Proof. exact @octree_zero. Qed.
Print Assumptions C14_size_zero_refuted.
