(** Properties C117 to C119 of vectors as sequences, of the names of directions and of extensions of cubes.  Statements
    only; proofs are in SeqProofs.v. *)
From Verif Require Import Py VecModel VecSpec CodecModel SeqModel SeqProofs.
Local Open Scope Z_scope.

(** C117: a vector is read like the tuple of its coordinates, and equal vectors are read as equal tuples.

    Iteration gives the three coordinates (doubled here, so that 3 and 3.0 are one number), the items from 0 on are those
    of the iteration, and the length is their number; for vectors of one class equality is that of the items.  Missing:
    see the refutations. *)
Theorem C117_items_partial : forall v, (forall k x, 0 <= k -> (vgetitem v k = Ok x <-> nth_error (viter v) (Z.to_nat k) = Some x)) /\
  map halves (viter v) = (let '(x, y, z) := coords2 v in [x; y; z]) /\ vlen v = Z.of_nat (List.length (viter v)).
Proof. exact items_lemma. Qed.
Print Assumptions C117_items_partial.
Theorem C117_equal_partial : forall a b, vc a = vc b -> (veq a b = true <-> map halves (viter a) = map halves (viter b)).
Proof. exact same_class_items. Qed.
Print Assumptions C117_equal_partial.
(** Refuted: equal vectors of two classes have different items, so they are different keys of a world ... *)
Theorem C117_equal_refuted : exists a b, positional a /\ positional b /\ veq a b = true /\ map halves (viter a) <> map halves (viter b).
Proof. exact equal_items_refuted. Qed.
Print Assumptions C117_equal_refuted.
(** ... and no item is found from the end: every other index raises a plain Exception, not the IndexError of a tuple. *)
Theorem C117_outside_refuted : forall v k, k < 0 \/ 3 <= k -> vgetitem v k = Err UserExn.
Proof. exact outside_lemma. Qed.
Print Assumptions C117_outside_refuted.
Example C117_example : vgetitem TILE_CENTER 1 = Ok (I 4) /\ vgetitem TILE_CENTER (-1) = Err UserExn /\ viter VOXEL_OFFSET = [H 1; H 1; H 1].
Proof. repeat split. Qed.

(** C118: every direction has a name, its own.

    The four names are given to exactly the vectors that point one cell in that direction, in whatever class, and no other
    vector has a name.  Refuted: of the named constants the other nine have none - among them the fine directions,
    which are no equals of the coarse ones. *)
Theorem C118_named_partial : forall v s, direction_name v = Some s <->
  exists c, points_to v c /\ s = match c with CE => "EAST" | CN => "NORTH" | CW => "WEST" | CS => "SOUTH" end%string.
Proof. exact name_lemma. Qed.
Print Assumptions C118_named_partial.
Theorem C118_unnamed_refuted : map direction_name [SELF; ABOVE; BELOW; NORTH_FINE; SOUTH_FINE; EAST_FINE; WEST_FINE; ABOVE_FINE; BELOW_FINE] = repeat None 9.
Proof. exact unnamed_refuted. Qed.
Print Assumptions C118_unnamed_refuted.
Example C118_example : map direction_name CARDINALS = map Some ["EAST"; "NORTH"; "WEST"; "SOUTH"]%string /\ direction_name (V Fine (H 0) (H (-16)) (H 0)) = Some "SOUTH"%string.
Proof. split; reflexivity. Qed.

(** C119: a cube can be given an extension for any number of vertices, keeping the surfaces it has.

    A cube without one gets an empty one, to which the reader appends its surfaces, and these are what the writer then
    writes; one that is large enough is kept.  Refuted: one that is too small is never replaced - the call raises - and an
    extension asked for with initial values can be neither filled nor written. *)
Theorem C119_fresh_partial : forall n ss, exists e e', newcubeext None n false = Ok e /\ foldM append_surface ss e = Ok e' /\ x_surfaces e' = SList ss /\ x_maxverts e' = n /\
  forall mask i, write_surface e' mask i = w_surf (Some ss) mask i.
Proof. exact fresh_filled. Qed.
Print Assumptions C119_fresh_partial.
Theorem C119_kept_partial : forall o n init, n <= x_maxverts o -> newcubeext (Some o) n init = Ok o.
Proof. exact kept_ext. Qed.
Print Assumptions C119_kept_partial.
Theorem C119_grow_refuted : forall o n init, x_maxverts o < n -> newcubeext (Some o) n init = Err TypeError.
Proof. exact grow_refuted. Qed.
Print Assumptions C119_grow_refuted.
Theorem C119_initial_refuted : forall n, exists e, newcubeext None n true = Ok e /\ (forall s, append_surface e s = Err AttributeError) /\
  forall mask i, Z.testbit mask (Z.of_nat i) = true -> write_surface e mask i = Err TypeError.
Proof. exact init_refuted. Qed.
Print Assumptions C119_initial_refuted.
(** So the extension of a textured cube, which holds no vertices, can never hold one. *)
Example C119_example : newcubeext (Some textured_ext) 0 true = Ok textured_ext /\ newcubeext (Some textured_ext) 1 true = Err TypeError /\
  write_surface textured_ext 63 0 = Ok [2; 0; 0; 32].
Proof. repeat split. Qed.
