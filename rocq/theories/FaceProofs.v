(** Proofs about face geometry. *)
From Verif Require Import Py FaceModel FaceSpec.
Local Open Scope Z_scope.

Definition F := false. Definition T := true.
(** The corners of each face in the order of the code. *)
Definition ring (orient : Z) : list corner :=
  if orient =? 0 then [(F,T,T); (F,T,F); (F,F,F); (F,F,T)]
  else if orient =? 1 then [(T,T,T); (T,F,T); (T,F,F); (T,T,F)]
  else if orient =? 2 then [(T,F,T); (F,F,T); (F,F,F); (T,F,F)]
  else if orient =? 3 then [(F,T,F); (F,T,T); (T,T,T); (T,T,F)]
  else if orient =? 4 then [(F,F,F); (F,T,F); (T,T,F); (T,F,F)]
  else [(F,F,T); (T,F,T); (T,T,T); (F,T,T)].
Lemma orient6 o : 0 <= o <= 5 -> o = 0 \/ o = 1 \/ o = 2 \/ o = 3 \/ o = 4 \/ o = 5.
Proof. lia. Qed.
Lemma land15 e : Z.land e 15 = e mod 16.
Proof. change 15 with (Z.ones 4). rewrite Z.land_ones by lia. reflexivity. Qed.
Lemma shr4 e : Z.shiftr e 4 = e / 16.
Proof. rewrite Z.shiftr_div_pow2 by lia. reflexivity. Qed.
Lemma twelve (l : list Z) : List.length l = 12%nat ->
  exists a b c d e f g h i j k m, l = [a; b; c; d; e; f; g; h; i; j; k; m].
Proof.
  intros H. do 12 (destruct l as [|? l]; [discriminate H|]). destruct l; [|discriminate H]. repeat eexists.
Qed.
Lemma faces_share o edges : 0 <= o <= 5 -> List.length edges = 12%nat ->
  genfaceverts edges o = Ok (Some (map (vertex edges) (ring o))).
Proof.
  intros Ho Hl. destruct (twelve _ Hl) as (a & b & c & d & e & f & g & h & i & j & k & m & ->).
  destruct (orient6 o Ho) as [->|[->|[->|[->|[->| ->]]]]]; cbn -[Z.land Z.shiftr Z.div Z.modulo]; rewrite ?land15, ?shr4; reflexivity.
Qed.
Lemma adj_b c d :
  (let '(x, y, z) := c in let '(x', y', z') := d in
   (b2n (xorb x x') + b2n (xorb y y') + b2n (xorb z z'))%nat) = 1%nat -> adjacent c d.
Proof.
  intros E. assert (forall P : nat -> Prop, P 0%nat -> P 1%nat -> P 2%nat -> forall a, (a < 3)%nat -> P a) as C3
    by (intros P p0 p1 p2 [|[|[|a]]] L; auto; lia).
  destruct (Bool.bool_dec (side 0 c) (side 0 d)) as [E0|N0].
  - destruct (Bool.bool_dec (side 1 c) (side 1 d)) as [E1|N1].
    + exists 2%nat. split; [lia|]. split.
      * intros E2. destruct c as [[x y] z], d as [[x' y'] z']. cbn in *. subst. rewrite !xorb_nilpotent in E. discriminate.
      * intros a La Na. destruct a as [|[|a]]; [exact E0|exact E1|lia].
    + exists 1%nat. split; [lia|]. split; [exact N1|]. intros a La Na. destruct a as [|[|[|a]]]; [exact E0|lia| |lia].
      destruct c as [[x y] z], d as [[x' y'] z']. cbn in *. destruct x, x', y, y', z, z'; cbn in *; congruence.
  - exists 0%nat. split; [lia|]. split; [exact N0|]. intros a La Na. destruct a as [|[|[|a]]]; [lia| | |lia];
      destruct c as [[x y] z], d as [[x' y'] z']; cbn in *; destruct x, x', y, y', z, z'; cbn in *; congruence.
Qed.
Definition ceqb (c d : corner) : bool :=
  let '(x, y, z) := c in let '(x', y', z') := d in Bool.eqb x x' && Bool.eqb y y' && Bool.eqb z z'.
Lemma ceqb_ok c d : ceqb c d = true <-> c = d.
Proof.
  destruct c as [[x y] z], d as [[x' y'] z']. cbn. rewrite !Bool.andb_true_iff, !Bool.eqb_true_iff.
  split; [intros [[-> ->] ->]; reflexivity|intros E; injection E as -> -> ->; auto].
Qed.
Fixpoint nodupb (l : list corner) : bool := match l with [] => true | c :: l' => negb (existsb (ceqb c) l') && nodupb l' end.
Lemma mem_ok c l : existsb (ceqb c) l = true <-> In c l.
Proof.
  rewrite existsb_exists. split; [intros (d & Hd & E); apply ceqb_ok in E; subst; exact Hd|intros H; exists c; split; [exact H|apply ceqb_ok; reflexivity]].
Qed.
Lemma nodupb_ok l : nodupb l = true -> NoDup l.
Proof.
  induction l as [|c l IH]; [constructor|]. cbn. rewrite Bool.andb_true_iff, negb_true_iff. intros [A B]. constructor; [|exact (IH B)].
  intros H. apply mem_ok in H. congruence.
Qed.
Lemma all_corners (f : corner -> bool) : forallb f corners = true -> forall c, f c = true.
Proof. intros H c. rewrite forallb_forall in H. apply H. destruct c as [[[] []] []]; cbn; tauto. Qed.
Lemma rings o : 0 <= o <= 5 -> goes_round o (ring o).
Proof.
  intros Ho. split.
  - intros c. rewrite <- mem_ok.
    assert (Bool.eqb (existsb (ceqb c) (ring o)) (Bool.eqb (side (Z.to_nat (o / 2)) c) (o mod 2 =? 1)) = true) as E
      by (revert c; apply all_corners; destruct (orient6 o Ho) as [->|[->|[->|[->|[->| ->]]]]]; vm_compute; reflexivity).
    apply Bool.eqb_prop in E. rewrite E. apply Bool.eqb_true_iff.
  - destruct (orient6 o Ho) as [->|[->|[->|[->|[->| ->]]]]];
    do 4 eexists; (split; [reflexivity|]); (split; [apply nodupb_ok; vm_compute; reflexivity|]);
    repeat split; apply adj_b; reflexivity.
Qed.
Lemma shared_corners : exists ring : Z -> list corner, forall o, 0 <= o <= 5 ->
  goes_round o (ring o) /\
  forall edges, List.length edges = 12%nat -> genfaceverts edges o = Ok (Some (map (vertex edges) (ring o))).
Proof. exists ring. intros o Ho. split; [exact (rings o Ho)|]. intros edges Hl. exact (faces_share o edges Ho Hl). Qed.
Lemma no_face edges o : ~ 0 <= o <= 5 -> genfaceverts edges o = Ok None.
Proof. intros H. unfold genfaceverts. repeat match goal with |- context [o =? ?k] => destruct (Z.eqb_spec o k) as [->|?]; [lia|] end. reflexivity. Qed.
Lemma along_range edges axis c : Forall (fun b => 0 <= b <= 255) edges -> 0 <= along edges axis c <= 15.
Proof.
  intros H. unfold along. assert (0 <= nth (edge_at axis c) edges 0 <= 255) as B.
  { destruct (nth_in_or_default (edge_at axis c) edges 0) as [Hin| ->]; [|lia]. rewrite Forall_forall in H. exact (H _ Hin). }
  destruct (side axis c).
  - split; [apply Z.div_pos; lia|]. assert (nth (edge_at axis c) edges 0 / 16 < 16) by (apply Z.div_lt_upper_bound; lia). lia.
  - pose proof (Z.mod_pos_bound (nth (edge_at axis c) edges 0) 16). lia.
Qed.
Lemma vertex_range edges o vs v : Forall (fun b => 0 <= b <= 255) edges -> List.length edges = 12%nat ->
  genfaceverts edges o = Ok (Some vs) -> In v vs ->
  let '(x, y, z) := v in 0 <= x <= 15 /\ 0 <= y <= 15 /\ 0 <= z <= 15.
Proof.
  intros B Hl E Hv. assert (0 <= o <= 5) as Ho.
  { destruct (Z_le_gt_dec 0 o), (Z_le_gt_dec o 5); try lia; rewrite no_face in E by lia; discriminate E. }
  rewrite faces_share in E by assumption. injection E as <-. apply in_map_iff in Hv as (c & <- & _).
  unfold vertex. pose proof (along_range edges 0 c B). pose proof (along_range edges 1 c B). pose proof (along_range edges 2 c B). auto.
Qed.
Lemma new_cube c : vertex new_edges c = (8 * Z.b2z (side 0 c), 8 * Z.b2z (side 1 c), 8 * Z.b2z (side 2 c)).
Proof. destruct c as [[[] []] []]; reflexivity. Qed.
Lemma new_cube_winding o p q r s : genfaceverts new_edges o = Ok (Some [p; q; r; s]) ->
  cross (minus q p) (minus r p) = scale 64 (outward o) /\ minus q p = minus r s.
Proof.
  intros E. assert (0 <= o <= 5) as Ho.
  { destruct (Z_le_gt_dec 0 o), (Z_le_gt_dec o 5); try lia; rewrite no_face in E by lia; discriminate E. }
  destruct (orient6 o Ho) as [->|[->|[->|[->|[->| ->]]]]]; vm_compute in E; injection E as <- <- <- <-; split; reflexivity.
Qed.
Lemma orient_parts o : 0 <= o <= 5 ->
  o = 2 * dimension o + dimcoord o /\ 0 <= dimension o <= 2 /\ 0 <= dimcoord o <= 1 /\
  opposite (opposite o) = o /\ dimension (opposite o) = dimension o /\ dimcoord (opposite o) = 1 - dimcoord o.
Proof.
  intros Ho. destruct (orient6 o Ho) as [->|[->|[->|[->|[->| ->]]]]]; vm_compute; repeat split; congruence.
Qed.
