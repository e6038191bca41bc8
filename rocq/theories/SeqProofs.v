(** Proofs about vectors as sequences, names of directions and extensions of cubes. *)
From Verif Require Import Py VecModel VecSpec VecProofs CodecModel SeqModel.
Local Open Scope Z_scope.

Lemma items_lemma v : (forall k x, 0 <= k -> (vgetitem v k = Ok x <-> nth_error (viter v) (Z.to_nat k) = Some x)) /\
  map halves (viter v) = (let '(x, y, z) := coords2 v in [x; y; z]) /\ vlen v = Z.of_nat (List.length (viter v)).
Proof.
  split; [|split; reflexivity]. intros k x Hk.
  assert (k = 0 \/ k = 1 \/ k = 2 \/ 3 <= k) as [->|[->|[->|H3]]] by lia; try (cbn; split; intros E; inversion E; reflexivity).
  unfold vgetitem. replace (k =? 0) with false by lia. replace (k =? 1) with false by lia. replace (k =? 2) with false by lia.
  split; [discriminate|]. intros E. assert (Z.to_nat k < List.length (viter v))%nat by (apply nth_error_Some; congruence). cbn [viter List.length] in *. lia.
Qed.
Lemma outside_lemma v k : k < 0 \/ 3 <= k -> vgetitem v k = Err UserExn.
Proof. intros Hk. unfold vgetitem. replace (k =? 0) with false by lia. replace (k =? 1) with false by lia. replace (k =? 2) with false by lia. reflexivity. Qed.
Lemma neqb_halves a b : neqb a b = true <-> halves a = halves b.
Proof. unfold neqb. apply Z.eqb_eq. Qed.
Lemma raw_halves a b : raw_eqb a b = true <-> map halves (viter a) = map halves (viter b).
Proof.
  unfold raw_eqb. rewrite !Bool.andb_true_iff, !neqb_halves. cbn [viter map]. split; [intros [[-> ->] ->]; reflexivity|]. intros E.
  assert (halves (vx a) = halves (vx b)) by congruence. assert (halves (vy a) = halves (vy b)) by congruence. assert (halves (vz a) = halves (vz b)) by congruence. auto.
Qed.
Lemma same_class_items a b : vc a = vc b -> (veq a b = true <-> map halves (viter a) = map halves (viter b)).
Proof.
  intros E. unfold veq, fine_eq, coarse_eq, base_eq. rewrite <- E. destruct (vc a); apply raw_halves.
Qed.
Lemma equal_items_refuted : exists a b, positional a /\ positional b /\ veq a b = true /\ map halves (viter a) <> map halves (viter b).
Proof. exists NORTH, (V Fine (I 0) (I 8) (I 0)). repeat split; try discriminate. Qed.

(** ** Names *)
Definition name_of (c : compass) : string := match c with CE => "EAST" | CN => "NORTH" | CW => "WEST" | CS => "SOUTH" end.
Lemma dir_equal v w p : positional w -> fpos2 w = p -> (veq v w = true <-> positional v /\ fpos2 v = p).
Proof. unfold positional. intros PW <-. rewrite veq_meaning. intuition congruence. Qed.
Lemma named v c : direction_name v = Some (name_of c) <-> points_to v c.
Proof.
  pose proof (dir_equal v NORTH (0, 16, 0) ltac:(discriminate) eq_refl) as QN. pose proof (dir_equal v SOUTH (0, -16, 0) ltac:(discriminate) eq_refl) as QS.
  pose proof (dir_equal v EAST (16, 0, 0) ltac:(discriminate) eq_refl) as QE. pose proof (dir_equal v WEST (-16, 0, 0) ltac:(discriminate) eq_refl) as QW.
  unfold direction_name, points_to. fold (positional v).
  destruct (veq v NORTH); [|destruct (veq v SOUTH); [|destruct (veq v EAST); [|destruct (veq v WEST)]]];
    repeat match goal with Q : true = true <-> _ |- _ => pose proof (proj1 Q eq_refl); clear Q end;
    destruct c; cbn [name_of]; (split; [intros E; first [discriminate E|assumption]|intros [P E]]);
    repeat match goal with Q : positional v /\ _ |- _ => destruct Q as [_ Q]; rewrite E in Q; first [discriminate Q|clear Q] end;
    first [reflexivity|exfalso; first [discriminate (proj2 QN (conj P E))|discriminate (proj2 QS (conj P E))|discriminate (proj2 QE (conj P E))|discriminate (proj2 QW (conj P E))]].
Qed.
Lemma unnamed_refuted : map direction_name [SELF; ABOVE; BELOW; NORTH_FINE; SOUTH_FINE; EAST_FINE; WEST_FINE; ABOVE_FINE; BELOW_FINE] = repeat None 9.
Proof. vm_compute. reflexivity. Qed.

(** ** Extensions *)
Lemma kept_ext o n init : n <= x_maxverts o -> newcubeext (Some o) n init = Ok o.
Proof. intros Hn. unfold newcubeext. replace (n <=? x_maxverts o) with true by lia. reflexivity. Qed.
Lemma grow_refuted o n init : x_maxverts o < n -> newcubeext (Some o) n init = Err TypeError.
Proof. intros Hn. unfold newcubeext. replace (n <=? x_maxverts o) with false by lia. reflexivity. Qed.
Lemma init_refuted n : exists e, newcubeext None n true = Ok e /\ (forall s, append_surface e s = Err AttributeError) /\
  forall mask i, Z.testbit mask (Z.of_nat i) = true -> write_surface e mask i = Err TypeError.
Proof. eexists. split; [reflexivity|]. split; [reflexivity|]. intros mask i T. unfold write_surface. cbn [x_surfaces]. rewrite T. reflexivity. Qed.
Lemma appended_lemma ss : forall e l, x_surfaces e = SList l ->
  exists e', foldM append_surface ss e = Ok e' /\ x_surfaces e' = SList (l ++ ss) /\ x_maxverts e' = x_maxverts e /\ forall mask i, write_surface e' mask i = w_surf (Some (l ++ ss)) mask i.
Proof.
  induction ss as [|s ss IH]; intros e l E.
  - exists e. rewrite app_nil_r. split; [reflexivity|]. split; [exact E|]. split; [reflexivity|]. intros mask i. unfold write_surface. rewrite E. reflexivity.
  - cbn [foldM]. unfold append_surface at 1. rewrite E. cbn [bind].
    destruct (IH (Ext (x_tjoints e) (SList (l ++ [s])) (x_verts e) (x_maxverts e)) (l ++ [s]) eq_refl) as (e' & F & X & M & W).
    exists e'. rewrite <- app_assoc in X, W. cbn [app] in X, W. auto.
Qed.
Lemma fresh_filled n ss : exists e e', newcubeext None n false = Ok e /\ foldM append_surface ss e = Ok e' /\ x_surfaces e' = SList ss /\ x_maxverts e' = n /\
  forall mask i, write_surface e' mask i = w_surf (Some ss) mask i.
Proof. destruct (appended_lemma ss (Ext (-1) (SList []) 0 n) [] eq_refl) as (e' & F & X & M & W). exists (Ext (-1) (SList []) 0 n), e'. auto. Qed.
Lemma name_lemma v s : direction_name v = Some s <->
  exists c, points_to v c /\ s = match c with CE => "EAST" | CN => "NORTH" | CW => "WEST" | CS => "SOUTH" end%string.
Proof.
  split.
  - intros E. assert (exists c, s = name_of c) as [c ->].
    { unfold direction_name in E. destruct (veq v NORTH); [exists CN; cbn [name_of]; congruence|]. destruct (veq v SOUTH); [exists CS; cbn [name_of]; congruence|].
      destruct (veq v EAST); [exists CE; cbn [name_of]; congruence|]. destruct (veq v WEST); [exists CW; cbn [name_of]; congruence|]. discriminate. }
    exists c. split; [apply named; exact E|destruct c; reflexivity].
  - intros (c & Hc & ->). apply named in Hc. rewrite Hc. destruct c; reflexivity.
Qed.
