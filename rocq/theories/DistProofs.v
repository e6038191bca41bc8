(** Proofs about the distributions. *)
From Coq Require Import QArith Permutation.
From Verif Require Import Py UpmModel UpmSpec UpmRandom UpmFinal DistModel DistSpec.
Local Open Scope string_scope.

Lemma pair_eqb_ok a b : pair_eqb a b = true <-> a = b.
Proof.
  destruct a as [x y], b as [x' y']. unfold pair_eqb. cbn [fst snd]. rewrite andb_true_iff, !String.eqb_eq.
  split; [intros [-> ->]; reflexivity|intros E; injection E as -> ->; auto].
Qed.
(** Lookup in a table where keys are not repeated; the table of a class is the table
    restricted to the rows of the class. *)
Definition unique (l : list ((string * string) * Q)) : Prop := NoDup (map fst l).
Lemma dget_set_eq f k (v : Q) : dget String.eqb (dset String.eqb f k v) k = Some v.
Proof.
  induction f as [|[a b] f IH]; cbn; [rewrite String.eqb_refl; reflexivity|].
  destruct (String.eqb a k) eqn:E; cbn; rewrite E; [reflexivity|exact IH].
Qed.
Lemma dget_set_ne f k k' (v : Q) : k <> k' -> dget String.eqb (dset String.eqb f k v) k' = dget String.eqb f k'.
Proof.
  intros N. induction f as [|[a b] f IH]; cbn; [apply String.eqb_neq in N; rewrite N; reflexivity|].
  destruct (String.eqb_spec a k) as [->|Na]; cbn.
  - apply String.eqb_neq in N. rewrite N. reflexivity.
  - destruct (String.eqb a k'); [reflexivity|exact IH].
Qed.
Lemma for_class_gen ty b : forall l f, unique l ->
  dget String.eqb (fold_left (fun f kp => if String.eqb (fst (fst kp)) ty then dset String.eqb f (snd (fst kp)) (snd kp) else f) l f) b
  = match dget pair_eqb l (ty, b) with Some p => Some p | None => dget String.eqb f b end.
Proof.
  induction l as [|[[x y] p] l IH]; intros f U; [reflexivity|]. inversion_clear U as [|? ? Hn U']. cbn [map fst] in Hn.
  cbn [fold_left fst snd dget]. unfold pair_eqb at 1. cbn [fst snd].
  destruct (String.eqb_spec x ty) as [->|Nx]; cbn [andb].
  - rewrite IH by exact U'. destruct (String.eqb_spec y b) as [->|Ny].
    + rewrite dget_set_eq. destruct (dget pair_eqb l (ty, b)) as [q|] eqn:E; [|reflexivity]. exfalso. apply Hn.
      clear -E. induction l as [|[k v] l IH]; [discriminate|]. cbn in *. destruct (pair_eqb k (ty, b)) eqn:K.
      * left. apply pair_eqb_ok in K. exact K.
      * right. exact (IH E).
    + rewrite dget_set_ne by exact Ny. reflexivity.
  - apply IH. exact U'.
Qed.
Lemma for_class_table d a b : unique (d_table d) -> dget String.eqb (for_class d a) b = dget pair_eqb (d_table d) (a, b).
Proof. intros U. unfold for_class. rewrite for_class_gen by exact U. destruct (dget _ _ _); reflexivity. Qed.

Lemma tp_symmetric d a b : d_mirror d = true -> consistent d -> tp d a b = tp d b a.
Proof.
  intros M C. unfold tp. rewrite M. destruct (dget pair_eqb (d_table d) (a, b)) as [p|] eqn:E1, (dget pair_eqb (d_table d) (b, a)) as [q|] eqn:E2; try reflexivity.
  rewrite (C a b p q E1 E2). reflexivity.
Qed.
Lemma dget_in_pair (l : list ((string * string) * Q)) k p : dget pair_eqb l k = Some p -> In (k, p) l.
Proof.
  induction l as [|[k' v] l IH]; [discriminate|]. cbn. destruct (pair_eqb k' k) eqn:K.
  - intros E. injection E as <-. apply pair_eqb_ok in K. subst. left. reflexivity.
  - intros E. right. exact (IH E).
Qed.
Fixpoint nodupb (l : list (string * string)) : bool :=
  match l with [] => true | k :: l' => negb (existsb (pair_eqb k) l') && nodupb l' end.
Lemma nodupb_ok l : nodupb l = true -> NoDup l.
Proof.
  induction l as [|k l IH]; [constructor|]. cbn. intros E. apply andb_prop in E as [E1 E2]. constructor; [|exact (IH E2)].
  intros Hk. apply negb_true_iff in E1. enough (existsb (pair_eqb k) l = true) by congruence.
  apply existsb_exists. exists k. split; [exact Hk|apply pair_eqb_ok; reflexivity].
Qed.
Lemma managers_unique d : In d managers -> unique (d_table d).
Proof.
  intros Hd. apply nodupb_ok. cbn in Hd. destruct Hd as [<-|[<-|[<-|[<-|[]]]]]; vm_compute; reflexivity.
Qed.
Lemma castle_consistent : consistent castle_dist.
Proof.
  intros a b p q E1 E2.
  assert (forallb (fun kp => match dget pair_eqb (d_table castle_dist) (snd (fst kp), fst (fst kp)) with
                             | Some q => Qeq_bool q (snd kp) && Pos.eqb (Qden q) (Qden (snd kp)) && (Qnum q =? Qnum (snd kp))%Z | None => true end)
                  (d_table castle_dist) = true) as A by (vm_compute; reflexivity).
  rewrite forallb_forall in A. apply dget_in_pair in E1. apply A in E1. cbn [fst snd] in E1. rewrite E2 in E1.
  apply andb_prop in E1 as [E1 E3]. apply andb_prop in E1 as [_ E1]. apply Pos.eqb_eq in E1. apply Z.eqb_eq in E3.
  destruct p, q. cbn in *. subst. reflexivity.
Qed.
Lemma castle_symmetric a b : tp castle_dist a b = tp castle_dist b a.
Proof. apply tp_symmetric; [reflexivity|exact castle_consistent]. Qed.
Lemma managers_positive d : In d managers -> forall k p, In (k, p) (d_table d) -> (0 < p)%Q.
Proof.
  intros Hd. assert (forallb (fun kp => (0 <? Qnum (snd kp))%Z) (d_table d) = true) as A
    by (cbn in Hd; destruct Hd as [<-|[<-|[<-|[<-|[]]]]]; vm_compute; reflexivity).
  intros k p Hin. rewrite forallb_forall in A. apply A in Hin. cbn [snd] in Hin. unfold Qlt. cbn. lia.
Qed.
Lemma tp_positive d a b p : In d managers -> tp d a b = Ok p -> (0 < p)%Q.
Proof.
  intros Hd. unfold tp. destruct (dget pair_eqb (d_table d) (a, b)) as [q|] eqn:E.
  - intros X. injection X as ->. eapply managers_positive; [exact Hd|]. apply dget_in_pair. exact E.
  - destruct (d_mirror d); [|discriminate]. destruct (dget pair_eqb (d_table d) (b, a)) as [q|] eqn:E2; [|discriminate].
    intros X. injection X as ->. eapply managers_positive; [exact Hd|]. apply dget_in_pair. exact E2.
Qed.
Lemma tp_total d a b : In d managers -> In a (types_of d) -> In b (types_of d) -> exists p, tp d a b = Ok p.
Proof.
  intros Hd Ha Hb.
  assert (forallb (fun a => forallb (fun b => match tp d a b with Ok _ => true | Err _ => false end) (types_of d)) (types_of d) = true) as A
    by (cbn in Hd; destruct Hd as [<-|[<-|[<-|[<-|[]]]]]; vm_compute; reflexivity).
  rewrite forallb_forall in A. apply A in Ha. rewrite forallb_forall in Ha. apply Ha in Hb.
  destruct (tp d a b) as [p|]; [eauto|discriminate].
Qed.
Lemma class_agrees d a b : unique (d_table d) ->
  (forall p, dget String.eqb (for_class d a) b = Some p -> tp d a b = Ok p) /\
  (d_mirror d = false -> tp d a b = match dget String.eqb (for_class d a) b with Some p => Ok p | None => Err UserExn end).
Proof.
  intros U. rewrite for_class_table by exact U. unfold tp. split.
  - intros p ->. reflexivity.
  - intros ->. reflexivity.
Qed.
Lemma class_refuted : In castle_dist managers /\ tp castle_dist "stair" "hallway" = Ok (7 # 10)%Q /\
  dget String.eqb (for_class castle_dist "stair") "hallway" = None /\
  for_class castle_dist "stair" = [("stair", (1 # 1)%Q)].
Proof. split; [cbn; tauto|]. repeat split; vm_compute; reflexivity. Qed.
(** What the position manager sees is fit for it. *)
Lemma managers_env d round : In d managers -> (forall q, (1 <= q)%Q -> (1 <= round q)%Q) -> good_env (env_of d round).
Proof.
  intros Hd R. split; [|exact R]. intros a b p. cbn. rewrite for_class_table by (apply managers_unique, Hd).
  intros E. eapply managers_positive; [exact Hd|]. apply dget_in_pair. exact E.
Qed.
Lemma managers_stream d round prev opts g x g' : In d managers ->
  (forall q, (1 <= q)%Q -> (1 <= round q)%Q) -> opts <> [] -> NoDup (map rc_id opts) ->
  room_stream (env_of d round) prev opts g = (x, g') -> exists cs, x = Ok cs /\ Permutation cs opts.
Proof. intros Hd R. apply room_stream_perm. apply managers_env; assumption. Qed.
