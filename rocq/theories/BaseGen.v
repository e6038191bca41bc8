(** Lemmas about maps generated from a file. *)
From Coq Require Import String.
From Verif Require Import Py VecModel VecSpec VoxelModel VoxelSpec CodecModel CodecSpec CodecMap OutModel OutSpec UpmModel UpmSpec KitModel KitSpec
  RoomModel MagicaModel RoomSpec TexModel TexSpec TexProofs LightModel LightSpec VoxFileModel ShippedModel ShippedSpec DistModel DistSpec GenModel GenSpec GenLayout GenProofs
  CodecFloat ShippedProofs PassProofs StandGen ShippedMaps BaseSpec BaseProofs.
Local Open Scope Z_scope.

Lemma base_file : forall k fuelo e hue vecs tm n ctf rooms b m rest ws g,
  true_vectors vecs -> byte_hues hue -> manager tm -> mirror_factor n -> good_env e ->
  (7 <= k)%nat -> (S k < fuelo)%nat -> Forall is_byte b -> read_rest b = Ok (m, rest) -> writable_map m -> counted m ->
  header_size m = Some ws -> 2 ^ Z.of_nat (S k) <= ws <= 8192 ->
  Z.of_nat (List.length (tm_atlas tm)) <= 57000 -> len (m_ents m) <= 2 ^ 30 ->
  exists fuel0, forall fuel, (fuel0 <= fuel)%nat -> exists tm' w m2 st g' bs m',
    generate fuel e hue vecs tm (2 ^ Z.of_nat (S k)) (Some n) false ctf rooms m g = (tm', Ok (w, m2, st), g') /\
    output_map fuelo w m2 = Ok bs /\ read_rest bs = Ok (m', []) /\ same_settings m m' /\ disjoint_rooms (u_rooms st) /\
    (forall x y z tex, in_world (2 ^ Z.of_nat (S k)) (x, y, z) ->
       (world_lookup (S k) m' x y z = Some tex <-> exists ob, In ob (u_rooms st) /\ has_block tm' (snd ob) (x, y, z) tex)) /\
    (exists sun ess, m_ents m2 = m_ents m ++ sun :: List.concat ess /\ is_sun sun /\ Forall2 (furniture hue) (u_rooms st) ess) /\
    Forall2 same_entity (m_ents m2) (m_ents m').
Proof.
  intros k fuelo e hue vecs tm n ctf rooms b m rest ws g TV BH M Hn G Hk Hf Hb Hr Hw Hc HS Hws HA HE.
  assert (wf_map m) as WM.
  { apply (read_wf b); auto. unfold read_map. rewrite Hr. reflexivity. }
  exact (map_file k fuelo e hue vecs tm n ctf rooms m ws g TV BH M Hn G Hk Hf WM HS Hws HA HE).
Qed.

(** ** Sections *)
Lemma field_numents m n k : k <> "numents"%string ->
  match dget String.eqb (dset String.eqb (m_meta m) "numents"%string (MInt n)) k with Some (MInt v) => Some v | _ => None end = field m k.
Proof.
  intros N. unfold field. assert (dget String.eqb (dset String.eqb (m_meta m) "numents"%string (MInt n)) k = dget String.eqb (m_meta m) k) as ->; [|reflexivity].
  induction (m_meta m) as [|[a v] l IH]; cbn [dset dget].
  - destruct (String.eqb_spec "numents" k); [congruence|reflexivity].
  - destruct (String.eqb_spec a "numents") as [->|D]; cbn [dget].
    + destruct (String.eqb_spec "numents" k); [congruence|reflexivity].
    + rewrite IH. reflexivity.
Qed.
Lemma same_sections m m' k : same_settings m m' -> In k sections -> field m' k = field m k.
Proof.
  intros (_ & _ & _ & E & _) K. unfold field at 1. rewrite E. apply field_numents.
  intros ->. repeat (destruct K as [K|K]; [discriminate|]). destruct K.
Qed.
Lemma announced_missing : ~ forall m bs m' rest k, wf_map m -> write_map m = Ok bs -> read_rest bs = Ok (m', rest) ->
  In k sections -> announces m' k -> rest <> [].
Proof.
  intros K. destruct (check_map_ok _ _ _ check_day) as (m & R & W & _ & _ & _ & _ & B & E).
  specialize (R []). rewrite app_nil_r in R.
  apply (K m _ m [] "blendmap"%string W E R); [right; right; left; reflexivity| |reflexivity].
  exists 1. split; [exact B|lia].
Qed.
Lemma announced_kept m : wf_map m -> exists bs m', write_map m = Ok bs /\ read_rest bs = Ok (m', []) /\
  forall k, In k sections -> announces m' k <-> announces m k.
Proof.
  intros W. destruct (write_read_lemma m W) as (bs & m' & E & R & S). exists bs, m'. split; [exact E|]. split; [exact R|].
  intros k _. unfold announces, field. destruct S as (_ & _ & _ & -> & _). reflexivity.
Qed.

(** A run on one of the empty maps. *)
Lemma empty_run : forall k fuelo e hue vecs tm n ctf rooms f rest g, run_hyps k fuelo e hue vecs tm n -> (k <= 9)%nat -> In f empty_maps ->
  exists m, read_rest (file_bytes f ++ rest)%list = Ok (m, rest) /\ header_size m = Some 1024 /\
  exists fuel0, forall fuel, (fuel0 <= fuel)%nat -> exists tm' w m2 st g' bs m',
    generate fuel e hue vecs tm (2 ^ Z.of_nat (S k)) (Some n) false ctf rooms m g = (tm', Ok (w, m2, st), g') /\
    output_map fuelo w m2 = Ok bs /\ read_rest bs = Ok (m', []) /\ same_settings m m' /\ disjoint_rooms (u_rooms st) /\
    (forall x y z tex, in_world (2 ^ Z.of_nat (S k)) (x, y, z) ->
       (world_lookup (S k) m' x y z = Some tex <-> exists ob, In ob (u_rooms st) /\ has_block tm' (snd ob) (x, y, z) tex)) /\
    (exists sun ess, m_ents m2 = m_ents m ++ sun :: List.concat ess /\ is_sun sun /\ Forall2 (furniture hue) (u_rooms st) ess) /\
    Forall2 same_entity (m_ents m2) (m_ents m').
Proof.
  intros k fuelo e hue vecs tm n ctf rooms f rest g (TV & BH & M & Hn & G & Hk & Hf & HA) K9 F.
  destruct (empty_map_ok f F) as (m & R & W & S & L & _). exists m. split; [apply R|]. split; [exact S|].
  assert (2 ^ Z.of_nat (Datatypes.S k) <= 2 ^ 10) by (apply Z.pow_le_mono_r; lia). change (2 ^ 10) with 1024 in *.
  apply (map_file k fuelo e hue vecs tm n ctf rooms m 1024 g); auto; lia.
Qed.

(** ** Scale *)
Lemma coord_units f x : coord_is f x 2 -> coord_is f (4 * x) 0.
Proof.
  unfold coord_is. intros E. eapply feq_join; [apply feq_sym; exact E|]. split.
  - destruct (Z.ltb_spec x 0), (Z.ltb_spec (4 * x) 0); (reflexivity || lia).
  - change (Z.abs x * 4 = Z.abs (4 * x) * 1). lia.
Qed.
Lemma stands_units e x y z : stands e (x, y, z) 2 -> stands e (4 * x, 4 * y, 4 * z) 0.
Proof. intros (X & Y & Z0). split; [|split]; apply coord_units; assumption. Qed.
Lemma drawn_right size ws r e : 0 < size -> ws = 4 * size -> inside_room r e -> drawn_in_room size ws r e.
Proof.
  intros H -> (((x, y), z) & ((a, b), h) & St & Hd & Hx & Hy & Hz). exists (a, b, h). split; [exact Hd|].
  exists (4 * x), (4 * y), (4 * z). split; [apply stands_units; exact St|]. cbv zeta. repeat split; nia.
Qed.
(** The first room: the entity is drawn in it only with the one scale. *)
Lemma start_cells c : In c (positions (start_room true)) -> 8 <= fst (fst c) <= 12.
Proof.
  assert (forallb (fun c : cell => (8 <=? fst (fst c)) && (fst (fst c) <=? 12)) (positions (start_room true)) = true) as F by (vm_compute; reflexivity).
  rewrite forallb_forall in F. intros Hc. specialize (F c Hc). apply andb_prop in F as [A B]. lia.
Qed.
Lemma drawn_wrong j k e : (k <= j)%nat -> inside_room (start_room true) e -> drawn_in_room (2 ^ Z.of_nat k) (2 ^ Z.of_nat j) (start_room true) e ->
  2 ^ Z.of_nat j = 4 * 2 ^ Z.of_nat k.
Proof.
  intros L (((x, y), z) & d & St & Hd & In') (d' & Hd' & x' & y' & z' & St' & W). pose proof (stands_inj _ _ _ _ (stands_units _ _ _ _ St) St') as X.
  apply start_cells in Hd, Hd'. destruct d as [[a b] h], d' as [[a' b'] h']. cbn [fst] in Hd, Hd'. destruct In' as (Ix & _). cbv zeta in W. destruct W as (Wx & _).
  assert (x' = 4 * x) as -> by congruence. replace (Z.of_nat j) with (Z.of_nat (j - k) + Z.of_nat k) in * by lia. rewrite Z.pow_add_r in * by lia.
  pose proof (Z.pow_pos_nonneg 2 (Z.of_nat k)) as P. assert (0 < 2 ^ Z.of_nat k) as P' by (apply P; lia). clear P. set (q := 2 ^ Z.of_nat k) in *.
  set (r := 2 ^ Z.of_nat (j - k)) in *. assert (16 * a' * r <= 4 * x < 16 * (a' + 1) * r) as B by nia.
  assert (128 * r < 832 /\ 512 < 208 * r) as (B1 & B2) by nia.
  destruct (j - k)%nat as [|[|[|n]]] eqn:N; subst r.
  - cbn in B1, B2. lia.
  - cbn in B2. lia.
  - change (4 * q = 4 * q). reflexivity.
  - exfalso. replace (Z.of_nat (S (S (S n)))) with (3 + Z.of_nat n) in B1 by lia. rewrite Z.pow_add_r in B1 by lia.
    pose proof (Z.pow_pos_nonneg 2 (Z.of_nat n)). nia.
Qed.

Lemma drawn_same size ws r a b : same_entity a b -> drawn_in_room size ws r a -> drawn_in_room size ws r b.
Proof.
  intros S (d & Hd & x & y & z & St & W). exists d. split; [exact Hd|]. exists x, y, z. split; [exact (stands_same a b _ _ S St)|exact W].
Qed.
Lemma concat_inv {A B} (R : A -> B -> Prop) ess l : Forall2 R (List.concat ess) l -> exists ess', l = List.concat ess' /\ Forall2 (Forall2 R) ess ess'.
Proof.
  revert l. induction ess as [|es ess IH]; intros l F; cbn [List.concat] in F.
  - inversion F. exists []. split; [reflexivity|constructor].
  - apply Forall2_app_inv_l in F as (l1 & l2 & F1 & F2 & ->). destruct (IH l2 F2) as (ess' & -> & F3). exists (l1 :: ess'). split; [reflexivity|constructor; assumption].
Qed.
Lemma well_drawn size ws hue rs ess ess' : 0 < size -> ws = 4 * size -> Forall2 (furniture hue) rs ess -> Forall2 (Forall2 same_entity) ess ess' ->
  Forall2 (drawn_well size ws) rs ess'.
Proof.
  intros P W F. revert ess'. induction F as [|ob es rs ess F0 _ IH]; intros ess' F'; inversion F' as [|a es' b ess2 S0 S1]; subst; [constructor|].
  constructor; [|apply IH; exact S1]. intros s Hs Ec Nb. destruct F0 as (s' & Hs' & Ec' & _ & Q). assert (s' = s) as -> by (apply same_shipped; [exact Hs'|exact Hs|congruence]).
  specialize (Q Nb). clear - Q S0 P. induction S0 as [|a b es es' S _ IH]; [constructor|]. inversion Q; subst. constructor; [|apply IH; assumption].
  eapply drawn_same; [exact S|]. apply drawn_right; auto.
Qed.
Lemma scale_kept k fuel fuelo e hue vecs tm n ctf rooms m ws g tm' w m2 st g' bs m' :
  run_hyps k fuelo e hue vecs tm n -> wf_map m -> header_size m = Some ws -> ws <= 8192 -> len (m_ents m) <= 2 ^ 30 ->
  generate fuel e hue vecs tm (2 ^ Z.of_nat (S k)) (Some n) false ctf rooms m g = (tm', Ok (w, m2, st), g') ->
  output_map fuelo w m2 = Ok bs -> read_rest bs = Ok (m', []) -> ws = 4 * 2 ^ Z.of_nat (S k) ->
  one_scale (2 ^ Z.of_nat (S k)) ws hue (List.length (m_ents m)) (u_rooms st) (m_ents m').
Proof.
  intros (TV & BH & M & Hn & G & Hk & Hf & HA) WM HS Hws HE EG EO ER W4. pose proof (Z.pow_pos_nonneg 2 (Z.of_nat (S k)) ltac:(lia) ltac:(lia)) as P.
  destruct (generate_lays _ _ _ _ _ _ _ _ _ _ _ _ _ _ _ _ _ EG) as (g1 & E).
  destruct (generated k fuel fuelo e hue vecs tm n ctf rooms m ws g st g1 TV BH M Hn G Hk Hf WM HS ltac:(lia) HA HE E)
    as (tm2 & w2 & m3 & g3 & sun & ess & bs2 & m4 & EG2 & EO2 & ER2 & _ & _ & _ & _ & EE & _ & _ & FF & SE).
  assert (w2 = w /\ m3 = m2) as (-> & ->) by (split; congruence). assert (bs2 = bs) as -> by congruence. assert (m4 = m') as -> by congruence.
  rewrite EE in SE. apply Forall2_app_inv_l in SE as (old & l2 & F1 & F2 & ->). inversion F2 as [|a sun' b l3 S0 F3]; subst.
  apply concat_inv in F3 as (ess' & -> & F3). exists old, sun', ess, ess'. split; [reflexivity|]. split; [symmetry; exact (F2_length _ _ _ F1)|].
  split; [exact FF|]. split; [exact F3|]. exact (well_drawn _ _ _ _ _ _ P eq_refl FF F3).
Qed.
(** The first flag that the generator adds is drawn in its room only with that scale. *)
Lemma flags_same a b : Forall2 same_entity a b -> Forall2 same_entity (flags_of a) (flags_of b).
Proof.
  unfold flags_of. induction 1 as [|x y a b S _ IH]; cbn [filter]; [constructor|]. pose proof S as (_ & _ & _ & -> & _). destruct (e_type x =? 14); [constructor; assumption|exact IH].
Qed.
Lemma first_mirror n : mirror_factor n -> exists l, turns_of n = T0 :: l.
Proof. intros [-> | [-> | -> ]]; eexists; reflexivity. Qed.
Lemma turn_none : mirror_room T0 (start_room true) = start_room true.
Proof. vm_compute. reflexivity. Qed.
Lemma scale_flag k j fuel fuelo e hue vecs tm n rooms m g tm' w m2 st g' bs m' :
  run_hyps k fuelo e hue vecs tm n -> wf_map m -> header_size m = Some (2 ^ Z.of_nat j) -> 2 ^ Z.of_nat (S k) <= 2 ^ Z.of_nat j <= 8192 -> len (m_ents m) <= 2 ^ 30 ->
  generate fuel e hue vecs tm (2 ^ Z.of_nat (S k)) (Some n) false true rooms m g = (tm', Ok (w, m2, st), g') ->
  output_map fuelo w m2 = Ok bs -> read_rest bs = Ok (m', []) ->
  exists old f fs, flags_of (m_ents m') = old ++ f :: fs /\ List.length old = List.length (flags_of (m_ents m)) /\
    (exists i, In (i, start_room true) (u_rooms st)) /\
    (drawn_in_room (2 ^ Z.of_nat (S k)) (2 ^ Z.of_nat j) (start_room true) f <-> 2 ^ Z.of_nat j = 4 * 2 ^ Z.of_nat (S k)).
Proof.
  intros (TV & BH & M & Hn & G & Hk & Hf & HA) WM HS Hws HE EG EO ER. pose proof (Z.pow_pos_nonneg 2 (Z.of_nat (S k)) ltac:(lia) ltac:(lia)) as P.
  destruct (ctf_flags _ _ _ _ _ _ _ _ _ _ _ _ _ _ _ _ TV M Hn G EG) as (bases & fs & HB & EB & EF & FI & _).
  destruct (generate_lays _ _ _ _ _ _ _ _ _ _ _ _ _ _ _ _ _ EG) as (g1 & E).
  destruct (generated k fuel fuelo e hue vecs tm n true rooms m _ g st g1 TV BH M Hn G Hk Hf WM HS Hws HA HE E)
    as (tm2 & w2 & m3 & g3 & sun & ess & bs2 & m4 & EG2 & EO2 & ER2 & _ & _ & _ & _ & _ & _ & _ & _ & SE).
  assert (w2 = w /\ m3 = m2) as (-> & ->) by (split; congruence). assert (bs2 = bs) as -> by congruence. assert (m4 = m') as -> by congruence.
  apply flags_same in SE. rewrite EF in SE. apply Forall2_app_inv_l in SE as (old & l2 & F1 & F2 & ->).
  destruct (first_mirror n Hn) as (l & EL). rewrite EL in EB. cbn [map] in EB. rewrite turn_none in EB. subst bases.
  inversion FI as [|r0 f0 rs fs0 [_ FI0] FI1]; subst. inversion F2 as [|a f b fs' S0 F3]; subst.
  exists old, f, fs'. split; [reflexivity|]. split; [symmetry; exact (F2_length _ _ _ F1)|]. split; [apply HB; left; reflexivity|].
  split.
  - apply drawn_wrong; [apply Nat2Z.inj_le, (Z.pow_le_mono_r_iff 2); lia|].
    destruct FI0 as (p & d & St & H). exists p, d. split; [exact (stands_same _ _ _ _ S0 St)|exact H].
  - intros W4. eapply drawn_same; [exact S0|]. apply drawn_right; auto.
Qed.

Lemma start_first n st : mirror_factor n -> laid_out n true st -> exists i l, u_rooms st = (i, start_room true) :: l.
Proof.
  intros Hn (placed & caps & ER & _). destruct (first_mirror n Hn) as (l & EL). rewrite EL in ER. cbn [map List.length seq combine app] in ER.
  rewrite turn_none in ER. rewrite ER. eexists _, _. reflexivity.
Qed.
Lemma start_furnished hue i es : furniture hue (i, start_room true) es -> exists x, In x es /\ inside_room (start_room true) x.
Proof.
  intros (s & Hs & Ec & F & Q). cbn [snd] in *. assert (s = station_flagroom) as ->.
  { apply same_shipped; [exact Hs|exact (first_shipped true)|]. rewrite Ec. vm_compute. reflexivity. }
  specialize (Q flagroom_fine). destruct es as [|x es]; [vm_compute in F; inversion F|]. exists x. split; [left; reflexivity|]. inversion Q; assumption.
Qed.
Lemma scale_lost k j fuel fuelo e hue vecs tm n rooms m g tm' w m2 st g' bs m' :
  run_hyps k fuelo e hue vecs tm n -> wf_map m -> header_size m = Some (2 ^ Z.of_nat j) -> 2 ^ Z.of_nat (S k) <= 2 ^ Z.of_nat j <= 8192 -> len (m_ents m) <= 2 ^ 30 ->
  generate fuel e hue vecs tm (2 ^ Z.of_nat (S k)) (Some n) false true rooms m g = (tm', Ok (w, m2, st), g') ->
  output_map fuelo w m2 = Ok bs -> read_rest bs = Ok (m', []) ->
  one_scale (2 ^ Z.of_nat (S k)) (2 ^ Z.of_nat j) hue (List.length (m_ents m)) (u_rooms st) (m_ents m') -> 2 ^ Z.of_nat j = 4 * 2 ^ Z.of_nat (S k).
Proof.
  intros (TV & BH & M & Hn & G & Hk & Hf & HA) WM HS Hws HE EG EO ER (old & sun & ess & ess' & _ & _ & FF & FS & FD).
  destruct (generate_lays _ _ _ _ _ _ _ _ _ _ _ _ _ _ _ _ _ EG) as (g1 & E).
  destruct (generated k fuel fuelo e hue vecs tm n true rooms m _ g st g1 TV BH M Hn G Hk Hf WM HS Hws HA HE E)
    as (tm2 & w2 & m3 & g3 & sun2 & ess2 & bs2 & m4 & _ & _ & _ & _ & L & _).
  destruct (start_first n st Hn L) as (i & l & EL). rewrite EL in FF, FD.
  inversion FF as [|a es b ess0 F0 _]; subst. inversion FS as [|a es' b ess1 S0 _]; subst. inversion FD as [|a b c d D0 _]; subst.
  destruct (start_furnished hue i es F0) as (x & Hx & In'). destruct (MagicaProofs.Forall2_in_l _ _ _ S0 x Hx) as (x' & Hx' & SX).
  assert (Forall (drawn_in_room (2 ^ Z.of_nat (S k)) (2 ^ Z.of_nat j) (start_room true)) es') as D.
  { apply (D0 station_flagroom); [exact (first_shipped true)|vm_compute; reflexivity|exact flagroom_fine]. }
  rewrite Forall_forall in D. specialize (D x' Hx').
  apply (drawn_wrong j (S k) x'); [apply Nat2Z.inj_le, (Z.pow_le_mono_r_iff 2); lia| |exact D].
  destruct In' as (p & c & St & H). exists p, c. split; [exact (stands_same _ _ _ _ SX St)|exact H].
Qed.

(** ** Sections of the files the generator writes *)
Lemma run_sections k fuel fuelo e hue vecs tm n ctf rooms m ws g tm' w m2 st g' bs :
  run_hyps k fuelo e hue vecs tm n -> wf_map m -> header_size m = Some ws -> 2 ^ Z.of_nat (S k) <= ws <= 8192 -> len (m_ents m) <= 2 ^ 30 ->
  generate fuel e hue vecs tm (2 ^ Z.of_nat (S k)) (Some n) false ctf rooms m g = (tm', Ok (w, m2, st), g') ->
  output_map fuelo w m2 = Ok bs -> exists m', read_rest bs = Ok (m', []) /\ forall s, In s sections -> (announces m' s <-> announces m s).
Proof.
  intros (TV & BH & M & Hn & G & Hk & Hf & HA) WM HS Hws HE EG EO.
  destruct (generate_lays _ _ _ _ _ _ _ _ _ _ _ _ _ _ _ _ _ EG) as (g1 & E).
  destruct (generated k fuel fuelo e hue vecs tm n ctf rooms m ws g st g1 TV BH M Hn G Hk Hf WM HS Hws HA HE E)
    as (tm2 & w2 & m3 & g3 & sun & ess & bs2 & m4 & EG2 & EO2 & ER2 & SS & _).
  assert (w2 = w /\ m3 = m2) as (-> & ->) by (split; congruence). assert (bs2 = bs) as -> by congruence.
  exists m4. split; [exact ER2|]. intros s Hs. unfold announces. rewrite (same_sections m m4 s SS Hs). reflexivity.
Qed.
Lemma empty_sections : (exists m, (forall rest, read_rest (file_bytes map_empty_day ++ rest)%list = Ok (m, rest)) /\ announces m "blendmap") /\
  (exists m, (forall rest, read_rest (file_bytes map_empty2 ++ rest)%list = Ok (m, rest)) /\ announces m "blendmap") /\
  (exists m, (forall rest, read_rest (file_bytes map_empty_night ++ rest)%list = Ok (m, rest)) /\ forall s, In s sections -> ~ announces m s).
Proof.
  destruct (check_map_ok _ _ _ check_day) as (m & R & _ & _ & _ & _ & _ & B & _).
  destruct (check_map_ok _ _ _ check_2) as (m2 & R2 & _ & _ & _ & _ & _ & B2 & _).
  destruct (check_map_ok _ _ _ check_night) as (m3 & R3 & _ & _ & _ & B3 & B4 & B5 & _).
  split; [exists m; split; [exact R|]; exists 1; split; [exact B|lia]|]. split; [exists m2; split; [exact R2|]; exists 1; split; [exact B2|lia]|].
  exists m3. split; [exact R3|]. intros s Hs (v & E & P).
  repeat (destruct Hs as [<-|Hs]; [match goal with H : field m3 _ = Some 0 |- _ => rewrite H in E; injection E as <-; lia end|]). destruct Hs.
Qed.
(** A run for which the scale is wrong: a world of side 512 on an empty map. *)
Lemma scale_one fuelo e hue vecs tm n : run_hyps 8 fuelo e hue vecs tm n ->
  ~ forall fuel rooms m ws g tm' w m2 st g' bs m',
    run_hyps 8 fuelo e hue vecs tm n -> wf_map m -> header_size m = Some ws -> 2 ^ Z.of_nat 9 <= ws <= 8192 -> len (m_ents m) <= 2 ^ 30 ->
    generate fuel e hue vecs tm (2 ^ Z.of_nat 9) (Some n) false true rooms m g = (tm', Ok (w, m2, st), g') ->
    output_map fuelo w m2 = Ok bs -> read_rest bs = Ok (m', []) ->
    one_scale (2 ^ Z.of_nat 9) ws hue (List.length (m_ents m)) (u_rooms st) (m_ents m').
Proof.
  intros RH K. destruct RH as (TV & BH & M & Hn & G & Hk & Hf & HA) eqn:ERH. clear ERH.
  destruct (empty_map_ok map_empty_day (or_introl eq_refl)) as (m & R & W & HS & L & _).
  assert (2 ^ Z.of_nat 9 <= 2 ^ Z.of_nat 10 <= 8192) as B by (vm_compute; split; discriminate).
  assert (len (m_ents m) <= 2 ^ 30) as HE by lia.
  change (Some 1024) with (Some (2 ^ Z.of_nat 10)) in HS.
  destruct (map_file 8 fuelo e hue vecs tm n true 1 m _ (fun _ => 0) TV BH M Hn G Hk Hf W HS B HA HE) as (fuel & F).
  destruct (F fuel (le_n _)) as (tm' & w & m2 & st & g' & bs & m' & EG & EO & ER & _).
  pose proof (K fuel 1 m _ _ _ _ _ _ _ _ _ RH W HS B HE EG EO ER) as X.
  pose proof (scale_lost 8 10 fuel fuelo e hue vecs tm n 1 m _ _ _ _ _ _ _ _ RH W HS B HE EG EO ER X) as Y.
  vm_compute in Y. discriminate Y.
Qed.
