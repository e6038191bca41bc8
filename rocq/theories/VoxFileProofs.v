(** Proofs about voxel files. *)
From Coq Require Import SpecFloat.
From Verif Require Import Py VecModel VoxelModel VoxelSpec VoxelProofs CodecModel CodecProofs CodecMap UpmModel KitModel TexModel VoxFileModel VoxFileSpec.
Local Open Scope Z_scope.
Ltac Zify.zify_post_hook ::= Z.div_mod_to_equations.

(** ** Groups of four bytes *)
Definition qb (q : quad) : list Z := let '(a, b, c, d) := q in [a; b; c; d].
Definition qs (l : list quad) : list Z := List.concat (map qb l).
Lemma qs_app a b : qs (a ++ b) = qs a ++ qs b.
Proof. unfold qs. rewrite map_app, concat_app. reflexivity. Qed.
Lemma k_u1_cons a r : k_u1 (a :: r) = Ok (a, r).
Proof. unfold k_u1, pbind, k_take. cbn. rewrite Z.add_0_r. reflexivity. Qed.
Lemma k_quad_cons q l : k_quad (qs (q :: l)) = Ok (q, qs l).
Proof.
  destruct q as [[[a b] c] d]. unfold qs. cbn [map qb List.concat app]. unfold k_quad, pbind.
  rewrite !k_u1_cons. reflexivity.
Qed.
Lemma k_quad_nil : k_quad (qs []) = Err EOFError.
Proof. reflexivity. Qed.
Lemma repeat_quads n : forall l, p_repeat n k_quad (qs l) =
  if Nat.leb n (List.length l) then Ok (firstn n l, qs (skipn n l)) else Err EOFError.
Proof.
  induction n as [|n IH]; intros l; [reflexivity|]. cbn [p_repeat]. unfold pbind. destruct l as [|q l]; [reflexivity|].
  rewrite k_quad_cons, IH. cbn [List.length Nat.leb firstn skipn]. destruct (Nat.leb n (List.length l)); reflexivity.
Qed.
Lemma k_u4_cons a b c d l : k_u4 (qs ((a, b, c, d) :: l)) = Ok (four a b c d, qs l).
Proof. unfold k_u4, pbind, k_take, qs, four. cbn -[Z.mul Z.add]. unfold pret. apply f_equal, f_equal2; [lia|reflexivity]. Qed.
Definition quad_eqb (p q : quad) : bool := bytes_eqb (qb p) (qb q).
Lemma k_fixed_cons q l a b c d : k_fixed [a; b; c; d] (qs (q :: l)) =
  if quad_eqb q (a, b, c, d) then Ok (tt, qs l) else Err UserExn.
Proof. destruct q as [[[x y] z] u]. reflexivity. Qed.
Lemma k_fixed_nil a b c d : k_fixed [a; b; c; d] (qs []) = Err UserExn.
Proof. reflexivity. Qed.

(** ** The shape of a written file *)
Definition q4 (z : Z) : quad := (z mod 256, z / 256 mod 256, z / 65536 mod 256, z / 16777216 mod 256).
Lemma le4 z : le 4 z = qb (q4 z).
Proof.
  cbn [le qb q4]. unfold q4, qb. rewrite !Z.div_div by lia. reflexivity.
Qed.
Lemma four_q4 z : 0 <= z < 2 ^ 32 -> let '(a, b, c, d) := q4 z in four a b c d = z.
Proof. intros Hz. unfold q4, four. change (2 ^ 32) with 4294967296 in Hz. lia. Qed.
Lemma u4_q4 z l : 0 <= z < 2 ^ 32 -> k_u4 (qs (q4 z :: l)) = Ok (z, qs l).
Proof. intros Hz. pose proof (four_q4 z Hz) as E. destruct (q4 z) as [[[a b] c] d]. rewrite k_u4_cons, E. reflexivity. Qed.
Lemma i32_ok z b : w_i32 z = Ok b -> 0 <= z -> 0 <= z < 2 ^ 31 /\ b = qb (q4 z).
Proof.
  unfold w_i32. destruct ((- 2 ^ 31 <=? z) && (z <? 2 ^ 31)) eqn:E; [|discriminate]. intros H0 P. assert (b = le 4 (z mod 2 ^ 32)) as -> by congruence.
  assert (0 <= z < 2 ^ 31) as B by lia. split; [exact B|]. rewrite (Z.mod_small z (2 ^ 32)) by (split; [apply B|apply Z.lt_trans with (2 ^ 31); [apply B|reflexivity]]).
  apply le4.
Qed.
Lemma u8_ok z b : w_u8 z = Ok b -> b = [z] /\ 0 <= z < 256.
Proof. unfold w_u8. destruct (_ && _) eqn:E; [|discriminate]. intros H0. injection H0 as <-. split; [reflexivity|lia]. Qed.

Lemma skipped_in k : skipped k = false <-> in_bytes k.
Proof. destruct k as [[x y] z]. unfold skipped, in_bytes. rewrite !orb_false_iff, !Z.ltb_ge. lia. Qed.
Lemma int_whole n : 0 <= halves n -> num_int n = whole n.
Proof. unfold whole. destruct n as [z|h]; cbn [num_int halves]; intros P; [lia|]. apply Z.quot_div_nonneg; lia. Qed.

Lemma wcat_quads {A} (w : A -> res (list Z)) (R : A -> quad -> Prop) :
  (forall x b, w x = Ok b -> exists q, R x q /\ b = qb q) ->
  forall l bs, wcat w l = Ok bs -> exists qsl, Forall2 R l qsl /\ bs = qs qsl.
Proof.
  intros W. induction l as [|x l IH]; intros bs E; [apply wcat_nil in E; subst; exists []; split; [constructor|reflexivity]|].
  apply wcat_cons in E as (b1 & b2 & E1 & E2 & ->). destruct (W x b1 E1) as (q & Rq & ->).
  destruct (IH b2 E2) as (ql & F & ->). exists (q :: ql). split; [constructor; assumption|reflexivity].
Qed.
Lemma byte_kept k : 0 <= k <= 255 -> n255 (CFl (int_div k 255)) = Ok k.
Proof.
  intros K. assert (forallb (fun k => match n255 (CFl (int_div k 255)) with Ok v => v =? k | Err _ => false end) (zrange 0 256) = true) as A
    by (vm_compute; reflexivity).
  rewrite forallb_forall in A. assert (In k (zrange 0 256)) as Hk.
  { unfold zrange. apply in_map_iff. exists (Z.to_nat k). split; [lia|]. apply in_seq. lia. }
  apply A in Hk. destruct (n255 (CFl (int_div k 255))) as [v|e]; [|discriminate]. apply Z.eqb_eq in Hk. congruence.
Qed.
Lemma tenth_kept k : 0 <= k <= 10 -> n255 (CFl (int_div k 10)) = Ok (255 * k / 10).
Proof.
  intros K. assert (forallb (fun k => match n255 (CFl (int_div k 10)) with Ok v => v =? 255 * k / 10 | Err _ => false end) (zrange 0 11) = true) as A
    by (vm_compute; reflexivity).
  rewrite forallb_forall in A. assert (In k (zrange 0 11)) as Hk.
  { unfold zrange. apply in_map_iff. exists (Z.to_nat k). split; [lia|]. apply in_seq. lia. }
  apply A in Hk. destruct (n255 (CFl (int_div k 10))) as [v|e]; [|discriminate]. apply Z.eqb_eq in Hk. congruence.
Qed.
Lemma shade_ok c v : n255 c = Ok v -> 0 <= v < 256 -> shade c v.
Proof.
  intros E B. split; [exact B|]. destruct c as [z|f].
  - symmetry. exact (f_equal (fun r => match r with Ok x => x | Err _ => 0 end) E).
  - split; intros j J ->.
    + rewrite (byte_kept j J) in E. congruence.
    + rewrite (tenth_kept j J) in E. congruence.
Qed.
Lemma colour_ok t b : w_colour t = Ok b -> exists q, colour_is t q /\ b = qb q.
Proof.
  unfold w_colour. intros E. binv E. destruct v as [[r g] bl]. binv E. binv E. binv E. binv E. binv E. binv E. injection E as <-.
  apply u8_ok in E4 as [-> B1]. apply u8_ok in E5 as [-> B2]. apply u8_ok in E6 as [-> B3].
  exists (v, v0, v1, 255). split; [|reflexivity].
  apply shade_ok in E1; [|lia]. apply shade_ok in E2; [|lia]. apply shade_ok in E3; [|lia].
  destruct t; cbn [tex_rgb colour_is] in *; try discriminate E0.
  - injection E0 as <- <- <-. destruct E1 as [_ ->], E2 as [_ ->], E3 as [_ ->]. reflexivity.
  - assert (forall k, shade (tenths 5) k -> k = 127) as T.
    { intros k [_ [_ T]]. rewrite (T 5); [reflexivity|lia|reflexivity]. }
    assert (r = tenths 5 /\ g = tenths 5 /\ bl = tenths 5) as (-> & -> & ->) by (split; [|split]; congruence).
    rewrite (T _ E1), (T _ E2), (T _ E3). reflexivity.
  - assert (r = r0 /\ g = g0 /\ bl = b) as (-> & -> & ->) by (split; [|split]; congruence).
    exists v, v0, v1. auto.
Qed.
Lemma colour_opaque t q : colour_is t q -> exists r g b, q = (r, g, b, 255).
Proof.
  destruct t; cbn [colour_is]; try contradiction; try (intros ->; eauto).
  intros (r' & g' & b' & _ & _ & _ & ->). eauto.
Qed.
Lemma voxels_ok : forall l bs, wcat w_voxel l = Ok bs ->
  exists ql, Forall2 voxel_is (filter (fun e => negb (skipped (fst e))) l) ql /\ bs = qs ql.
Proof.
  induction l as [|e l IH]; intros bs E; [apply wcat_nil in E; subst; exists []; split; [constructor|reflexivity]|].
  apply wcat_cons in E as (b1 & b2 & E1 & E2 & ->). destruct (IH b2 E2) as (ql & F & ->).
  destruct e as [[[x y] z] ts]. unfold w_voxel in E1. cbn [fst snd] in E1. cbn [filter fst].
  destruct (skipped (x, y, z)) eqn:S; cbn [negb].
  - injection E1 as <-. exists ql. split; [exact F|reflexivity].
  - apply skipped_in in S. cbn [in_bytes] in S. destruct ts as [|t r]; [discriminate|]. binv E1. binv E1. binv E1. binv E1. injection E1 as <-.
    apply u8_ok in E as [-> B1]. apply u8_ok in E0 as [-> B2]. apply u8_ok in E3 as [-> B3]. apply u8_ok in E4 as [-> B4].
    exists ((whole x, whole y, whole z, t + 1) :: ql). split.
    + constructor; [|exact F]. unfold voxel_is. cbn [fst snd]. exists t, r. split; [reflexivity|]. split; [|reflexivity]. lia.
    + rewrite !int_whole by lia. reflexivity.
Qed.

(** The groups of a file: the first fifteen, then the voxels, the palette header and the palette. *)
Definition head_quads (len x y z : Z) : list quad :=
  [(86, 79, 88, 32); q4 150; (77, 65, 73, 78); q4 0; q4 (4 * (1 + len) + 36 + 1024);
   (83, 73, 90, 69); q4 12; q4 0; q4 x; q4 y; q4 z; (88, 89, 90, 73); q4 (4 * (1 + len)); q4 0; q4 len].
Definition pal_quads : list quad := [(82, 71, 66, 65); q4 1024; q4 0].
Lemma write_shape w atlas bs : vox_write w atlas = Ok bs ->
  0 <= halves (w_xmax w) -> 0 <= halves (w_ymax w) -> 0 <= halves (w_zmax w) ->
  exists vs cols,
    Forall2 voxel_is (filter (fun e => negb (skipped (fst e))) (w_map w)) vs /\
    Forall2 colour_is (map snd atlas) cols /\
    0 <= whole (w_xmax w) < 2 ^ 31 /\ 0 <= whole (w_ymax w) < 2 ^ 31 /\ 0 <= whole (w_zmax w) < 2 ^ 31 /\
    4 * (1 + Z.of_nat (List.length (w_map w))) + 36 + 1024 < 2 ^ 31 /\
    bs = qs (head_quads (Z.of_nat (List.length (w_map w))) (whole (w_xmax w)) (whole (w_ymax w)) (whole (w_zmax w)) ++
             vs ++ pal_quads ++ cols ++ repeat black (255 - List.length atlas)).
Proof.
  intros E X Y Z0. unfold vox_write in E.
  rewrite (int_whole _ X), (int_whole _ Y), (int_whole _ Z0) in E.
  binv E. binv E. binv E. binv E. binv E. binv E. binv E. binv E. binv E. binv E. binv E. binv E. binv E. binv E. binv E.
  injection E as <-.
  apply i32_ok in E0 as [_ ->]; [|lia]. apply i32_ok in E1 as [_ ->]; [|lia]. apply i32_ok in E2 as [L ->]; [|lia].
  apply i32_ok in E3 as [_ ->]; [|lia]. apply i32_ok in E4 as [_ ->]; [|lia].
  apply i32_ok in E5 as [LX ->]; [|unfold whole; lia]. apply i32_ok in E6 as [LY ->]; [|unfold whole; lia].
  apply i32_ok in E7 as [LZ ->]; [|unfold whole; lia].
  apply i32_ok in E8 as [_ ->]; [|lia]. apply i32_ok in E9 as [_ ->]; [|lia]. apply i32_ok in E10 as [_ ->]; [|lia].
  apply voxels_ok in E11 as (vs & FV & ->). apply i32_ok in E12 as [_ ->]; [|lia]. apply i32_ok in E13 as [_ ->]; [|lia].
  apply (wcat_quads w_colour colour_is colour_ok) in E14 as (cols & FC & ->).
  exists vs, cols. split; [exact FV|]. split; [exact FC|]. split; [exact LX|]. split; [exact LY|]. split; [exact LZ|]. split; [lia|].
  rewrite !qs_app.
  assert (qs (repeat black (255 - List.length atlas)) = List.concat (repeat [0; 0; 0; 255] (255 - List.length atlas))) as ->.
  { unfold qs. f_equal. generalize (255 - List.length atlas)%nat as n. induction n as [|n IH]; [reflexivity|]. cbn [repeat map]. f_equal. exact IH. }
  reflexivity.
Qed.

(** ** Reading it *)
Definition file_of (len x y z : Z) (tail : list quad) : list Z := qs (head_quads len x y z ++ tail).
Lemma read_head size len x y z tail : 0 <= len < 2 ^ 31 -> 0 <= x < 2 ^ 31 -> 0 <= y < 2 ^ 31 -> 0 <= z < 2 ^ 31 ->
  4 * (1 + len) + 36 + 1024 < 2 ^ 31 ->
  vox_read size (file_of len x y z tail) =
  let! r := (do voxels <- p_repeat (Z.to_nat len) k_quad;;
             do _ <- k_fixed TAG_RGBA;; do _ <- k_u4;; do _ <- k_u4;;
             do palette <- p_repeat size k_quad;;
             pret (VF (x, y, z) voxels palette)) (qs tail) in Ok (fst r).
Proof.
  intros L X Y Z0 T. unfold vox_read, file_of. cbv zeta. f_equal. unfold head_quads. cbn [app].
  assert (forall u, 0 <= u < 2 ^ 31 -> 0 <= u < 2 ^ 32) as B by (intros u; change (2 ^ 31) with 2147483648; change (2 ^ 32) with 4294967296; lia).
  unfold pbind at 1 2 3 4 5 6 7 8 9 10 11 12 13 14 15 16.
  unfold TAG_VOX, TAG_MAIN, TAG_SIZE, TAG_XYZI.
  rewrite k_fixed_cons. change (quad_eqb (86, 79, 88, 32) (86, 79, 88, 32)) with true. cbv iota beta.
  rewrite u4_q4 by (apply B; lia). rewrite k_fixed_cons. change (quad_eqb (77, 65, 73, 78) (77, 65, 73, 78)) with true. cbv iota beta.
  rewrite u4_q4 by lia. rewrite u4_q4 by (apply B; lia). change (Z.to_nat 0) with 0%nat. cbn [p_repeat]. unfold pret at 1. 
  rewrite k_fixed_cons. change (quad_eqb (83, 73, 90, 69) (83, 73, 90, 69)) with true. cbv iota beta.
  rewrite u4_q4 by lia. rewrite u4_q4 by lia. rewrite u4_q4 by (apply B; lia). rewrite u4_q4 by (apply B; lia). rewrite u4_q4 by (apply B; lia).
  rewrite k_fixed_cons. change (quad_eqb (88, 89, 90, 73) (88, 89, 90, 73)) with true. cbv iota beta.
  rewrite u4_q4 by (apply B; lia). rewrite u4_q4 by lia. rewrite u4_q4 by (apply B; lia). reflexivity.
Qed.
Lemma read_exact size x y z vs pal : let len := Z.of_nat (List.length vs) in
  0 <= len < 2 ^ 31 -> 0 <= x < 2 ^ 31 -> 0 <= y < 2 ^ 31 -> 0 <= z < 2 ^ 31 -> 4 * (1 + len) + 36 + 1024 < 2 ^ 31 ->
  vox_read size (file_of len x y z (vs ++ pal_quads ++ pal)) =
  if Nat.leb size (List.length pal) then Ok (VF (x, y, z) vs (firstn size pal)) else Err EOFError.
Proof.
  intros len L X Y Z0 T. rewrite read_head by assumption. unfold pbind. rewrite repeat_quads.
  unfold len. rewrite Nat2Z.id, app_length, (proj2 (Nat.leb_le _ _)) by lia.
  rewrite firstn_app, firstn_all, Nat.sub_diag, firstn_O, app_nil_r. rewrite skipn_app, skipn_all, Nat.sub_diag. cbn [skipn app].
  unfold pal_quads. cbn [app]. unfold TAG_RGBA. rewrite k_fixed_cons. change (quad_eqb (82, 71, 66, 65) (82, 71, 66, 65)) with true. cbv iota.
  rewrite !u4_q4 by lia. rewrite repeat_quads. destruct (Nat.leb size (List.length pal)); reflexivity.
Qed.
Lemma skipn_nth {A} (l : list A) : forall n, skipn n l = match nth_error l n with Some a => a :: skipn (S n) l | None => [] end.
Proof. induction l as [|a l IH]; intros [|n]; try reflexivity. cbn [skipn nth_error]. rewrite IH. reflexivity. Qed.
Lemma read_short size len x y z vs pal :
  0 <= len < 2 ^ 31 -> 0 <= x < 2 ^ 31 -> 0 <= y < 2 ^ 31 -> 0 <= z < 2 ^ 31 -> 4 * (1 + len) + 36 + 1024 < 2 ^ 31 ->
  Z.of_nat (List.length vs) < len -> Forall (fun q : quad => snd q = 255) pal ->
  exists e, vox_read size (file_of len x y z (vs ++ pal_quads ++ pal)) = Err e.
Proof.
  intros L X Y Z0 T S FP. rewrite read_head by assumption. unfold pbind. rewrite repeat_quads.
  destruct (Nat.leb _ _) eqn:EL; [|eexists; reflexivity].
  set (n := Z.to_nat len) in *. assert (List.length vs < n)%nat as Ln by (unfold n; lia).
  rewrite skipn_nth. destruct (nth_error (vs ++ pal_quads ++ pal) n) as [q|] eqn:EN; [|eexists; reflexivity].
  unfold TAG_RGBA. rewrite k_fixed_cons.
  assert (quad_eqb q (82, 71, 66, 65) = false) as ->; [|eexists; reflexivity].
  rewrite nth_error_app2 in EN by lia. destruct (n - List.length vs)%nat as [|k] eqn:Ek; [lia|].
  unfold pal_quads in EN. cbn [app nth_error] in EN. destruct k as [|[|k]]; cbn [nth_error] in EN.
  - injection EN as <-. reflexivity.
  - injection EN as <-. reflexivity.
  - apply nth_error_In in EN. rewrite Forall_forall in FP. apply FP in EN. destruct q as [[[a b] c] d]. cbn [snd] in EN. subst d.
    unfold quad_eqb, qb. cbn [bytes_eqb]. rewrite !andb_false_r. reflexivity.
Qed.

(** ** Worlds *)
Definition maxima (w : world (list Z)) : Prop := 0 <= halves (w_xmax w) /\ 0 <= halves (w_ymax w) /\ 0 <= halves (w_zmax w).
Lemma max_num a b : 0 <= halves a -> 0 <= halves (if nltb a b then b else a).
Proof. intros A. unfold nltb. destruct (_ <? _) eqn:E; lia. Qed.
Lemma step_maxima w o : maxima w -> maxima (wstep w o).
Proof.
  intros (X & Y & Z0). destruct o as [x y z a|v a|x y z|v]; cbn [wstep].
  - unfold set_point, maxima. cbn. repeat split; apply max_num; assumption.
  - unfold set_pointv, maxima. cbn. repeat split; apply max_num; assumption.
  - unfold del_point, maxima. destruct (dmem _ _ _); cbn; auto.
  - unfold del_pointv, maxima. destruct (dmem _ _ _); cbn; auto.
Qed.
Lemma run_maxima ops : forall w, maxima w -> maxima (wrun ops w).
Proof. induction ops as [|o ops IH]; intros w M; [exact M|]. cbn. apply IH, step_maxima, M. Qed.
Lemma new_maxima size : maxima (new_world size).
Proof. unfold maxima. cbn. lia. Qed.

Lemma pal_alpha cols ts n : Forall2 colour_is ts cols -> Forall (fun q : quad => snd q = 255) (cols ++ repeat black n).
Proof.
  intros F. apply Forall_app. split.
  - induction F as [|t q ts qs0 C _ IH]; constructor; [|exact IH]. destruct (colour_opaque t q C) as (r & g & b & ->). reflexivity.
  - induction n as [|n IH]; cbn [repeat]; constructor; [reflexivity|exact IH].
Qed.
Lemma filter_all {A} (p : A -> bool) l : (forall x, In x l -> p x = true) -> filter p l = l.
Proof. induction l as [|a l IH]; intros F; [reflexivity|]. cbn. rewrite (F a (or_introl eq_refl)), IH; [reflexivity|]. intros x Hx. apply F. right. exact Hx. Qed.
Lemma filter_le {A} (p : A -> bool) l : (List.length (filter p l) <= List.length l)%nat.
Proof. induction l as [|a l IH]; [reflexivity|]. cbn. destruct (p a); cbn; lia. Qed.
Lemma filter_less {A} (p : A -> bool) l x : In x l -> p x = false -> (List.length (filter p l) < List.length l)%nat.
Proof.
  induction l as [|a l IH]; intros Hx E; [destruct Hx|]. cbn [filter List.length]. destruct Hx as [->|Hx].
  - rewrite E. pose proof (filter_le p l). lia.
  - specialize (IH Hx E). destruct (p a); cbn [List.length]; lia.
Qed.
Lemma F2_len {A B} (R : A -> B -> Prop) l l' : Forall2 R l l' -> List.length l = List.length l'.
Proof. intros F. induction F; cbn; congruence. Qed.

(** What a written file reads as. *)
Lemma roundtrip size ops atlas bs : let w := wrun ops (new_world size) in
  vox_write w atlas = Ok bs -> (forall e, In e (w_map w) -> in_bytes (fst e)) ->
  exists vs cols, Forall2 voxel_is (w_map w) vs /\ Forall2 colour_is (map snd atlas) cols /\
    forall n, vox_read n bs =
      if Nat.leb n (Nat.max 255 (List.length atlas))
      then Ok (VF (whole (w_xmax w), whole (w_ymax w), whole (w_zmax w)) vs
                  (firstn n (cols ++ repeat black (255 - List.length atlas))))
      else Err EOFError.
Proof.
  intros w E IN. destruct (run_maxima ops _ (new_maxima size)) as (X & Y & Z0). fold w in X, Y, Z0.
  destruct (write_shape w atlas bs E X Y Z0) as (vs & cols & FV & FC & LX & LY & LZ & LL & ->).
  rewrite filter_all in FV by (intros e He; apply negb_true_iff, skipped_in, IN, He).
  exists vs, cols. split; [exact FV|]. split; [exact FC|]. intros n.
  pose proof (F2_len _ _ _ FV) as LV. pose proof (F2_len _ _ _ FC) as LC. rewrite map_length in LC. rewrite LV in *.
  fold (file_of (Z.of_nat (List.length vs)) (whole (w_xmax w)) (whole (w_ymax w)) (whole (w_zmax w))
        (vs ++ pal_quads ++ cols ++ repeat black (255 - List.length atlas))).
  rewrite read_exact by (try assumption; lia). rewrite app_length, repeat_length.
  replace (List.length cols + (255 - List.length atlas))%nat with (Nat.max 255 (List.length atlas)) by lia. reflexivity.
Qed.
Lemma outside_lost size ops atlas bs : let w := wrun ops (new_world size) in
  vox_write w atlas = Ok bs -> (exists e, In e (w_map w) /\ ~ in_bytes (fst e)) ->
  forall n, exists err, vox_read n bs = Err err.
Proof.
  intros w E (e & He & NI) n. destruct (run_maxima ops _ (new_maxima size)) as (X & Y & Z0). fold w in X, Y, Z0.
  destruct (write_shape w atlas bs E X Y Z0) as (vs & cols & FV & FC & LX & LY & LZ & LL & ->).
  assert (List.length vs < List.length (w_map w))%nat as L.
  { rewrite <- (F2_len _ _ _ FV). apply filter_less with (x := e); [exact He|]. apply negb_false_iff.
    destruct (skipped (fst e)) eqn:S; [reflexivity|]. apply skipped_in in S. contradiction. }
  apply read_short; try assumption; try lia. apply (pal_alpha cols _ _ FC).
Qed.

(** Colours. *)
Lemma F2_nth {A B} (R : A -> B -> Prop) l l' : Forall2 R l l' -> forall i a, nth_error l i = Some a -> exists b, nth_error l' i = Some b /\ R a b.
Proof. intros F. induction F as [|x y l l' r _ IH]; intros [|i] a E; try discriminate; cbn in *; [injection E as <-; eauto|exact (IH i a E)]. Qed.

(** ** Declared sizes *)
Lemma qs_length l : List.length (qs l) = (4 * List.length l)%nat.
Proof. unfold qs. induction l as [|[[[a b] c] d] l IH]; [reflexivity|]. cbn [map List.concat qb app List.length]. rewrite IH. lia. Qed.
Lemma declared size ops atlas bs : let w := wrun ops (new_world size) in
  vox_write w atlas = Ok bs -> (forall e, In e (w_map w) -> in_bytes (fst e)) ->
  exists child palette pre,
    slice 16 4 bs = le 4 child /\ Z.of_nat (List.length bs) = 20 + child + 12 + 4 * (Z.max 255 (Z.of_nat (List.length atlas)) - 256) /\
    bs = pre ++ TAG_RGBA ++ le 4 1024 ++ le 4 0 ++ palette /\
    Z.of_nat (List.length palette) = 4 * Z.max 255 (Z.of_nat (List.length atlas)).
Proof.
  intros w E IN. destruct (run_maxima ops _ (new_maxima size)) as (X & Y & Z0). fold w in X, Y, Z0.
  destruct (write_shape w atlas bs E X Y Z0) as (vs & cols & FV & FC & LX & LY & LZ & LL & ->).
  rewrite filter_all in FV by (intros e He; apply negb_true_iff, skipped_in, IN, He).
  pose proof (F2_len _ _ _ FV) as LV. pose proof (F2_len _ _ _ FC) as LC. rewrite map_length in LC. rewrite LV in *.
  exists (4 * (1 + Z.of_nat (List.length vs)) + 36 + 1024), (qs (cols ++ repeat black (255 - List.length atlas))),
    (qs (head_quads (Z.of_nat (List.length vs)) (whole (w_xmax w)) (whole (w_ymax w)) (whole (w_zmax w)) ++ vs)).
  split; [rewrite le4; reflexivity|]. split.
  - rewrite qs_length, !app_length, repeat_length. cbn [head_quads pal_quads List.length]. lia.
  - split.
    + change (TAG_RGBA ++ le 4 1024 ++ le 4 0 ++ qs (cols ++ repeat black (255 - List.length atlas)))
        with (qs (pal_quads ++ cols ++ repeat black (255 - List.length atlas))).
      rewrite <- qs_app, <- !app_assoc. reflexivity.
    + rewrite qs_length, app_length, repeat_length. lia.
Qed.

(** ** Statements *)
Lemma reader_rejects size ops atlas bs : let w := wrun ops (new_world size) in
  vox_write w atlas = Ok bs -> (List.length atlas <= 255)%nat -> exists e, vox_read 256 bs = Err e.
Proof.
  intros w E L. destruct (Forall_Exists_dec (fun e : key * list Z => skipped (fst e) = false)
    (fun e => Bool.bool_dec (skipped (fst e)) false) (w_map w)) as [A|A].
  - rewrite Forall_forall in A. destruct (roundtrip size ops atlas bs E) as (vs & cols & _ & _ & R).
    + intros e He. apply skipped_in, A, He.
    + exists EOFError. rewrite R. rewrite (proj2 (Nat.leb_gt 256 _)) by lia. reflexivity.
  - apply Exists_exists in A as (e & He & NS). apply (outside_lost size ops atlas bs E). exists e. split; [exact He|].
    intros IB. apply skipped_in in IB. contradiction.
Qed.
Lemma info_reads size ops atlas bs : let w := wrun ops (new_world size) in
  vox_write w atlas = Ok bs -> (forall e, In e (w_map w) -> in_bytes (fst e)) -> (List.length atlas <= 255)%nat ->
  exists vs cols, Forall2 voxel_is (w_map w) vs /\ Forall2 colour_is (map snd atlas) cols /\
    info_read bs = Ok (VF (whole (w_xmax w), whole (w_ymax w), whole (w_zmax w)) vs (cols ++ repeat black (255 - List.length atlas))).
Proof.
  intros w E IN L. destruct (roundtrip size ops atlas bs E IN) as (vs & cols & FV & FC & R). exists vs, cols.
  split; [exact FV|]. split; [exact FC|]. unfold info_read. rewrite !R.
  rewrite (proj2 (Nat.leb_gt 256 _)) by lia. rewrite (proj2 (Nat.leb_le 255 _)) by lia.
  pose proof (F2_len _ _ _ FC) as LC. rewrite map_length in LC.
  rewrite firstn_all2; [reflexivity|]. rewrite app_length, repeat_length. lia.
Qed.
Lemma colour_places size ops atlas bs f : let w := wrun ops (new_world size) in
  vox_write w atlas = Ok bs -> (forall e, In e (w_map w) -> in_bytes (fst e)) -> (List.length atlas <= 255)%nat ->
  info_read bs = Ok f ->
  List.length (vf_voxels f) = List.length (w_map w) /\
  forall i k t ts q tx, nth_error (w_map w) i = Some (k, t :: ts) -> nth_error (vf_voxels f) i = Some q ->
    0 <= t -> nth_error (map snd atlas) (Z.to_nat t) = Some tx ->
    exists col, colour_is tx col /\ nth_error (vf_palette f) (Z.to_nat (snd q - 1)) = Some col.
Proof.
  intros w E IN L F. destruct (info_reads size ops atlas bs E IN L) as (vs & cols & FV & FC & R). rewrite F in R. injection R as ->.
  cbn [vf_voxels vf_palette]. split; [symmetry; exact (F2_len _ _ _ FV)|].
  intros i k t ts q tx Ei Eq T Et. destruct (F2_nth _ _ _ FV i _ Ei) as (q' & Eq' & V). pose proof (eq_trans (eq_sym Eq') Eq) as EQ; injection EQ as ->.
  destruct k as [[x y] z]. unfold voxel_is in V. cbn [fst snd] in V. destruct V as (t' & r & Es & B & ->).
  injection Es as <- <-. cbn [snd]. replace (t + 1 - 1) with t by lia.
  destruct (F2_nth _ _ _ FC _ _ Et) as (col & Ec & C). exists col. split; [exact C|].
  rewrite nth_error_app1; [exact Ec|]. apply nth_error_Some. congruence.
Qed.
Lemma room_shift size ops atlas bs f : let w := wrun ops (new_world size) in
  vox_write w atlas = Ok bs -> (forall e, In e (w_map w) -> in_bytes (fst e)) -> (List.length atlas <= 255)%nat ->
  info_read bs = Ok f ->
  forall i k t ts q tx, nth_error (w_map w) i = Some (k, t :: ts) -> nth_error (vf_voxels f) i = Some q ->
    0 <= t -> nth_error (map snd atlas) (Z.to_nat (t + 1)) = Some tx ->
    exists r g b, colour_is tx (r, g, b, 255) /\
      room_colour f (snd q) = Ok (CFl (int_div r 255), CFl (int_div g 255), CFl (int_div b 255)).
Proof.
  intros w E IN L F. destruct (info_reads size ops atlas bs E IN L) as (vs & cols & FV & FC & R). rewrite F in R. injection R as ->.
  cbn [vf_voxels]. intros i k t ts q tx Ei Eq T Et.
  destruct (F2_nth _ _ _ FV i _ Ei) as (q' & Eq' & V). pose proof (eq_trans (eq_sym Eq') Eq) as EQ; injection EQ as ->.
  destruct k as [[x y] z]. unfold voxel_is in V. cbn [fst snd] in V. destruct V as (t' & r & Es & B & ->).
  injection Es as <- <-. cbn [snd]. destruct (F2_nth _ _ _ FC _ _ Et) as (col & Ec & C).
  destruct (colour_opaque tx col C) as (r' & g' & b' & ->). exists r', g', b'. split; [exact C|].
  unfold room_colour. cbn [vf_palette]. rewrite (proj2 (Z.ltb_ge (t + 1) 0)) by lia.
  rewrite nth_error_app1 by (apply nth_error_Some; congruence). rewrite Ec. reflexivity.
Qed.
Definition shift_ops : list (@wop (list Z)) := [SetPoint (I 3) (I 4) (I 5) [2; 2; 2; 2; 2; 2]].
Definition shift_atlas : list (Z * tex) :=
  [(0, Sky); (1, Default); (2, Colour SIMPLE_COLOUR (CFl (int_div 255 255)) (CFl (int_div 0 255)) (CFl (int_div 0 255)));
   (3, Colour SIMPLE_COLOUR (CFl (int_div 0 255)) (CFl (int_div 0 255)) (CFl (int_div 255 255)))].
Lemma shift_refuted : exists ops atlas bs f q,
  vox_write (wrun ops (new_world 8)) atlas = Ok bs /\ info_read bs = Ok f /\ vf_voxels f = [q] /\
  nth 2 (map snd atlas) Sky = Colour SIMPLE_COLOUR (CFl (int_div 255 255)) (CFl (int_div 0 255)) (CFl (int_div 0 255)) /\
  get_point (wrun ops (new_world 8)) (I 3) (I 4) (I 5) = Some [2; 2; 2; 2; 2; 2] /\
  room_colour f (snd q) = Ok (CFl (int_div 0 255), CFl (int_div 0 255), CFl (int_div 255 255)).
Proof.
  exists shift_ops, shift_atlas. eexists. eexists. exists (3, 4, 5, 3). split; [vm_compute; reflexivity|].
  split; [vm_compute; reflexivity|]. split; [reflexivity|]. split; [reflexivity|]. split; vm_compute; reflexivity.
Qed.
Lemma sizes_wrong size ops atlas bs : let w := wrun ops (new_world size) in
  vox_write w atlas = Ok bs -> (forall e, In e (w_map w) -> in_bytes (fst e)) ->
  exists child palette pre,
    slice 16 4 bs = le 4 child /\ Z.of_nat (List.length bs) <> 20 + child /\
    bs = pre ++ TAG_RGBA ++ le 4 1024 ++ le 4 0 ++ palette /\
    ((List.length atlas <= 255)%nat -> Z.of_nat (List.length palette) = 1020 /\ Z.of_nat (List.length bs) = 20 + child + 8).
Proof.
  intros w E IN. destruct (declared size ops atlas bs E IN) as (child & pal & pre & A & B & C & D).
  exists child, pal, pre. split; [exact A|]. split; [lia|]. split; [exact C|]. lia.
Qed.
Lemma F2_in {A B} (R : A -> B -> Prop) l l' : Forall2 R l l' -> forall b, In b l' -> exists a, In a l /\ R a b.
Proof. intros F. induction F as [|x y l l' r _ IH]; intros b Hb; [destruct Hb|]. destruct Hb as [<-|Hb]; [exists x; split; [left; reflexivity|exact r]|]. destruct (IH b Hb) as (a & Ha & Ra). exists a. split; [right; exact Ha|exact Ra]. Qed.
Lemma model_size size (ops : list (@wop (list Z))) atlas bs n f : let w := wrun ops (new_world size) in
  vox_write w atlas = Ok bs -> vox_read n bs = Ok f ->
  forall q, In q (vf_voxels f) -> let '(x, y, z, _) := q in let '(sx, sy, sz) := vf_size f in x <= sx /\ y <= sy /\ z <= sz.
Proof.
  intros w E R q Hq.
  assert (forall e, In e (w_map w) -> in_bytes (fst e)) as IN.
  { intros e He. destruct (skipped (fst e)) eqn:S; [|apply skipped_in, S]. exfalso.
    destruct (outside_lost size ops atlas bs E) with (n := n) as [err Er]; [|congruence].
    exists e. split; [exact He|]. intros IB. apply skipped_in in IB. congruence. }
  destruct (roundtrip size ops atlas bs E IN) as (vs & cols & FV & FC & RR). rewrite RR in R.
  destruct (Nat.leb n _); [|discriminate]. injection R as <-. cbn [vf_voxels vf_size] in *.
  destruct (F2_in _ _ _ FV q Hq) as ([[[x y] z] ts] & He & V). unfold voxel_is in V. cbn [fst snd] in V. destruct V as (t & r & _ & _ & ->).
  destruct (enclosing_lemma size ops x y z ts) as (BX & BY & BZ).
  - rewrite world_history_lemma. apply (proj2 (world_entries_lemma size ops)). exists (x, y, z). split; [exact He|reflexivity].
  - fold w in BX, BY, BZ. unfold whole. split; [|split]; (apply Z.div_le_mono; [reflexivity|apply BX || apply BY || apply BZ]).
Qed.
Lemma model_size_refuted : exists ops atlas bs f, vox_write (wrun ops (new_world 8)) atlas = Ok bs /\
  info_read bs = Ok f /\ vf_size f = (3, 4, 5) /\ vf_voxels f = [(3, 4, 5, 3)].
Proof.
  exists shift_ops, shift_atlas. eexists. eexists. split; [vm_compute; reflexivity|].
  split; [vm_compute; reflexivity|]. split; reflexivity.
Qed.
