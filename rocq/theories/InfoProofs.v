(** Proofs about what the information tool prints. *)
From Coq Require Import Ascii DecimalString DecimalPos DecimalZ.
From Verif Require Import Py VecModel VoxelModel VoxelSpec VoxelProofs CodecModel KitProofs KitShape TexModel TexSpec TexProofs VoxFileModel VoxFileSpec VoxFileProofs InfoModel InfoSpec.
Local Open Scope string_scope.
Local Open Scope Z_scope.

(** ** Numbers in texts *)
Definition numeral (c : ascii) : bool := let n := nat_of_ascii c in if Nat.eqb n 45 then true else if Nat.leb 48 n then Nat.leb n 57 else false.
Fixpoint numerals (s : string) : bool := match s with "" => true | String c r => if numeral c then numerals r else false end.
Lemma uint_numerals d : numerals (NilZero.string_of_uint d) = true.
Proof.
  assert (forall d, numerals (NilEmpty.string_of_uint d) = true) as A by (induction d0; cbn; assumption || reflexivity).
  destruct d; [reflexivity|apply A..].
Qed.
Lemma decimal_numerals z : numerals (decimal z) = true.
Proof. unfold decimal. destruct (Z.to_int z) as [d|d]; cbn [NilZero.string_of_int]; [apply uint_numerals|]. cbn. apply uint_numerals. Qed.
Lemma decimal_inj a b : decimal a = decimal b -> a = b.
Proof.
  assert (forall z, Z.to_int z <> Decimal.Pos Decimal.Nil /\ Z.to_int z <> Decimal.Neg Decimal.Nil) as N.
  { intros [|p|p]; cbn; split; try discriminate; intros E; injection E; apply Unsigned.to_uint_nonnil. }
  unfold decimal. intros E. apply (f_equal NilZero.int_of_string) in E. destruct (N a), (N b). rewrite !NilZero.isi in E by assumption.
  apply DecimalZ.to_int_inj. congruence.
Qed.
Lemma numerals_end u : forall u' c s c' s', numerals u = true -> numerals u' = true -> numeral c = false -> numeral c' = false ->
  (u ++ String c s = u' ++ String c' s')%string -> u = u' /\ c = c' /\ s = s'.
Proof.
  induction u as [|a u IH]; intros [|a' u'] c s c' s' U U' C C' E; cbn [numerals append] in *.
  - split; [reflexivity|]. split; congruence.
  - exfalso. assert (c = a') as -> by congruence. rewrite C in U'. discriminate.
  - exfalso. assert (a = c') as -> by congruence. rewrite C' in U. discriminate.
  - destruct (numeral a); [|discriminate]. destruct (numeral a'); [|discriminate].
    destruct (IH u' c s c' s' U U' C C') as (-> & -> & ->); [congruence|]. split; [congruence|auto].
Qed.
Lemma next a b c s c' s' : (decimal a ++ String c s = decimal b ++ String c' s')%string -> numeral c = false -> numeral c' = false -> a = b /\ s = s'.
Proof.
  intros E C C'. destruct (numerals_end _ _ _ _ _ _ (decimal_numerals a) (decimal_numerals b) C C' E) as (E1 & _ & E2). split; [apply decimal_inj; exact E1|exact E2].
Qed.
Lemma head_inj c s s' : String c s = String c s' -> s = s'. Proof. congruence. Qed.
Ltac step E := cbn [append] in E; repeat apply head_inj in E.
Lemma title_inj a b : title a = title b -> a = b.
Proof. unfold title. intros E. step E. apply next in E as [E _]; [exact E|reflexivity|reflexivity]. Qed.
Lemma colour_inj i r g b i' r' g' b' : colour_line i r g b = colour_line i' r' g' b' -> i = i' /\ r = r' /\ g = g' /\ b = b'.
Proof.
  unfold colour_line. intros E. step E. apply next in E as [-> E]; try reflexivity. step E. apply next in E as [-> E]; try reflexivity.
  step E. apply next in E as [-> E]; try reflexivity. step E. apply next in E as [-> E]; try reflexivity. auto.
Qed.
Lemma bounds_inj a b c d e f a' b' c' d' e' f' : boundary_line a b c d e f = boundary_line a' b' c' d' e' f' ->
  a = a' /\ b = b' /\ c = c' /\ d = d' /\ e = e' /\ f = f'.
Proof.
  unfold boundary_line, range_text. rewrite !sapp_assoc. intros E.
  do 6 (step E; rewrite ?sapp_assoc in E; apply next in E as [-> E]; [|reflexivity|reflexivity]). repeat split.
Qed.
Lemma bounds_shape x0 x1 y0 y1 z0 z1 : boundary_line x0 x1 y0 y1 z0 z1 =
  ("Model boundaries: x in [" ++ decimal x0 ++ ", " ++ decimal x1 ++ "]; y in [" ++ decimal y0 ++ ", " ++ decimal y1 ++
   "]; z in [" ++ decimal z0 ++ ", " ++ decimal z1 ++ "]")%string.
Proof. unfold boundary_line, range_text. rewrite !sapp_assoc. reflexivity. Qed.

(** ** Lines *)
Lemma lines_cons a rest : one_line a -> lines (a ++ nl ++ rest) = a :: lines rest.
Proof.
  unfold lines. assert (forall a cur, one_line a -> lines_from cur (a ++ nl ++ rest) = (cur ++ a)%string :: lines_from "" rest) as G.
  { clear. induction a as [|c a IH]; intros cur O; [cbn; rewrite sapp_nil; reflexivity|]. destruct O as [N O]. cbn [lines_from append].
    destruct (Ascii.eqb_spec c newline) as [E|_]; [contradiction|]. rewrite (IH _ O), sapp_assoc. reflexivity. }
  intros O. exact (G a "" O).
Qed.
Lemma lines_join ls : Forall one_line ls -> lines (fold_right (fun line rest => line ++ nl ++ rest)%string "" ls) = (ls ++ [""])%list.
Proof. induction 1 as [|a ls O F IH]; [reflexivity|]. cbn [fold_right]. rewrite lines_cons by exact O. cbn [app]. f_equal. exact IH. Qed.
Lemma row_one w x z ys : one_line (row w x z ys).
Proof.
  unfold row. cbn [append one_line]. split; [discriminate|]. split; [discriminate|].
  induction ys as [|y ys IH]; [exact Logic.I|]. cbn [fold_right]. destruct (get_point w (I x) (I y) (I z)); cbn [append one_line]; split; (discriminate || exact IH).
Qed.
Ltac one := repeat first [apply one_decimal | apply one_app; split | (cbn [one_line]; split; [discriminate|]) | exact Logic.I].
Lemma layer_one w xs ys z : Forall one_line (layer w xs ys z).
Proof.
  unfold layer, title. rewrite !Forall_app. split; [|split].
  - repeat constructor; try discriminate. cbn [append]. one.
  - rewrite Forall_map, Forall_forall. intros x _. apply row_one.
  - repeat constructor. discriminate.
Qed.
Lemma colours_one l : forall i, Forall one_line (colour_lines i l).
Proof.
  induction l as [|[[[r g] b] a] l IH]; intros i; [constructor|]. cbn [colour_lines]. apply Forall_app. split; [|apply IH].
  destruct ((r =? 0) && (g =? 0) && (b =? 0)); constructor; [|constructor]. unfold colour_line. one.
Qed.
Lemma info_one name f : one_line name -> Forall one_line (info_lines name f).
Proof.
  intros O. unfold info_lines. rewrite !Forall_app. split; [|split].
  - constructor; [one; exact O|]. constructor; [unfold boundary_line, range_text; one|]. constructor; [one|constructor].
  - apply colours_one.
  - apply Forall_concat. rewrite Forall_map, Forall_forall. intros z _. apply layer_one.
Qed.
Lemma info_text_lines name f : one_line name -> lines (info_text name f) = (info_lines name f ++ [""])%list.
Proof. intros O. apply lines_join, info_one, O. Qed.

Lemma zrange_length a b : Z.of_nat (List.length (zrange a b)) = Z.max 0 (b - a).
Proof. unfold zrange. rewrite map_length, seq_length. lia. Qed.
(** ** Where titles are *)
Definition starts (c : ascii) (s : string) : bool := match s with String d _ => Ascii.eqb c d | "" => false end.
Lemma title_places w xs ys zs : forall i t, nth_error (List.concat (map (layer w xs ys) zs) ++ [""])%list i = Some t -> starts "="%char t = true ->
  exists l1 z l2, zs = (l1 ++ z :: l2)%list /\ i = List.length (List.concat (map (layer w xs ys) l1)) /\ t = title z.
Proof.
  induction zs as [|z zs IH]; intros i t E S.
  - destruct i as [|[|i]]; cbn in E; try discriminate. injection E as <-. discriminate.
  - cbn [map List.concat] in E. rewrite <- app_assoc in E. destruct (Nat.ltb_spec i (List.length (layer w xs ys z))) as [L|L].
    + rewrite nth_error_app1 in E by exact L. exists [], z, zs. split; [reflexivity|]. cbn [map List.concat List.length].
      unfold layer in E. destruct i as [|[|[|i]]]; cbn [app nth_error] in E; try (injection E as <-; discriminate); [split; congruence|].
      exfalso. apply nth_error_In in E. apply in_app_or in E as [E|E].
      * apply in_map_iff in E as (x & <- & _). discriminate.
      * destruct E as [<-|[]]. discriminate.
    + rewrite nth_error_app2 in E by exact L. destruct (IH _ _ E S) as (l1 & z' & l2 & -> & Ei & ->). exists (z :: l1), z', l2.
      split; [reflexivity|]. split; [|reflexivity]. cbn [map List.concat]. rewrite app_length. lia.
Qed.
Lemma colour_starts l : forall i t, In t (colour_lines i l) -> starts "C"%char t = true.
Proof.
  induction l as [|[[[r g] b] a] l IH]; intros i t; [intros []|]. cbn [colour_lines]. intros H. apply in_app_or in H as [H|H]; [|exact (IH _ _ H)].
  destruct ((r =? 0) && (g =? 0) && (b =? 0)); [destruct H|]. destruct H as [<-|[]]. reflexivity.
Qed.
Lemma colour_in l : forall i idx r g b, In (colour_line idx r g b) (colour_lines i l) <->
  exists k a, nth_error l k = Some (r, g, b, a) /\ idx = i + Z.of_nat k /\ ~ (r = 0 /\ g = 0 /\ b = 0).
Proof.
  induction l as [|[[[r0 g0] b0] a0] l IH]; intros i idx r g b.
  - split; [intros []|]. intros ([|k] & a & E & _); discriminate.
  - cbn [colour_lines]. rewrite in_app_iff, IH. split.
    + intros [H|(k & a & E & Ei & NB)].
      * destruct ((r0 =? 0) && (g0 =? 0) && (b0 =? 0)) eqn:Z0; [destruct H|]. destruct H as [H|[]]. apply colour_inj in H as (-> & -> & -> & ->).
        exists O, a0. split; [reflexivity|]. split; [lia|]. intros (-> & -> & ->). discriminate.
      * exists (S k), a. split; [exact E|]. split; [lia|exact NB].
    + intros ([|k] & a & E & Ei & NB).
      * cbn [nth_error] in E. assert (r0 = r /\ g0 = g /\ b0 = b) as (-> & -> & ->) by (split; [|split]; congruence). left.
        destruct ((r =? 0) && (g =? 0) && (b =? 0)) eqn:Z0; [exfalso; apply NB; lia|]. left. f_equal. lia.
      * right. exists k, a. split; [exact E|]. split; [lia|exact NB].
Qed.
Lemma get_row w x z ys : forall j, String.get (2 + j) (row w x z ys) =
  match nth_error ys j with Some y => Some (if get_point w (I x) (I y) (I z) then "#"%char else " "%char) | None => None end.
Proof.
  unfold row. cbn [append Nat.add String.get]. induction ys as [|y ys IH]; intros [|j]; try reflexivity; cbn [fold_right nth_error];
    destruct (get_point w (I x) (I y) (I z)); cbn [append String.get]; (reflexivity || apply IH).
Qed.

(** ** The world of the tool *)
Definition put (q : Z * Z * Z * Z) : @wop Z := let '(x, y, z, c) := q in SetPoint (I x) (I y) (I z) c.
Lemma info_world_run f : info_world f = wrun (map put (vf_voxels f)) (new_world 128).
Proof.
  unfold info_world, wrun. generalize (new_world 128 (A := Z)). induction (vf_voxels f) as [|[[[x y] z] c] l IH]; intros w; [reflexivity|].
  cbn [fold_left map]. rewrite IH. reflexivity.
Qed.
Lemma put_latest l x y z : (exists c, latest (map put l) (2 * x, 2 * y, 2 * z) = Some c) <-> exists c, In (x, y, z, c) l.
Proof.
  induction l as [|[[[a b] h] c0] l IH]; [split; [intros (c & E); discriminate|intros (c & [])]|]. cbn [map put latest op_pos op_val].
  destruct (pos_eqb (halves (I a), halves (I b), halves (I h)) (2 * x, 2 * y, 2 * z)) eqn:E.
  - apply pos_eqb_eq in E. assert (a = x /\ b = y /\ h = z) as (-> & -> & ->) by (cbn [halves] in E; assert (2 * a = 2 * x) by congruence; assert (2 * b = 2 * y) by congruence; assert (2 * h = 2 * z) by congruence; lia).
    split; [intros _; exists c0; left; reflexivity|intros _; exists c0; reflexivity].
  - rewrite IH. split; [intros (c & H); exists c; right; exact H|]. intros (c & [H|H]); [|exists c; exact H]. exfalso.
    assert (a = x /\ b = y /\ h = z) as (-> & -> & ->) by (split; [|split]; congruence).
    assert (pos_eqb (halves (I x), halves (I y), halves (I z)) (2 * x, 2 * y, 2 * z) = true) by (apply pos_eqb_eq; reflexivity). congruence.
Qed.
Lemma info_point f x y z : (if get_point (info_world f) (I x) (I y) (I z) then true else false) = true <-> exists c, In (x, y, z, c) (vf_voxels f).
Proof.
  rewrite info_world_run, world_history_lemma, <- map_rev. cbn [halves].
  assert ((exists c, In (x, y, z, c) (vf_voxels f)) <-> exists c, In (x, y, z, c) (rev (vf_voxels f))) as -> by (split; intros (c & H); exists c; [apply in_rev in H|apply in_rev]; assumption).
  rewrite <- put_latest. destruct (latest _ _) as [c|]; split; intros H; try discriminate; eauto. destruct H as (c & H). discriminate.
Qed.
Lemma int_half n : int_of n = halves n / 2. Proof. destruct n; cbn [int_of halves]; [Z.div_mod_to_equations; lia|reflexivity]. Qed.
Definition bounds_of (f : voxfile) (lo hi : num) (axis : Z * Z * Z -> Z) : Prop :=
  (int_of lo = 128 \/ In (int_of lo) (on_axis axis f)) /\ (int_of hi = 0 \/ In (int_of hi) (on_axis axis f)) /\
  int_of lo <= 128 /\ 0 <= int_of hi /\ forall c, In c (on_axis axis f) -> int_of lo <= c <= int_of hi.
Lemma axis_positions f (pr axis : Z * Z * Z -> Z) : (forall x y z, pr (2 * x, 2 * y, 2 * z) = 2 * axis (x, y, z)) ->
  map pr (set_positions (map put (vf_voxels f))) = map (Z.mul 2) (on_axis axis f).
Proof.
  intros P. unfold set_positions, on_axis. induction (vf_voxels f) as [|[[[x y] z] c] l IH]; [reflexivity|].
  cbn [map put filter op_val op_pos halves fst]. rewrite P. f_equal. exact IH.
Qed.
Lemma tight_bounds f lo hi axis : tight (halves lo, halves hi) (2 * 128) 0 (map (Z.mul 2) (on_axis axis f)) -> bounds_of f lo hi axis.
Proof.
  intros (A & B & C & D & E). cbn [fst snd] in *. unfold bounds_of. rewrite !int_half.
  assert (forall h, In h (map (Z.mul 2) (on_axis axis f)) -> In (h / 2) (on_axis axis f)) as Q.
  { intros h Hh. apply in_map_iff in Hh as (c & <- & Hc). replace (2 * c / 2) with c by (Z.div_mod_to_equations; lia). exact Hc. }
  split; [destruct A as [->|A]; [left; reflexivity|right; apply Q; exact A]|]. split; [destruct B as [->|B]; [left; reflexivity|right; apply Q; exact B]|].
  split; [Z.div_mod_to_equations; lia|]. split; [Z.div_mod_to_equations; lia|]. intros c Hc.
  specialize (E (2 * c) (in_map _ _ _ Hc)). Z.div_mod_to_equations; lia.
Qed.
Lemma info_bounds f : let w := info_world f in
  bounds_of f (w_xmin w) (w_xmax w) ax /\ bounds_of f (w_ymin w) (w_ymax w) ay /\ bounds_of f (w_zmin w) (w_zmax w) az.
Proof.
  cbv zeta. rewrite info_world_run. destruct (boundaries_lemma 128 (map put (vf_voxels f))) as (TX & TY & TZ).
  rewrite (axis_positions f p1 ax) in TX by reflexivity. rewrite (axis_positions f p2 ay) in TY by reflexivity. rewrite (axis_positions f p3 az) in TZ by reflexivity.
  split; [|split]; apply tight_bounds; assumption.
Qed.

(** ** What is printed *)
Lemma says_iff name f x0 x1 y0 y1 z0 z1 : one_line name -> says_bounds (info_text name f) x0 x1 y0 y1 z0 z1 <->
  let w := info_world f in x0 = int_of (w_xmin w) /\ x1 = int_of (w_xmax w) /\ y0 = int_of (w_ymin w) /\ y1 = int_of (w_ymax w) /\ z0 = int_of (w_zmin w) /\ z1 = int_of (w_zmax w).
Proof.
  intros O. unfold says_bounds. rewrite info_text_lines by exact O. cbv zeta. unfold info_lines. cbn [app nth_error]. rewrite <- bounds_shape. split.
  - intros E. assert (boundary_line x0 x1 y0 y1 z0 z1 = boundary_line (int_of (w_xmin (info_world f))) (int_of (w_xmax (info_world f)))
      (int_of (w_ymin (info_world f))) (int_of (w_ymax (info_world f))) (int_of (w_zmin (info_world f))) (int_of (w_zmax (info_world f)))) as Q by congruence.
    apply bounds_inj in Q. exact Q.
  - intros (-> & -> & -> & -> & -> & ->). reflexivity.
Qed.
Lemma row_of w xs ys z k : nth_error (layer w xs ys z) (3 + k) = match nth_error xs k with Some x => Some (row w x z ys) | None => nth_error ["+"] (k - List.length xs) end.
Proof.
  unfold layer. cbn [app Nat.add nth_error]. destruct (nth_error xs k) as [x|] eqn:E.
  - rewrite nth_error_app1 by (rewrite map_length; apply nth_error_Some; congruence). rewrite nth_error_map, E. reflexivity.
  - apply nth_error_None in E. rewrite nth_error_app2 by (rewrite map_length; exact E). rewrite map_length. reflexivity.
Qed.
Lemma zrange_at a b x : a <= x < b -> nth_error (zrange a b) (Z.to_nat (x - a)) = Some x.
Proof.
  intros Hx. destruct (nth_error (zrange a b) (Z.to_nat (x - a))) as [y|] eqn:E.
  - rewrite (zrange_nth _ _ _ _ E). f_equal. lia.
  - exfalso. apply nth_error_None in E. apply Nat2Z.inj_le in E. rewrite zrange_length in E. lia.
Qed.
Lemma marks_iff name f x y z : one_line name -> marks (info_text name f) x y z <-> exists c, In (x, y, z, c) (vf_voxels f).
Proof.
  intros O. rewrite <- info_point. pose proof (info_text_lines name f O) as TL. pose proof (info_bounds f) as B. cbv zeta in B.
  set (w := info_world f) in *. unfold info_lines in TL. fold w in TL. cbv zeta in TL.
  set (x0 := int_of (w_xmin w)) in *. set (x1 := int_of (w_xmax w)) in *. set (y0 := int_of (w_ymin w)) in *. set (y1 := int_of (w_ymax w)) in *.
  set (z0 := int_of (w_zmin w)) in *. set (z1 := int_of (w_zmax w)) in *. set (xs := zrange x0 (x1 + 1)) in *. set (ys := zrange y0 (y1 + 1)) in *.
  set (pre := ([("Model: " ++ name)%string; boundary_line x0 x1 y0 y1 z0 z1; "Pallette"] ++ colour_lines 0 (vf_palette f))%list).
  assert (lines (info_text name f) = (pre ++ List.concat (map (layer w xs ys) (zrange z0 (z1 + 1))) ++ [""])%list) as TL'.
  { rewrite TL. unfold pre. rewrite <- !app_assoc. reflexivity. }
  assert (forall l1 z' l2 k, zrange z0 (z1 + 1) = (l1 ++ z' :: l2)%list -> (k < List.length xs)%nat ->
    nth_error (lines (info_text name f)) (List.length pre + List.length (List.concat (map (layer w xs ys) l1)) + 3 + k) = nth_error (layer w xs ys z') (3 + k)) as ROW.
  { intros l1 z' l2 k Ez Hk. rewrite TL', Ez, map_app, concat_app. cbn [map List.concat]. rewrite nth_error_app2 by lia.
    rewrite <- app_assoc, nth_error_app2 by lia. rewrite <- app_assoc, nth_error_app1.
    - f_equal. lia.
    - unfold layer. rewrite !app_length, map_length. cbn [List.length]. lia. }
  assert (forall k, (k < List.length xs)%nat -> nth_error xs k = Some (x0 + Z.of_nat k)) as XS.
  { intros k Hk. destruct (nth_error xs k) as [v|] eqn:E; [rewrite (zrange_nth _ _ _ _ E); reflexivity|]. apply nth_error_None in E. lia. }
  split.
  - intros (x0' & x1' & y0' & y1' & z0' & z1' & i & line & SB & T & Hx & Hy & L & G).
    apply (says_iff name f _ _ _ _ _ _ O) in SB. cbv zeta in SB. fold w in SB. fold x0 x1 y0 y1 z0 z1 in SB. destruct SB as (-> & -> & -> & -> & -> & ->).
    assert (List.length pre <= i)%nat as LP.
    { destruct (Nat.leb_spec (List.length pre) i) as [H|H]; [exact H|]. exfalso. rewrite TL', nth_error_app1 in T by exact H. apply nth_error_In in T.
      unfold pre in T. apply in_app_or in T as [[T|[T|[T|[]]]]|T].
      - discriminate.
      - unfold boundary_line in T. discriminate.
      - discriminate.
      - apply colour_starts in T. discriminate. }
    pose proof T as T'. rewrite TL', nth_error_app2 in T' by exact LP. destruct (title_places _ _ _ _ _ _ T' eq_refl) as (l1 & z' & l2 & Ez & Ei & Et).
    assert (z' = z) as -> by (symmetry; apply title_inj; exact Et).
    assert (Z.to_nat (x - x0) < List.length xs)%nat as LK by (apply Nat2Z.inj_lt; unfold xs; rewrite zrange_length; lia).
    replace i with (List.length pre + List.length (List.concat (map (layer w xs ys) l1)))%nat in L by lia. rewrite (ROW l1 z l2 _ Ez LK), row_of, (XS _ LK) in L.
    replace (x0 + Z.of_nat (Z.to_nat (x - x0))) with x in L by lia. assert (line = row w x z ys) as -> by congruence.
    rewrite get_row in G. unfold ys in G. rewrite zrange_at in G by lia. destruct (get_point w (I x) (I y) (I z)); [reflexivity|discriminate].
  - intros G. assert (exists c, In (x, y, z, c) (vf_voxels f)) as (c & Hc) by (apply info_point; exact G).
    destruct B as (BX & BY & BZ). destruct BX as (_ & _ & _ & _ & BX). destruct BY as (_ & _ & _ & _ & BY). destruct BZ as (_ & _ & _ & _ & BZ).
    assert (x0 <= x <= x1) as Hx by (apply BX; unfold on_axis; apply in_map_iff; exists (x, y, z, c); auto).
    assert (y0 <= y <= y1) as Hy by (apply BY; unfold on_axis; apply in_map_iff; exists (x, y, z, c); auto).
    assert (z0 <= z <= z1) as Hz by (apply BZ; unfold on_axis; apply in_map_iff; exists (x, y, z, c); auto).
    assert (In z (zrange z0 (z1 + 1))) as Iz by (apply in_zrange; lia). apply in_split in Iz as (l1 & l2 & Ez).
    exists x0, x1, y0, y1, z0, z1, (List.length pre + List.length (List.concat (map (layer w xs ys) l1)))%nat, (row w x z ys).
    split; [apply says_iff; [exact O|]; cbv zeta; fold w; repeat split|]. split.
    { rewrite TL', Ez, map_app, concat_app. cbn [map List.concat]. rewrite nth_error_app2 by lia. rewrite <- app_assoc, nth_error_app2 by lia.
      match goal with |- nth_error _ ?k = _ => replace k with 0%nat by lia end. reflexivity. }
    split; [exact Hx|]. split; [exact Hy|].
    assert (Z.to_nat (x - x0) < List.length xs)%nat as LK by (apply Nat2Z.inj_lt; unfold xs; rewrite zrange_length; lia).
    split.
    + rewrite (ROW l1 z l2 _ Ez LK), row_of, (XS _ LK). replace (x0 + Z.of_nat (Z.to_nat (x - x0))) with x by lia. reflexivity.
    + rewrite get_row. unfold ys. rewrite zrange_at by lia. destruct (get_point w (I x) (I y) (I z)); [reflexivity|discriminate].
Qed.
Lemma layers_start w xs ys zs t : In t (List.concat (map (layer w xs ys) zs) ++ [""])%list -> starts "C"%char t = false.
Proof.
  intros H. apply in_app_or in H as [H|[<-|[]]]; [|reflexivity]. apply in_concat in H as (l & Hl & H). apply in_map_iff in Hl as (z & <- & _).
  unfold layer in H. apply in_app_or in H as [[<-|[<-|[<-|[]]]]|H]; try reflexivity. apply in_app_or in H as [H|[<-|[]]]; [|reflexivity].
  apply in_map_iff in H as (x & <- & _). reflexivity.
Qed.
Lemma colours_iff name f idx r g b : one_line name -> lists_colour (info_text name f) idx r g b <->
  0 <= idx /\ (exists a, nth_error (vf_palette f) (Z.to_nat idx) = Some (r, g, b, a)) /\ ~ (r = 0 /\ g = 0 /\ b = 0).
Proof.
  intros O. unfold lists_colour. fold (colour_line idx r g b). rewrite info_text_lines by exact O. unfold info_lines. cbv zeta. rewrite <- !app_assoc.
  assert (In (colour_line idx r g b) (colour_lines 0 (vf_palette f)) <-> 0 <= idx /\ (exists a, nth_error (vf_palette f) (Z.to_nat idx) = Some (r, g, b, a)) /\ ~ (r = 0 /\ g = 0 /\ b = 0)) as <-.
  { rewrite colour_in. split.
    - intros (k & a & E & -> & NB). split; [lia|]. split; [exists a; replace (Z.to_nat (0 + Z.of_nat k)) with k by lia; exact E|exact NB].
    - intros (H0 & (a & E) & NB). exists (Z.to_nat idx), a. split; [exact E|]. split; [lia|exact NB]. }
  rewrite !in_app_iff. split.
  - intros [[H|[H|[H|[]]]]|[H|H]]; [discriminate|unfold boundary_line in H; discriminate|discriminate|exact H|]. exfalso.
    rewrite <- in_app_iff in H. apply layers_start in H. discriminate.
  - intros H. right. left. exact H.
Qed.
Lemma bounds_told name f : one_line name -> vf_voxels f <> [] -> (forall x y z c, In (x, y, z, c) (vf_voxels f) -> 0 <= x < 256 /\ 0 <= y < 256 /\ 0 <= z < 256) ->
  exists x0 x1 y0 y1 z0 z1, says_bounds (info_text name f) x0 x1 y0 y1 z0 z1 /\
    greatest x1 (on_axis ax f) /\ greatest y1 (on_axis ay f) /\ greatest z1 (on_axis az f) /\
    ((exists c, In c (on_axis ax f) /\ c <= 128) -> least x0 (on_axis ax f)) /\ ((exists c, In c (on_axis ay f) /\ c <= 128) -> least y0 (on_axis ay f)) /\
    ((exists c, In c (on_axis az f) /\ c <= 128) -> least z0 (on_axis az f)) /\
    ((forall c, In c (on_axis ax f) -> 128 < c) -> x0 = 128) /\ ((forall c, In c (on_axis ay f) -> 128 < c) -> y0 = 128) /\ ((forall c, In c (on_axis az f) -> 128 < c) -> z0 = 128).
Proof.
  intros O NE BY. destruct (info_bounds f) as (BX & BY' & BZ). do 6 eexists. split; [apply says_iff; [exact O|]; cbv zeta; repeat split|].
  assert (forall axis lo hi, bounds_of f lo hi axis -> (forall c, In c (on_axis axis f) -> 0 <= c) -> greatest (int_of hi) (on_axis axis f)) as GR.
  { intros axis lo hi (_ & A & _ & B & C) P. split; [|intros c Hc; apply C in Hc; lia]. destruct A as [A|A]; [|exact A].
    destruct (vf_voxels f) as [|q l] eqn:E; [congruence|]. assert (In (axis (fst q)) (on_axis axis f)) as Hq by (unfold on_axis; rewrite E; left; reflexivity).
    specialize (C _ Hq). specialize (P _ Hq). replace (int_of hi) with (axis (fst q)) by lia. exact Hq. }
  assert (forall axis lo hi, bounds_of f lo hi axis -> (exists c, In c (on_axis axis f) /\ c <= 128) -> least (int_of lo) (on_axis axis f)) as LE.
  { intros axis lo hi (A & _ & B & _ & C) (c & Hc & Lc). split; [|intros d Hd; apply C in Hd; lia]. destruct A as [A|A]; [|exact A].
    specialize (C _ Hc). replace (int_of lo) with c by lia. exact Hc. }
  assert (forall axis lo hi, bounds_of f lo hi axis -> (forall c, In c (on_axis axis f) -> 128 < c) -> int_of lo = 128) as HI.
  { intros axis lo hi (A & _ & B & _ & C) P. destruct A as [A|A]; [exact A|]. apply P in A. lia. }
  assert ((forall c, In c (on_axis ax f) -> 0 <= c) /\ (forall c, In c (on_axis ay f) -> 0 <= c) /\ (forall c, In c (on_axis az f) -> 0 <= c)) as (PX & PY & PZ).
  { unfold on_axis. split; [|split]; intros c Hc; apply in_map_iff in Hc as ([[[x y] z] k] & <- & Hq); cbn [fst ax ay az]; specialize (BY x y z k Hq); lia. }
  split; [exact (GR _ _ _ BX PX)|]. split; [exact (GR _ _ _ BY' PY)|]. split; [exact (GR _ _ _ BZ PZ)|].
  split; [exact (LE _ _ _ BX)|]. split; [exact (LE _ _ _ BY')|]. split; [exact (LE _ _ _ BZ)|].
  split; [exact (HI _ _ _ BX)|]. split; [exact (HI _ _ _ BY')|exact (HI _ _ _ BZ)].
Qed.

(** ** Numbers that were read *)
Definition is_byte (z : Z) : Prop := 0 <= z < 256.
Definition yields {A} (p : P A) (Q : A -> Prop) : Prop := forall b a r, Forall is_byte b -> p b = Ok (a, r) -> Forall is_byte r /\ Q a.
Lemma yields_bind {A B} (p : P A) (k : A -> P B) (Q : A -> Prop) (R : B -> Prop) : yields p Q -> (forall a, Q a -> yields (k a) R) -> yields (pbind p k) R.
Proof.
  intros Hp Hk b c r F E. unfold pbind in E. destruct (p b) as [[a b']|] eqn:Ep; [|discriminate]. destruct (Hp b a b' F Ep) as [F' Qa]. exact (Hk a Qa b' c r F' E).
Qed.
Lemma yields_ret {A} (a : A) (Q : A -> Prop) : Q a -> yields (pret a) Q.
Proof. intros H b a' r F E. unfold pret in E. injection E as <- <-. auto. Qed.
Lemma yields_weak {A} (p : P A) (Q R : A -> Prop) : (forall a, Q a -> R a) -> yields p Q -> yields p R.
Proof. intros I0 H b a r F E. destruct (H b a r F E) as [H1 H2]. auto. Qed.
Lemma forall_split n (b : list Z) : Forall is_byte b -> Forall is_byte (firstn n b) /\ Forall is_byte (skipn n b).
Proof. intros F. rewrite <- (firstn_skipn n b) in F. apply Forall_app in F. exact F. Qed.
Lemma yields_take n : yields (k_take n) (Forall is_byte).
Proof. intros b a r F E. unfold k_take in E. destruct (Nat.ltb _ _); [discriminate|]. destruct (forall_split n b F). injection E as <- <-. auto. Qed.
Lemma take_length n b a r : k_take n b = Ok (a, r) -> List.length a = n.
Proof.
  unfold k_take. destruct (Nat.ltb_spec (List.length (firstn n b)) n) as [L|L]; [discriminate|]. intros E. injection E as <- <-.
  pose proof (firstn_le_length n b). lia.
Qed.
Lemma yields_u1 : yields k_u1 is_byte.
Proof.
  intros b a r F E. unfold k_u1, pbind, pret in E. destruct (k_take 1 b) as [[l b']|] eqn:T; [|discriminate]. destruct (yields_take 1 b l b' F T) as [F' FL].
  pose proof (take_length _ _ _ _ T) as L. assert (unle l = a /\ b' = r) as [<- <-] by (split; congruence). split; [exact F'|].
  destruct l as [|x [|y l]]; try discriminate. inversion FL; subst. cbn [unle]. unfold is_byte in *. lia.
Qed.
Lemma yields_u4 : yields k_u4 (fun _ => True).
Proof. unfold k_u4. eapply yields_bind; [apply yields_take|]. intros. apply yields_ret. exact Logic.I. Qed.
Lemma yields_fixed t : yields (k_fixed t) (fun _ => True).
Proof. intros b a r F E. unfold k_fixed in E. destruct (bytes_eqb _ _); [|discriminate]. assert (skipn 4 b = r) as <- by congruence. split; [|exact Logic.I]. exact (proj2 (forall_split 4 b F)). Qed.
Definition quad_bytes (q : Z * Z * Z * Z) : Prop := let '(a, b, c, d) := q in is_byte a /\ is_byte b /\ is_byte c /\ is_byte d.
Lemma yields_quad : yields k_quad quad_bytes.
Proof.
  unfold k_quad. eapply yields_bind; [apply yields_u1|]. intros a Ha. eapply yields_bind; [apply yields_u1|]. intros b Hb. eapply yields_bind; [apply yields_u1|]. intros c Hc.
  eapply yields_bind; [apply yields_u1|]. intros d Hd. apply yields_ret. cbn. auto.
Qed.
Lemma yields_repeat {A} (p : P A) Q n : yields p Q -> yields (p_repeat n p) (Forall Q).
Proof.
  intros H. induction n as [|n IH]; cbn [p_repeat]; [apply yields_ret; constructor|].
  eapply yields_bind; [exact H|]. intros a Ha. eapply yields_bind; [exact IH|]. intros l Hl. apply yields_ret. constructor; assumption.
Qed.
Lemma read_bytes n bs f : Forall is_byte bs -> vox_read n bs = Ok f -> Forall quad_bytes (vf_voxels f) /\ Forall quad_bytes (vf_palette f).
Proof.
  intros F E. unfold vox_read in E.
  match type of E with bind (?p bs) _ = _ => assert (yields p (fun f => Forall quad_bytes (vf_voxels f) /\ Forall quad_bytes (vf_palette f))) as Y; [|destruct (p bs) as [[f' r]|] eqn:Ep; [|discriminate]] end.
  2: { cbn [bind fst] in E. assert (f' = f) as -> by congruence. exact (proj2 (Y _ _ _ F Ep)). }
  repeat (eapply yields_bind; [first [apply yields_fixed | apply yields_u4 | apply yields_repeat; first [exact yields_quad | exact yields_u1]]|intros ? ?]).
  apply yields_ret. cbn [vf_voxels vf_palette]. auto.
Qed.
Lemma info_bytes bs f : Forall is_byte bs -> info_read bs = Ok f -> Forall quad_bytes (vf_voxels f) /\ Forall quad_bytes (vf_palette f).
Proof.
  intros F. unfold info_read. destruct (vox_read 256 bs) as [f'|] eqn:E; [intros Q; assert (f' = f) as -> by congruence; exact (read_bytes _ _ _ F E)|]. apply read_bytes. exact F.
Qed.

(** ** Assembly *)
Lemma picture_lemma name bs text : one_line name -> info_main name bs = Ok text -> exists f, info_read bs = Ok f /\
  (forall x y z, marks text x y z <-> exists c, In (x, y, z, c) (vf_voxels f)) /\
  forall idx r g b, lists_colour text idx r g b <-> 0 <= idx /\ (exists a, nth_error (vf_palette f) (Z.to_nat idx) = Some (r, g, b, a)) /\ ~ (r = 0 /\ g = 0 /\ b = 0).
Proof.
  intros O. unfold info_main. destruct (info_read bs) as [f|]; [|discriminate]. cbn [bind]. intros E. assert (text = info_text name f) as -> by congruence.
  exists f. split; [reflexivity|]. split; [intros x y z; apply marks_iff; exact O|intros idx r g b; apply colours_iff; exact O].
Qed.
Lemma bounds_lemma name bs text : one_line name -> Forall is_byte bs -> info_main name bs = Ok text -> exists f, info_read bs = Ok f /\ (vf_voxels f <> [] ->
  exists x0 x1 y0 y1 z0 z1, says_bounds text x0 x1 y0 y1 z0 z1 /\
    greatest x1 (on_axis ax f) /\ greatest y1 (on_axis ay f) /\ greatest z1 (on_axis az f) /\
    ((exists c, In c (on_axis ax f) /\ c <= 128) -> least x0 (on_axis ax f)) /\ ((exists c, In c (on_axis ay f) /\ c <= 128) -> least y0 (on_axis ay f)) /\
    ((exists c, In c (on_axis az f) /\ c <= 128) -> least z0 (on_axis az f)) /\
    ((forall c, In c (on_axis ax f) -> 128 < c) -> x0 = 128) /\ ((forall c, In c (on_axis ay f) -> 128 < c) -> y0 = 128) /\ ((forall c, In c (on_axis az f) -> 128 < c) -> z0 = 128)).
Proof.
  intros O F. unfold info_main. destruct (info_read bs) as [f|] eqn:R; [|discriminate]. cbn [bind]. intros E. assert (text = info_text name f) as -> by congruence.
  exists f. split; [reflexivity|]. intros NE. destruct (info_bytes bs f F R) as [FV _]. apply bounds_told; [exact O|exact NE|].
  intros x y z c Hc. rewrite Forall_forall in FV. specialize (FV _ Hc). unfold quad_bytes, is_byte in FV. tauto.
Qed.
Definition corner_file : list Z :=
  match vox_write (set_point (new_world 256) (I 200) (I 200) (I 130) [2; 2; 2; 2; 2; 2]) shift_atlas with Ok bs => bs | Err _ => [] end.
Definition one_voxel (r : res voxfile) : bool :=
  match r with Ok f => match vf_voxels f with [(x, y, z, c)] => (x =? 200) && (y =? 200) && (z =? 130) && (c =? 3) | _ => false end | Err _ => false end.
Lemma one_voxel_ok r : one_voxel r = true -> exists f, r = Ok f /\ vf_voxels f = [(200, 200, 130, 3)].
Proof.
  destruct r as [f|]; [|discriminate]. cbn [one_voxel]. intros X. exists f. split; [reflexivity|].
  destruct (vf_voxels f) as [|[[[x y] z] c] [|q l]]; try discriminate. rewrite !Bool.andb_true_iff, !Z.eqb_eq in X. destruct X as [[[-> ->] ->] ->]. reflexivity.
Qed.
Lemma corner_one : one_voxel (info_read corner_file) = true. Proof. vm_compute. reflexivity. Qed.
Lemma corner_bytes : forallb (fun b => (0 <=? b) && (b <? 256)) corner_file = true. Proof. vm_compute. reflexivity. Qed.
Lemma all_bytes l : forallb (fun b => (0 <=? b) && (b <? 256)) l = true -> Forall is_byte l.
Proof. intros Y. rewrite Forall_forall. rewrite forallb_forall in Y. intros b Hb. specialize (Y b Hb). unfold is_byte. lia. Qed.
Lemma corner_read : exists f, info_read corner_file = Ok f /\ vf_voxels f = [(200, 200, 130, 3)] /\ Forall is_byte corner_file.
Proof.
  destruct (one_voxel_ok _ corner_one) as (f & R & V). exists f. split; [exact R|]. split; [exact V|]. exact (all_bytes _ corner_bytes).
Qed.
Lemma bounds_false name : one_line name -> exists bs f text x1 y1 z1, Forall is_byte bs /\ info_read bs = Ok f /\ info_main name bs = Ok text /\
  vf_voxels f = [(200, 200, 130, 3)] /\ says_bounds text 128 x1 128 y1 128 z1.
Proof.
  intros O. destruct corner_read as (f & R & V & F). generalize dependent corner_file. intros corner R F. exists corner, f, (info_text name f).
  destruct (bounds_told name f O) as (x0 & x1 & y0 & y1 & z0 & z1 & SB & _ & _ & _ & _ & _ & _ & X & Y & Z0).
  - rewrite V. discriminate.
  - rewrite V. intros x y z c [E|[]]. assert (x = 200 /\ y = 200 /\ z = 130) as (-> & -> & ->) by (split; [|split]; congruence). lia.
  - exists x1, y1, z1. split; [exact F|]. split; [exact R|]. split; [unfold info_main; rewrite R; reflexivity|]. split; [exact V|].
    unfold on_axis in X, Y, Z0. rewrite V in X, Y, Z0. cbn [map fst ax ay az] in X, Y, Z0.
    rewrite X in SB by (intros c [<-|[]]; lia). rewrite Y in SB by (intros c [<-|[]]; lia). rewrite Z0 in SB by (intros c [<-|[]]; lia). exact SB.
Qed.
