(** Lemmas about base maps. *)
From Coq Require Import String.
From Verif Require Import Py CodecModel CodecSpec CodecParse CodecProofs CodecRead CodecMap OutModel OutSpec OutProofs LightSpec UpmModel UpmSpec.
From Verif Require Import ShippedModel ShippedMaps BaseSpec.
Local Open Scope Z_scope.

(** ** What is read and can be written is well formed *)
Lemma rd_writable_cube c : forall size, rd_cube size c -> writable_cube c -> wf_cube size c.
Proof.
  induction c as [c IH] using cube_rect'. intros size R W.
  inversion R as [sz c0 l Ho Hk Hc Hl Hs Hall|sz c0 Ho Hk Hs (L1 & L2 & L3 & L4 & L5 & L6 & L7 & L8)]; subst.
  - inversion W as [c1 l1 Wo Wk Wc Wa|c1 Wo Wk Ws]; subst; [|lia].
    apply (wf_node_c size c l); auto.
    + unfold is_char, is_byte in *. lia.
    + rewrite Hc in Wc. injection Wc as <-. unfold kids in IH. rewrite Hc in IH.
      rewrite Forall_forall in *. intros x Hx. apply IH; auto.
  - inversion W as [c1 l1 Wo Wk Wc Wa|c1 Wo Wk Ws]; subst; [contradiction|].
    apply wf_leaf_c; auto.
    + unfold is_char, is_byte in *. lia.
    + unfold wf_leaf. split; [exact L3|]. split; [exact L1|]. split; [exact L2|]. split; [apply L4; lia|].
      intros F. destruct (Ws F) as [Wa Wb]. unfold is_char, is_byte in *. split; [lia|]. split; [lia|].
      apply L7; [lia|exact F].
Qed.
Lemma slots_fit_ok chg : forall n, slots_fit n chg -> Forall is_i32 chg -> Forall (fun c => c < 0) chg ->
  slots_ok n chg /\ slots_total chg = - fold_right Z.add 0 chg.
Proof.
  induction chg as [|c chg IH]; intros n S Fi Fn; cbn [slots_fit slots_ok slots_total fold_right] in *; [split; [exact S|lia]|].
  inversion Fi; inversion Fn; subst. destruct S as [P S]. replace (c <? 0) with true in * by (symmetry; apply Z.ltb_lt; lia).
  destruct (IH _ S) as [A B]; [assumption|assumption|]. split; [auto|]. lia.
Qed.
Lemma rd_writable_ent e : rd_ent e -> Forall (fun r => r < 128) (e_reserved e) -> wf_entity e.
Proof.
  intros ((X & Y & Z0 & C & P & W) & L & B & Ai & Li & Ll) R. unfold wf_entity.
  repeat (split; [assumption|]). split.
  { rewrite Forall_forall in *. intros a Ha. destruct (P a Ha) as (z & Hz). exists z. split; [exact Hz|].
    specialize (Ai a Ha). destruct Hz as [-> | ->]; exact Ai. }
  repeat (split; [assumption|]). rewrite Forall_forall in *. intros r Hr. specialize (B r Hr). specialize (R r Hr).
  unfold is_byte, is_char in *. lia.
Qed.
Lemma read_wf b m : Forall is_byte b -> read_map b = Ok m -> writable_map m -> counted m -> wf_map m.
Proof.
  intros Hb Hr (We & Wc & Ww) (Ce & Cv).
  destruct (read_rd b m Hb Hr) as (H1 & H2 & H3 & (h & ne & nv & G1 & G2 & G3 & G4 & G5 & G6 & G7 & G8) & K1 & K2 & K3 & K4 & K5 & K6 & K7 & K8).
  unfold field in Ce, Cv. rewrite G4 in Ce, Cv. cbn in Ce, Cv. injection Ce as ->. injection Cv as ->.
  destruct (slots_fit_ok _ _ G7 K7 Wc) as [S1 S2].
  unfold wf_map. repeat (split; [assumption|]). split.
  { exists h. repeat (split; [assumption|]). rewrite Forall_forall in *. intros c Hc. apply rd_writable_cube; auto. }
  split; [unfold is_i32 in G2; change (2 ^ 31) with 2147483648 in *; lia|].
  split; [unfold is_i32 in G3; change (2 ^ 31) with 2147483648 in *; lia|].
  repeat (split; [assumption|]).
  split; [rewrite Forall_forall in *; intros e He; apply rd_writable_ent; auto|].
  split; [lia|assumption].
Qed.

(** ** The empty maps *)
Definition check_map (f : list Z) (blend ents : Z) : bool :=
  if forallb (fun z => (0 <=? z) && (z <? 256)) (file_bytes f) then
    match read_rest (file_bytes f) with
    | Ok (m, []) =>
        match field m "worldsize", field m "numents", field m "numvars", field m "numpvs", field m "lightmaps", field m "blendmap" with
        | Some ws, Some ne, Some nv, Some np, Some lm, Some bm =>
            if (ws =? 1024) && (ne =? ents) && (len (m_ents m) =? ents) && (nv =? len (m_vars m)) && (np =? 0) && (lm =? 0) && (bm =? blend)
            then match write_map m with Ok bs => bytes_eqb bs (file_bytes f) | Err _ => false end
            else false
        | _, _, _, _, _, _ => false
        end
    | _ => false
    end
  else false.
Lemma check_day : check_map map_empty_day 1 0 = true. Proof. vm_compute. reflexivity. Qed.
Lemma check_night : check_map map_empty_night 0 0 = true. Proof. vm_compute. reflexivity. Qed.
Lemma check_2 : check_map map_empty2 1 1 = true. Proof. vm_compute. reflexivity. Qed.

Lemma check_map_ok f blend ents : check_map f blend ents = true ->
  exists m, (forall rest, read_rest (file_bytes f ++ rest)%list = Ok (m, rest)) /\ wf_map m /\ header_size m = Some 1024 /\
    len (m_ents m) = ents /\ field m "numpvs" = Some 0 /\ field m "lightmaps" = Some 0 /\ field m "blendmap" = Some blend /\
    write_map m = Ok (file_bytes f).
Proof.
  unfold check_map. destruct (forallb _ _) eqn:B; [|discriminate].
  destruct (read_rest (file_bytes f)) as [[m [|]]|] eqn:R; try discriminate.
  destruct (field m "worldsize") as [ws|] eqn:F1; [|discriminate]. destruct (field m "numents") as [ne|] eqn:F2; [|discriminate].
  destruct (field m "numvars") as [nv|] eqn:F3; [|discriminate]. destruct (field m "numpvs") as [np|] eqn:F4; [|discriminate].
  destruct (field m "lightmaps") as [lm|] eqn:F5; [|discriminate]. destruct (field m "blendmap") as [bm|] eqn:F6; [|discriminate].
  destruct (_ && _) eqn:C; [|discriminate]. rewrite !andb_true_iff, !Z.eqb_eq in C.
  destruct C as ((((((C1 & C2) & C3) & C4) & C5) & C6) & C7). subst.
  destruct (write_map m) as [bs|] eqn:W; [|discriminate]. intros E.
  apply bytes_eqb_spec in E. subst bs.
  assert (Forall is_byte (file_bytes f)) as FB.
  { rewrite forallb_forall in B. apply Forall_forall. intros z Hz. specialize (B z Hz). unfold is_byte. rewrite andb_true_iff, Z.leb_le, Z.ltb_lt in B. lia. }
  assert (read_map (file_bytes f) = Ok m) as RM by (unfold read_map; rewrite R; reflexivity).
  exists m. split.
  { intros rest. apply (read_trailing_lemma _ _ _ rest R). }
  split.
  { apply (read_wf (file_bytes f)); auto; [|split; assumption].
    apply (writable_lemma _ _ FB RM). eexists; exact W. }
  split; [exact F1|]. auto 10.
Qed.
Lemma empty_map_ok f : In f empty_maps ->
  exists m, (forall rest, read_rest (file_bytes f ++ rest)%list = Ok (m, rest)) /\ wf_map m /\ header_size m = Some 1024 /\
    0 <= len (m_ents m) <= 1 /\ write_map m = Ok (file_bytes f).
Proof.
  intros [<-|[<-|[<-|[]]]];
    [destruct (check_map_ok _ _ _ check_day) as (m & A & B & C & D & _ & _ & _ & E)
    |destruct (check_map_ok _ _ _ check_night) as (m & A & B & C & D & _ & _ & _ & E)
    |destruct (check_map_ok _ _ _ check_2) as (m & A & B & C & D & _ & _ & _ & E)];
    exists m; (split; [exact A|]); (split; [exact B|]); (split; [exact C|]); (split; [lia|exact E]).
Qed.
