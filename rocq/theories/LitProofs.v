(** Proofs about the colour of the lights of a generated map. *)
From Coq Require Import QArith Qabs.
From Verif Require Import Py VecModel VecSpec VoxelModel VoxelSpec CodecModel OutModel UpmModel RoomClasses KitModel RoomModel MagicaModel TexModel LightModel LightSpec LightProofs
  ShippedModel GenModel RoomEntModel DebugModel HueModel HueSpec HueExactProofs HueRoundProofs.
Local Open Scope Z_scope.

(** The colour of a light is the one the manager has for the place it stands at (four map units per
    voxel). *)
Definition lit (hue : vec -> Z * Z * Z) (e : entity) : Prop := e_type e = 1 -> exists q, stands e (fpos2 q) 2 /\ colour_of e (hue q).
Definition grows (hue : vec -> Z * Z * Z) (m m' : rmap) : Prop := exists es, m_ents m' = m_ents m ++ es /\ Forall (lit hue) es.
Lemma grows_refl hue m : grows hue m m.
Proof. exists []. rewrite app_nil_r. auto. Qed.
Lemma grows_trans hue a b c : grows hue a b -> grows hue b c -> grows hue a c.
Proof. intros (x & A & A') (y & B & B'). exists (x ++ y). rewrite B, A, app_assoc. split; [reflexivity|]. apply Forall_app. auto. Qed.
Lemma grows_add hue m e : lit hue e -> grows hue m (apply_edit m (AddEnt e)).
Proof. intros L. exists [e]. split; [reflexivity|auto]. Qed.
Lemma grows_light hue m v sf m' : light (LIGHTMAN hue) m v None true sf = Ok m' -> grows hue m m'.
Proof.
  intros E. unfold light in E. destruct (vadd v TILE_CENTER) as [p|]; [|discriminate E]. cbn [bind] in E. destruct (vadd p HALF_HEIGHT) as [q|]; [|discriminate E]. cbn [bind] in E.
  unfold get_light, ventity in E. cbn [lm_hue LIGHTMAN lm_exp] in E. destruct (vfine q) as [f|] eqn:F; [|discriminate E]. cbn [bind] in E.
  destruct (hue q) as [[r g] b] eqn:H. cbn [bind] in E.
  match type of E with Ok (apply_edit m (AddEnt ?e)) = _ => assert (m' = apply_edit m (AddEnt e)) as -> by congruence end. apply grows_add. intros _. exists q. rewrite H. split.
  - unfold vfine in F. unfold fpos2, coords2, stands. destruct q as [c x y z]. cbn [vc vx vy vz] in *. destruct c; [discriminate F| |].
    + assert (f = V Fine x y z) as -> by congruence. cbn [vmul vx vy vz e_x e_y e_z]. repeat split; apply (coord_shift 8).
    + assert (f = V Fine (nmulz x 8) (nmulz y 8) (nmulz z 8)) as -> by (unfold vmul in F; cbn [vx vy vz] in F; congruence). cbn [vmul vx vy vz e_x e_y e_z].
      rewrite <- ?halves_scale. repeat split; apply (coord_shift 8).
  - unfold colour_of. do 2 eexists. reflexivity.
Qed.
Lemma grows_other hue m (e : res entity) m' : (forall x, e = Ok x -> e_type x <> 1) -> add_entity m e = Ok m' -> grows hue m m'.
Proof.
  intros N E. destruct e as [x|]; [|discriminate E]. unfold add_entity in E. cbn [bind] in E. assert (m' = apply_edit m (AddEnt x)) as -> by congruence.
  apply grows_add. intros T. exfalso. exact (N x eq_refl T).
Qed.
Lemma spawn_type pos yaw x : spawn_entity pos yaw = Ok x -> e_type x <> 1.
Proof.
  unfold spawn_entity. destruct (vadd pos TILE_CENTER) as [a|]; [|discriminate]. cbn [bind]. destruct (vadd a (fine 0 0 1)) as [p|]; [|discriminate]. cbn [bind].
  unfold mk_playerspawn. intros E. assert (e_type x = 3) by (injection E as <-; reflexivity). lia.
Qed.
Lemma grows_extra hue pos orient x m g m' g' : run_extra (LIGHTMAN hue) pos orient x m g = (Ok m', g') -> grows hue m m'.
Proof.
  destruct x as [pl sf|off| | |off]; cbn [run_extra]; intros E.
  - destruct (place_vec pos orient pl) as [v|]; [|discriminate E]. cbn [bind] in E. apply (grows_light hue m v sf). congruence.
  - destruct (vadd pos TILE_CENTER) as [a|]; [|discriminate E]. cbn [bind] in E. destruct (vrotate off (DVec orient)) as [r|]; [|discriminate E]. cbn [bind] in E.
    destruct (vadd a r) as [p|]; [|discriminate E]. cbn [bind] in E. destruct (flag_team orient) as [t|]; [|discriminate E]. cbn [bind] in E.
    eapply grows_other; [|exact (f_equal fst E)]. unfold mk_teamflag. intros y. destruct (vfine p) as [f|]; [|discriminate]. cbn [bind]. intros Y. assert (e_type y = 14) by (injection Y as <-; reflexivity). lia.
  - eapply grows_other; [|exact (f_equal fst E)]. apply spawn_type.
  - destruct (draw g) as [d g1]. destruct (weapon_pos pos) as [wp|]; [|discriminate E]. cbn [bind] in E. destruct (d mod 3 =? 0).
    + destruct (rotate_yaw 90 orient) as [yaw|]; [|discriminate E]. cbn [bind] in E. eapply grows_other; [|exact (f_equal fst E)]. apply spawn_type.
    + eapply grows_other; [|exact (f_equal fst E)]. unfold mk_weapon. intros y Y. assert (e_type y = 9) by (injection Y as <-; reflexivity). lia.
  - destruct (vrotate off (DVec orient)) as [r|]; [|discriminate E]. cbn [bind] in E. destruct (vadd pos r) as [p|]; [|discriminate E]. cbn [bind] in E.
    destruct (rotate_yaw 0 orient) as [yaw|]; [|discriminate E]. cbn [bind] in E.
    eapply grows_other; [|exact (f_equal fst E)]. unfold mk_pusher. intros y. destruct (vfine p) as [f|]; [|discriminate]. cbn [bind]. intros Y. assert (e_type y = 13) by (injection Y as <-; reflexivity). lia.
Qed.
Lemma grows_extras hue pos orient l : forall m g m' g', run_extras (LIGHTMAN hue) pos orient l m g = (Ok m', g') -> grows hue m m'.
Proof.
  induction l as [|x l IH]; intros m g m' g' E; cbn [run_extras] in E.
  - assert (m' = m) as -> by congruence. apply grows_refl.
  - destruct (run_extra (LIGHTMAN hue) pos orient x m g) as [[m1|] g1] eqn:E1; [|discriminate E]. eapply grows_trans; [exact (grows_extra _ _ _ _ _ _ _ _ E1)|exact (IH _ _ _ _ E)].
Qed.
Lemma grows_any hue vecs ob tm w m g tm' w' m' g' : render_any hue vecs ob tm w m g = (tm', Ok (w', m'), g') -> grows hue m m'.
Proof.
  unfold render_any, render_room. destruct (shipped_of (r_cls (snd ob))) as [s|].
  - destruct (vecs ob) as [pos orient]. destruct (draw_room s pos orient tm w g) as [[tm1 [w1|]] g1]; [|discriminate].
    destruct (run_extras (LIGHTMAN hue) pos orient (s_extra s) m g1) as [[m1|] g2] eqn:E1; [|discriminate]. intros E. assert (m' = m1) as -> by congruence. exact (grows_extras _ _ _ _ _ _ _ _ E1).
  - destruct (rc_id (r_cls (snd ob)) =? rc_id TestRoom); [|discriminate]. destruct (vecs ob) as [pos orient]. unfold render_marker.
    destruct (auto_get_c tm "accent"%string) as [tm1 [k|]]; [|discriminate]. destruct (render render_TestRoom pos orient (r_flags (snd ob)) (fun _ => k) w g) as [[w1|] g1]; [|discriminate].
    destruct (run_fixtures (LIGHTMAN hue) pos orient (fixtures_TestRoom (r_flags (snd ob))) m) as [m1|] eqn:E1; [|discriminate]. intros E. assert (m' = m1) as -> by congruence. clear E.
    unfold run_fixtures, fixtures_TestRoom in E1. cbn [foldM run_fixture] in E1.
    destruct (spot_vec pos orient (Near [TILE_CENTER; ABOVE_FINE])) as [v|]; [|discriminate E1]. cbn [bind] in E1. cbn [mk_weapon add_entity bind] in E1.
    match type of E1 with Ok ?x = _ => assert (m1 = x) as -> by congruence end. apply grows_add. intros T. discriminate T.
Qed.
Lemma grows_all hue vecs obs : forall tm w m g tm' w' m' g', render_all hue vecs obs tm w m g = (tm', Ok (w', m'), g') -> grows hue m m'.
Proof.
  induction obs as [|ob r IH]; intros tm w m g tm' w' m' g' E; cbn [render_all] in E.
  - assert (m' = m) as -> by congruence. apply grows_refl.
  - destruct (render_any hue vecs ob tm w m g) as [[tm1 [[w1 m1]|]] g1] eqn:E1; [|discriminate E]. eapply grows_trans; [exact (grows_any _ _ _ _ _ _ _ _ _ _ _ E1)|exact (IH _ _ _ _ _ _ _ _ E)].
Qed.
Lemma generated_lit fuel e hue vecs tm size mirror debug ctf rooms m g tm' w m2 st g' :
  generate_any fuel e hue vecs tm size mirror debug ctf rooms m g = (tm', Ok (w, m2, st), g') -> grows hue m m2.
Proof.
  unfold generate_any. destruct (lay_out fuel e mirror debug ctf rooms g) as [[st1 [x|]] g1]; [discriminate|].
  destruct (add_entity m sunlight) as [m1|] eqn:S; [|discriminate]. destruct (render_all hue vecs (u_rooms st1) tm (new_world size) m1 g1) as [[tm1 [[w1 m3]|]] g2] eqn:E1; [|discriminate].
  intros E. assert (m2 = m3) as -> by congruence. eapply grows_trans; [|exact (grows_all _ _ _ _ _ _ _ _ _ _ _ E1)].
  apply (grows_other hue m sunlight); [|exact S]. intros y Y. unfold sunlight, mk_sunlight in Y. assert (e_type y = 8) by (injection Y as <-; reflexivity). lia.
Qed.
Lemma generated_place fuel e hue vecs tm size mirror debug ctf rooms m g tm' w m2 st g' :
  generate_any fuel e hue vecs tm size mirror debug ctf rooms m g = (tm', Ok (w, m2, st), g') ->
  exists es, m_ents m2 = m_ents m ++ es /\ forall x, In x es -> e_type x = 1 -> exists q, stands x (fpos2 q) 2 /\ colour_of x (hue q).
Proof.
  intros E. destruct (generated_lit _ _ _ _ _ _ _ _ _ _ _ _ _ _ _ _ _ E) as (es & A & F). exists es. split; [exact A|]. intros x Hx. exact (proj1 (Forall_forall _ _) F x Hx).
Qed.

(** What C123 says of a colour, before it is cut, for a place. *)
Definition noise_hue (rd : Q -> Q) (noise : Z -> Q -> Q -> Q -> Q) (scale brightness saturation : Q) (q : vec) (R G B : Q) : Prop :=
  let r := noise_rd rd noise scale q 10 in let g := noise_rd rd noise scale q 0 in let b := noise_rd rd noise scale q 43 in
  (~ (r = g /\ g = b) -> Qabs (R - channel (value_rd rd brightness) saturation (least r g b) (most r g b) r) <= 1 # 2147483648 /\
     Qabs (G - channel (value_rd rd brightness) saturation (least r g b) (most r g b) g) <= 1 # 2147483648 /\
     Qabs (B - channel (value_rd rd brightness) saturation (least r g b) (most r g b) b) <= 1 # 2147483648)%Q /\
  (r = g -> g = b -> (Qabs (R - value_rd rd brightness) <= 1 # 2147483648 /\
     Qabs (G - value_rd rd brightness * (1 - saturation)) <= 1 # 2147483648 /\ Qabs (B - value_rd rd brightness * (1 - saturation)) <= 1 # 2147483648)%Q).
Lemma generated_hue rd noise scale br s fuel e vecs tm size mirror debug ctf rooms m g tm' w m2 st g' :
  rounding rd -> close rd -> (0 <= br)%Q -> (0 <= s <= 1)%Q ->
  generate_any fuel e (position_hue rd noise scale br s) vecs tm size mirror debug ctf rooms m g = (tm', Ok (w, m2, st), g') ->
  exists es, m_ents m2 = m_ents m ++ es /\
  forall x, In x es -> e_type x = 1 -> exists q R G B, stands x (fpos2 q) 2 /\ colour_of x (cut R, cut G, cut B) /\ noise_hue rd noise scale br s q R G B.
Proof.
  intros RD CL Pb Ps E. destruct (generated_place _ _ _ _ _ _ _ _ _ _ _ _ _ _ _ _ _ E) as (es & A & F). exists es. split; [exact A|]. intros x Hx T.
  destruct (F x Hx T) as (q & St & C). exists q. unfold noise_hue. cbv zeta.
  destruct (Z.eq_dec (noise_rd rd noise scale q 10) (noise_rd rd noise scale q 0)) as [E1|E1]; [destruct (Z.eq_dec (noise_rd rd noise scale q 0) (noise_rd rd noise scale q 43)) as [E2|E2]|].
  - destruct (grey_rounded rd RD CL noise scale br s q Pb Ps E1 E2) as (R & G & B & P & N). rewrite P in C. exists R, G, B. split; [exact St|]. split; [exact C|]. split; [intros K; exfalso; apply K; split; assumption|intros _ _; exact N].
  - destruct (hue_rounded rd RD CL noise scale br s q _ _ _ Pb Ps eq_refl eq_refl eq_refl ltac:(intros [K1 K2]; contradiction)) as (R & G & B & P & N). rewrite P in C. exists R, G, B. split; [exact St|]. split; [exact C|]. split; [intros _; exact N|intros K1 K2; contradiction].
  - destruct (hue_rounded rd RD CL noise scale br s q _ _ _ Pb Ps eq_refl eq_refl eq_refl ltac:(intros [K1 K2]; contradiction)) as (R & G & B & P & N). rewrite P in C. exists R, G, B. split; [exact St|]. split; [exact C|]. split; [intros _; exact N|intros K1 K2; contradiction].
Qed.
