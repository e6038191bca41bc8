(** Property theorems about the rainbow texture manager and about random (C108, C109).  Statements only;
    proofs are in RainbowProofs.v. *)
From Verif Require Import Py UpmModel TexModel TexSpec TexProofs CodecModel VoxFileModel RainbowModel RainbowSpec RainbowProofs.
Local Open Scope Z_scope.

(** C108: every colour or category asked for is answered with the number of one of 64 pure hues. *)
Theorem C108_answers : forall known l s c s', has_base known -> (forall n, c <> CallGet n) ->
  let m := fst (fst (rainbow_run (tm_init known) l s)) in
  exists k t, snd (fst (rainbow_call m c s')) = Ok k /\ In (k, t) (tm_atlas (fst (fst (rainbow_call m c s')))) /\
    rainbow_tex t.
Proof. exact rainbow_answer. Qed.
Print Assumptions C108_answers.
(** C108: apart from the named textures nothing but these 64 is ever in use. *)
Theorem C108_bounded : forall known l s, has_base known ->
  let m := fst (fst (rainbow_run (tm_init known) l s)) in
  (List.length (tm_atlas m) <= List.length known + 64)%nat /\
  forall k t, In (k, t) (tm_atlas m) -> rainbow_tex t \/ exists n, dget tname_eqb known n = Some t.
Proof. exact rainbow_atlas. Qed.
Print Assumptions C108_bounded.
(** C108: so whatever is drawn, the palette of a voxel file can be written and fits. *)
Theorem C108_palette : forall l s,
  let atlas := tm_atlas (fst (fst (rainbow_run (tm_init plain_known) l s))) in
  (List.length atlas <= 66)%nat /\ exists bs, wcat w_colour (map snd atlas) = Ok bs.
Proof. exact rainbow_palette. Qed.
Print Assumptions C108_palette.
(** C108: which colours and categories are asked for has no influence, only which calls are made. *)
Theorem C108_blind : forall m s l l', Forall2 alike l l' -> rainbow_run m l s = rainbow_run m l' s.
Proof. exact rainbow_blind. Qed.
Print Assumptions C108_blind.
(** C108: a category takes two random values, the first of which is not used. *)
Theorem C108_two_draws : forall m c r g b s,
  rainbow_call m (CallCategory c) s = rainbow_call m (CallColour r g b) (fun i => s (S i)).
Proof. exact category_skips. Qed.
Print Assumptions C108_two_draws.
(** C108: of the 65 random values two mean red (0 and 64), each other one a colour of its own. *)
Theorem C108_red_twice : forall s s',
  fst (random_colour s) = fst (random_colour s') <-> (s O mod 65) mod 64 = (s' O mod 65) mod 64.
Proof. exact same_colour. Qed.
Print Assumptions C108_red_twice.
Example C108_nonvacuous :
  has_base plain_known /\
  snd (fst (rainbow_run (tm_init plain_known)
     [CallColour (CInt 1) (CInt 1) (CInt 1); CallCategory "wall"; CallGet "none"; CallColour (CInt 1) (CInt 1) (CInt 1); CallCategory "wall"]
     (fun n => nth n [7; 8; 9; 64; 5; 65] 0))) = [Ok 2; Ok 3; Err KeyError; Ok 4; Ok 4] /\
  nth 1 hues (CInt 0, CInt 0, CInt 0) = (CFl (int_div 32 32), CFl (int_div 3 32), CFl (int_div 0 32)).
Proof. split; [exact plain_base|]. split; vm_compute; reflexivity. Qed.

(** C109: random() gives a texture in every manager.  Refuted: in all but the Minecraft one every call
    raises KeyError, and changes nothing. *)
Theorem C109_random_refuted : forall l s known,
  In known [discovered []; discovered dull; discovered paper; discovered primary] ->
  tm_random (asked (tm_init known) l) s = (asked (tm_init known) l, Err KeyError, fun i => s (S i)).
Proof. exact random_others. Qed.
Print Assumptions C109_random_refuted.
(** C109: in the Minecraft manager it always gives the number of one of the five names. *)
Theorem C109_minecraft_partial : forall l s,
  exists n k, In n five /\ snd (fst (tm_random (asked (tm_init (discovered minecraft)) l) s)) = Ok (Z.of_nat k) /\
    fst (fst (tm_random (asked (tm_init (discovered minecraft)) l) s)) = asked (tm_init (discovered minecraft)) (l ++ [RGet n]) /\
    nth_error (in_order (discovered minecraft) (l ++ [RGet n])) k = Some (Named n).
Proof. exact random_minecraft. Qed.
Print Assumptions C109_minecraft_partial.
Example C109_nonvacuous :
  snd (fst (tm_random (tm_init (discovered minecraft)) (fun _ => 3))) = Ok 2 /\
  In "dirt"%string five /\ in_order (discovered minecraft) [RGet "dirt"] = [Named "sky"; Named "default"; Named "dirt"].
Proof. split; [|split]; vm_compute; tauto. Qed.
