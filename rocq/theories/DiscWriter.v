(** Proofs about the bytes that the map writer leaves when it raises. *)
From Verif Require Import Py VecModel CodecModel CodecSpec CodecProofs CodecParse CodecRead CodecMap DiscModel DiscSpec.
Local Open Scope Z_scope.

(** ** The two models of the writer agree *)
Definition tracks (o : out) (r : res (list Z)) : Prop :=
  match r with Ok b => o = (b, None) | Err x => snd o = Some x end.

Lemma tracks_put r : tracks (put_all r) r.
Proof. destruct r; reflexivity. Qed.
Lemma tracks_nothing : tracks nothing (Ok []).
Proof. reflexivity. Qed.
Lemma tracks_raises x : tracks (raises x) (Err x).
Proof. reflexivity. Qed.
Lemma tracks_seq a b ra rb : tracks a ra -> tracks b rb -> tracks (a >> b) (let! x := ra in let! y := rb in Ok (x ++ y)).
Proof.
  destruct a as [p [x|]], ra as [pa|xa]; cbn [tracks bind snd]; intros Ha Hb; try congruence.
  - cbn. congruence.
  - destruct b as [q x], rb as [pb|xb]; cbn [tracks bind snd andthen] in *; congruence.
Qed.
Lemma tracks_each {A} (w : A -> out) (r : A -> res (list Z)) l : (forall x, In x l -> tracks (w x) (r x)) -> tracks (each w l) (wcat r l).
Proof.
  induction l as [|x l IH]; intros Hl; [reflexivity|]. cbn [each].
  replace (wcat r (x :: l)) with (let! a := r x in let! b := wcat r l in Ok (a ++ b)).
  - apply tracks_seq; [apply Hl; left; reflexivity|apply IH; intros; apply Hl; right; assumption].
  - unfold wcat. cbn [mapM]. destruct (r x) as [a|]; [|reflexivity]. cbn [bind]. destruct (mapM r l); reflexivity.
Qed.
Ltac same_binds := repeat (match goal with |- context [bind ?r _] => lazymatch r with Ok _ => cbn [bind] | Err _ => cbn [bind] | bind _ _ => fail | _ => destruct r; cbn [bind] end end); try reflexivity; repeat rewrite <- app_assoc; try reflexivity.
Lemma tracks_as o r r' : tracks o r -> r = r' -> tracks o r'.
Proof. intros H <-. exact H. Qed.
Ltac track := first [apply tracks_put|apply tracks_nothing|apply tracks_raises|eapply tracks_seq; [track|track]|apply tracks_each; intros; track].

Lemma w_i32_err z x : w_i32 z = Err x -> x = StructError.
Proof. unfold w_i32. destruct (_ && _); congruence. Qed.
Lemma tracks_var e : tracks (s_var e) (w_var e).
Proof.
  destruct e as [name v]. unfold s_var, w_var. destruct v as [z|f|s|s]; try (eapply tracks_as; [track|]; same_binds; fail).
  eapply tracks_as; [track|].
  destruct (w_i32 (Z.of_nat (List.length name))) eqn:E1; cbn [bind]; [|reflexivity]. cbn.
  destruct (w_i32 (Z.of_nat (List.length s))) eqn:E2; cbn [bind]; [reflexivity|]. apply w_i32_err in E2. congruence.
Qed.
Lemma tracks_ent e : tracks (s_ent e) (w_ent e).
Proof.
  unfold s_ent, w_ent. destruct (negb _).
  - reflexivity.
  - eapply tracks_as; [track|]. same_binds.
Qed.
Lemma tracks_chg z : tracks (s_chg z) (w_chg z).
Proof.
  unfold s_chg, w_chg. destruct (z <? 0); eapply tracks_as; try track; same_binds. rewrite app_nil_r. reflexivity.
Qed.
Lemma tracks_surf ext mask i : tracks (s_surf ext mask i) (w_surf ext mask i).
Proof.
  unfold s_surf, w_surf. destruct (Z.testbit _ _); [|reflexivity]. destruct ext as [l|]; [|reflexivity].
  destruct (nth_error l i) as [[s|]|]; try reflexivity.
  destruct (s_verts s =? 0); eapply tracks_as; try track; same_binds. rewrite app_nil_r. reflexivity.
Qed.
Lemma tracks_tail c : tracks (s_tail c) (w_tail c).
Proof.
  assert (S : forall ext mask, tracks (each (s_surf ext mask) (seq 0 6)) (wcat (w_surf ext mask) (seq 0 6))).
  { intros. apply tracks_each. intros. apply tracks_surf. }
  unfold s_tail, w_tail. cbv zeta.
  destruct (Z.testbit (c_octsav c) 6), (Z.testbit (c_octsav c) 7), (Z.testbit (c_octsav c) 5);
    eapply tracks_as; try (repeat (first [apply S|eapply tracks_seq|apply tracks_put|apply tracks_nothing|apply tracks_each; intros; apply tracks_put])); same_binds;
    rewrite ?app_nil_r; reflexivity.
Qed.
Lemma s_cube_eq c : s_cube c =
  put_all (w_chr (c_octsav c)) >>
  let k := Z.land (c_octsav c) 7 in
  if k =? 0 then match c_children c with None => nothing | Some l => each s_cube l end
  else if (k =? 1) || (k =? 2) || (k =? 4) then s_tail c
  else if k =? 3 then put_all (w_edges (c_edges c)) >> s_tail c
  else raises (SystemExit 42).
Proof. destruct c. reflexivity. Qed.
Lemma tracks_cube c : tracks (s_cube c) (savec c).
Proof.
  induction c as [c IH] using cube_rect'. rewrite s_cube_eq, savec_eq. cbv zeta.
  destruct (Z.land (c_octsav c) 7 =? 0).
  - unfold kids in IH. destruct (c_children c) as [l|].
    + eapply tracks_as; [eapply tracks_seq; [apply tracks_put|apply tracks_each; rewrite Forall_forall in IH; exact IH]|].
      unfold wcat. same_binds.
    + eapply tracks_as; [track|]. same_binds. rewrite app_nil_r. reflexivity.
  - destruct (_ || _); [|destruct (_ =? 3)].
    + eapply tracks_as; [eapply tracks_seq; [apply tracks_put|apply tracks_tail]|]. same_binds.
    + eapply tracks_as; [eapply tracks_seq; [apply tracks_put|eapply tracks_seq; [apply tracks_put|apply tracks_tail]]|]. same_binds.
    + eapply tracks_as; [track|]. same_binds.
Qed.
Lemma tracks_map m : tracks (write_out m) (write_map m).
Proof.
  unfold write_out, write_map, savechildren. cbv zeta.
  eapply tracks_as.
  { repeat (eapply tracks_seq; [first [apply tracks_put|apply tracks_each; intros; first [apply tracks_put|apply tracks_var|apply tracks_ent|apply tracks_chg]]|]).
    apply tracks_each. intros. apply tracks_cube. }
  same_binds.
Qed.
