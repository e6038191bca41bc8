(** Proofs about the printed forms of vectors and rooms. *)
From Coq Require Import Ascii.
From Verif Require Import Py VecModel VecSpec VecProofs TexModel TexSpec TexProofs InfoProofs SeqModel SeqProofs TextModel.
Local Open Scope string_scope.
Local Open Scope Z_scope.

(** ** Where a piece of text ends *)
Fixpoint all_of (f : ascii -> bool) (s : string) : bool := match s with "" => true | String c r => f c && all_of f r end.
Lemma piece_end f u : forall u' c s c' s', all_of f u = true -> all_of f u' = true -> f c = false -> f c' = false ->
  u ++ String c s = u' ++ String c' s' -> u = u' /\ c = c' /\ s = s'.
Proof.
  induction u as [|a u IH]; intros [|a' u'] c s c' s' U U' C C' E; cbn [all_of append] in *.
  - split; [reflexivity|]. split; congruence.
  - exfalso. assert (c = a') as -> by congruence. rewrite C in U'. discriminate.
  - exfalso. assert (a = c') as -> by congruence. rewrite C' in U. discriminate.
  - apply Bool.andb_true_iff in U as [_ U]. apply Bool.andb_true_iff in U' as [_ U'].
    destruct (IH u' c s c' s' U U' C C') as (-> & -> & ->); [congruence|]. split; [congruence|auto].
Qed.
Lemma all_app f u w : all_of f (u ++ w) = all_of f u && all_of f w.
Proof. induction u as [|a u IH]; [reflexivity|]. cbn [append all_of]. rewrite IH. apply Bool.andb_assoc. Qed.
Lemma all_weaker (f g : ascii -> bool) u : (forall c, f c = true -> g c = true) -> all_of f u = true -> all_of g u = true.
Proof.
  intros W. induction u as [|a u IH]; [reflexivity|]. cbn [all_of]. rewrite !Bool.andb_true_iff. intros [Ha Hu]. auto.
Qed.
Lemma numerals_all u : numerals u = true -> all_of numeral u = true.
Proof. induction u as [|a u IH]; [reflexivity|]. cbn [numerals all_of]. destruct (numeral a); [exact IH|discriminate]. Qed.
Definition numeric (c : ascii) : bool := numeral c || Ascii.eqb c ".".
Lemma num_numeric n s : num_text n = Ok s -> all_of numeric s = true.
Proof.
  assert (forall z, all_of numeric (decimal z) = true) as D.
  { intros z. apply (all_weaker numeral); [intros c Hc; unfold numeric; rewrite Hc; reflexivity|]. apply numerals_all, decimal_numerals. }
  destruct n as [z|h]; cbn [num_text]; [intros E; assert (s = decimal z) as -> by congruence; apply D|].
  destruct (2 * 10 ^ 16 <=? Z.abs h); [discriminate|]. intros E. match type of E with Ok ?t = _ => assert (s = t) as -> by congruence end.
  rewrite !all_app, D. destruct (h <? 0), (Z.abs h mod 2 =? 0); reflexivity.
Qed.
(** ** Numbers *)
Lemma no_minus z s : 0 <= z -> decimal z <> String "-" s.
Proof.
  intros Hz. unfold decimal. assert (exists d, Z.to_int z = Decimal.Pos d) as [d ->] by (destruct z as [|p|p]; [eexists; reflexivity|eexists; reflexivity|lia]).
  cbn [DecimalString.NilZero.string_of_int]. destruct d; cbn; discriminate.
Qed.
Lemma sign_inj h h' : (if h <? 0 then "-" else "") ++ decimal (Z.abs h / 2) = (if h' <? 0 then "-" else "") ++ decimal (Z.abs h' / 2) ->
  (h <? 0) = (h' <? 0) /\ Z.abs h / 2 = Z.abs h' / 2.
Proof.
  assert (forall k, 0 <= Z.abs k / 2) as P by (intros k; apply Z.div_pos; lia).
  destruct (h <? 0), (h' <? 0); cbn [append]; intros E.
  - split; [reflexivity|]. apply decimal_inj. congruence.
  - exfalso. symmetry in E. exact (no_minus _ _ (P h') E).
  - exfalso. exact (no_minus _ _ (P h) E).
  - split; [reflexivity|]. apply decimal_inj. exact E.
Qed.
Lemma sign_numerals h : all_of numeral ((if h <? 0 then "-" else "") ++ decimal (Z.abs h / 2)) = true.
Proof. rewrite all_app, (numerals_all _ (decimal_numerals _)). destruct (h <? 0); reflexivity. Qed.
Lemma dotted u t z : all_of numeral u = true -> u ++ "." ++ t <> decimal z.
Proof.
  intros U E. pose proof (numerals_all _ (decimal_numerals z)) as D. rewrite <- E, !all_app in D. rewrite !Bool.andb_true_iff in D. destruct D as (_ & D & _). discriminate D.
Qed.
Lemma num_inj a b s : num_text a = Ok s -> num_text b = Ok s -> a = b.
Proof.
  destruct a as [z|h], b as [z'|h']; cbn [num_text].
  - intros E E'. f_equal. apply decimal_inj. congruence.
  - destruct (2 * 10 ^ 16 <=? Z.abs h'); [discriminate|]. intros E E'. exfalso. apply (dotted _ (if Z.abs h' mod 2 =? 0 then "0" else "5") z (sign_numerals h')).
    rewrite sapp_assoc. congruence.
  - destruct (2 * 10 ^ 16 <=? Z.abs h); [discriminate|]. intros E E'. exfalso. apply (dotted _ (if Z.abs h mod 2 =? 0 then "0" else "5") z' (sign_numerals h)).
    rewrite sapp_assoc. congruence.
  - destruct (2 * 10 ^ 16 <=? Z.abs h); [discriminate|]. destruct (2 * 10 ^ 16 <=? Z.abs h'); [discriminate|]. intros E E'.
    match type of E with Ok ?t = _ => match type of E' with Ok ?t' = _ => assert (t = t') as Q by congruence end end. clear E E'.
    rewrite <- !sapp_assoc in Q. rewrite !(sapp_assoc _ "." _) in Q. cbn [append] in Q.
    apply (piece_end numeral) in Q; [|apply sign_numerals|apply sign_numerals|reflexivity|reflexivity]. destruct Q as (Q1 & _ & Q2).
    apply sign_inj in Q1 as [S1 S2]. f_equal.
    assert (Z.abs h mod 2 = Z.abs h' mod 2) as S3.
    { pose proof (Z.mod_pos_bound (Z.abs h) 2 ltac:(lia)). pose proof (Z.mod_pos_bound (Z.abs h') 2 ltac:(lia)).
      destruct (Z.abs h mod 2 =? 0) eqn:A, (Z.abs h' mod 2 =? 0) eqn:B; try discriminate Q2; lia. }
    assert (Z.abs h = Z.abs h') as S4 by (pose proof (Z.div_mod (Z.abs h) 2 ltac:(lia)); pose proof (Z.div_mod (Z.abs h') 2 ltac:(lia)); lia).
    lia.
Qed.
Lemma num_next a b s s' t t' c c' : num_text a = Ok s -> num_text b = Ok s' -> numeric c = false -> numeric c' = false ->
  s ++ String c t = s' ++ String c' t' -> a = b /\ t = t'.
Proof.
  intros A B C C' E. destruct (piece_end numeric _ _ _ _ _ _ (num_numeric a s A) (num_numeric b s' B) C C' E) as (-> & _ & ->).
  split; [exact (num_inj a b s' A B)|reflexivity].
Qed.
(** ** Vectors *)
Definition opening (c : vcls) : string := match c with Base => "" | Fine => "FV(" | Coarse => "CV(" end.
Definition closing (c : vcls) : string := match c with Base => "" | _ => ")" end.
Lemma vec_shape v t : vec_text v = Ok t -> exists x y z, num_text (vx v) = Ok x /\ num_text (vy v) = Ok y /\ num_text (vz v) = Ok z /\
  t = opening (vc v) ++ "BV(" ++ x ++ ", " ++ y ++ ", " ++ z ++ ")" ++ closing (vc v).
Proof.
  unfold vec_text. destruct (num_text (vx v)) as [x|]; [|discriminate]. destruct (num_text (vy v)) as [y|]; [|discriminate]. destruct (num_text (vz v)) as [z|]; [|discriminate].
  cbn [bind]. intros E. exists x, y, z. repeat (split; [reflexivity|]).
  assert (forall a : string, a ++ "" = a) as N by (induction a as [|c a IH]; [reflexivity|cbn [append]; rewrite IH; reflexivity]).
  match type of E with Ok ?u = _ => assert (t = u) as -> by congruence end. destruct (vc v); cbn [opening closing append]; rewrite ?N, ?sapp_assoc; cbn [append]; rewrite ?sapp_assoc; cbn [append];
    rewrite ?sapp_assoc; reflexivity.
Qed.
Lemma body_inj v w x y z x' y' z' r r' : num_text (vx v) = Ok x -> num_text (vy v) = Ok y -> num_text (vz v) = Ok z ->
  num_text (vx w) = Ok x' -> num_text (vy w) = Ok y' -> num_text (vz w) = Ok z' ->
  "BV(" ++ x ++ ", " ++ y ++ ", " ++ z ++ ")" ++ r = "BV(" ++ x' ++ ", " ++ y' ++ ", " ++ z' ++ ")" ++ r' -> vx v = vx w /\ vy v = vy w /\ vz v = vz w /\ r = r'.
Proof.
  intros X Y Z0 X' Y' Z' E. step E. apply (num_next _ _ _ _ _ _ _ _ X X') in E as [E1 E]; [|reflexivity|reflexivity]. step E.
  apply (num_next _ _ _ _ _ _ _ _ Y Y') in E as [E2 E]; [|reflexivity|reflexivity]. step E.
  apply (num_next _ _ _ _ _ _ _ _ Z0 Z') in E as [E3 E]; [|reflexivity|reflexivity]. auto.
Qed.
Lemma vec_inj v w t r r' t' : vec_text v = Ok t -> vec_text w = Ok t' -> t ++ r = t' ++ r' -> vc v = vc w -> v = w /\ r = r'.
Proof.
  intros A B E C. apply vec_shape in A as (x & y & z & X & Y & Z0 & ->). apply vec_shape in B as (x' & y' & z' & X' & Y' & Z' & ->). rewrite <- C in E.
  assert (forall a u u' : string, a ++ u = a ++ u' -> u = u') as I by (induction a as [|k a IH]; cbn [append]; intros u u' Q; [exact Q|apply IH; congruence]).
  rewrite !(sapp_assoc (opening _)) in E. apply I in E.
  repeat (progress (rewrite ?sapp_assoc in E; cbn [append] in E)).
  pose proof (body_inj v w x y z x' y' z' _ _ X Y Z0 X' Y' Z' E) as Q. destruct Q as (E1 & E2 & E3 & E4). apply I in E4. split; [|exact E4].
  destruct v, w; cbn in *; congruence.
Qed.
Lemma vec_identified v w t : vec_text v = Ok t -> vec_text w = Ok t -> v = w.
Proof.
  intros A B. assert (vc v = vc w) as C.
  { apply vec_shape in A as (x & y & z & _ & _ & _ & A). apply vec_shape in B as (x' & y' & z' & _ & _ & _ & B). rewrite A in B.
    destruct (vc v), (vc w); try reflexivity; cbn [opening append] in B; discriminate B. }
  exact (proj1 (vec_inj v w t "" "" t A B eq_refl C)).
Qed.
(** ** Rooms *)
Definition colonless (s : string) : bool := all_of (fun c => negb (Ascii.eqb c ":")) s.
Lemma long_end (a e : string) : String.length (a ++ e) = (String.length a + String.length e)%nat.
Proof. induction a as [|x a IH]; [reflexivity|]. cbn [append String.length]. rewrite IH. reflexivity. Qed.
Lemma same_end e : forall a b : string, a ++ e = b ++ e -> a = b.
Proof.
  induction a as [|x a IH]; intros [|y b] Q; [reflexivity| | |].
  - apply (f_equal String.length) in Q. rewrite !long_end in Q. cbn [String.length] in Q. lia.
  - apply (f_equal String.length) in Q. rewrite !long_end in Q. cbn [String.length] in Q. lia.
  - cbn [append] in Q. f_equal; [congruence|]. apply IH. congruence.
Qed.
Lemma room_identified name name' o o' p p' t c c' : colonless name = true -> colonless name' = true -> points_to o c -> points_to o' c' -> vc p = vc p' ->
  room_text name o p = Ok t -> room_text name' o' p' = Ok t -> name = name' /\ c = c' /\ p = p'.
Proof.
  intros N N' O O' C. unfold room_text. destruct (vec_text p) as [q|] eqn:Q; [|discriminate]. destruct (vec_text p') as [q'|] eqn:Q'; [|discriminate]. cbn [bind].
  apply named in O. apply named in O'. rewrite O, O'. intros E E'.
  match type of E with Ok ?a = _ => match type of E' with Ok ?b = _ => assert (a = b) as R by congruence end end. clear E E'. step R.
  assert (forall nm d u, nm ++ String " " (String "f" (String "a" (String "c" (String "i" (String "n" (String "g" (String ":" (d ++ u))))))))
    = (nm ++ " facing") ++ String ":" (d ++ u)) as SH by (intros; rewrite sapp_assoc; reflexivity).
  rewrite !SH in R. assert (forall nm, colonless nm = true -> colonless (nm ++ " facing") = true) as F by (intros nm Hn; unfold colonless in *; rewrite all_app, Hn; reflexivity).
  apply (piece_end (fun k => negb (Ascii.eqb k ":"))) in R; [|apply F, N|apply F, N'|reflexivity|reflexivity]. destruct R as (R1 & _ & R2).
  split; [exact (same_end _ _ _ R1)|].
  assert (c = c' /\ q ++ ">" = q' ++ ">") as [-> R3] by (destruct c, c'; cbn [name_of append] in R2; try discriminate R2; split; try reflexivity; congruence).
  split; [reflexivity|]. exact (proj1 (vec_inj p p' q ">" ">" q' Q Q' R3 C)).
Qed.
(** ** What is printed *)
Definition printable (n : num) : Prop := match n with I _ => True | H h => Z.abs h < 2 * 10 ^ 16 end.
Lemma num_printed n : printable n <-> exists s, num_text n = Ok s.
Proof.
  destruct n as [z|h]; cbn [printable num_text]; [split; [eauto|auto]|].
  destruct (2 * 10 ^ 16 <=? Z.abs h) eqn:E; split; [lia|intros [s Q]; discriminate Q|eauto|lia].
Qed.
Lemma vec_printed v : printable (vx v) -> printable (vy v) -> printable (vz v) -> exists t, vec_text v = Ok t.
Proof.
  rewrite !num_printed. intros [x X] [y Y] [z Z0]. unfold vec_text. rewrite X, Y, Z0. eexists. reflexivity.
Qed.
Lemma whole_shape c x y z : vec_text (V c (I x) (I y) (I z)) =
  Ok (let b := "BV(" ++ decimal x ++ ", " ++ decimal y ++ ", " ++ decimal z ++ ")" in match c with Base => b | Fine => "FV(" ++ b ++ ")" | Coarse => "CV(" ++ b ++ ")" end).
Proof. destruct c; reflexivity. Qed.
Lemma equal_differ : exists v w t u, veq v w = true /\ vec_text v = Ok t /\ vec_text w = Ok u /\ t <> u.
Proof.
  exists (V Fine (I 3) (I 0) (I 0)), (V Fine (H 6) (I 0) (I 0)). eexists. eexists. split; [reflexivity|]. split; [reflexivity|]. split; [reflexivity|]. vm_compute. discriminate.
Qed.
