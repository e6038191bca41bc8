(** Concrete histories used as examples and counterexamples. *)
From Coq Require Import QArith.
From Verif Require Import Py UpmModel UpmSpec RoomClasses.
Local Open Scope Z_scope.

Definition e0 : env := E (fun a b => if String.eqb a b then Some (1 # 2)%Q else None) (fun q => q).
Lemma e0_good : good_env e0.
Proof.
  split; [|intros q H; exact H]. intros a b p. cbn. destruct (String.eqb a b); [|discriminate].
  intros E. injection E as <-. reflexivity.
Qed.
Definition g0 : rng := fun i => Z.of_nat i * 7919 + 13.
Definition start4 : room := mk_room Corridor4way (10, 10, 5) T0 None.
(** A start room and nine requested rooms around it. *)
Definition opts0 : list rclass := [Corridor2way; Corridor4way; Stair].
Definition ops0 : list uop := [ORegister start4; OPlace 60 e0 opts0 9 g0].
Definition st0 : upm := urun_any ops0 (upm_init (Some 2) false).
(** The same with endcaps at the end. *)
Definition ops1 : list uop := ops0 ++ [OEndcap false [TestRoom; Corridor2way] g0].
Definition st1 : upm := urun_any ops1 (upm_init (Some 2) false).

(** A corridor is placed with the default length and built with another one. *)
Definition startC : room := mk_room Corridor2way (16, 16, 5) T0 None.
Definition opsN : list uop :=
  [ORegister startC; OPlace 9 e0 [NLongCorridor] 1 (fun i => Z.of_nat i * 0)].
Definition stN : upm := urun_any opsN (upm_init (Some 1) false).

(** A tall room at the highest legal level. *)
Definition opsA : list uop :=
  [ORegister (mk_room Corridor4way (16, 16, 32) T0 None); OPlace 9 e0 [AltarRoom] 1 g0].
Definition stA : upm := urun_any opsA (upm_init (Some 1) false).

(** Doors given up at the edge of the map. *)
Definition opsG : list uop :=
  [ORegister (mk_room Corridor4way (1, 1, 5) T0 None); OPlace 30 e0 [PlusPlatform] 9 g0].
Definition stG : upm := urun_any opsG (upm_init (Some 1) false).

(** Two corridors with an empty cell between them. *)
Definition opsD : list uop :=
  [ORegister (mk_room Corridor2way (5, 5, 5) T0 None); ORegister (mk_room Corridor2way (7, 5, 5) T0 None)].
Definition stD : upm := urun_any opsD (upm_init (Some 1) false).

(** Number of rooms, open doors and discarded doors. *)
Definition sizes (st : upm) : nat * nat * nat :=
  (List.length (u_rooms st), List.length (u_open st), List.length (u_gone st)).
