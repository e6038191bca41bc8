(** Vocabulary for the configuration of a generated map. *)
From Coq Require Import Ascii.
From Verif Require Import Py UpmModel UpmSpec KitModel KitSpec RoomModel MagicaModel RoomSpec TexModel TexSpec VoxFileModel ShippedModel ShippedSpec GenModel GenSpec ConfModel.
Local Open Scope Z_scope.

(** The room means colour [c] for the voxel it puts at [xyz]. *)
Definition means_colour (r : room) (xyz : Z * Z * Z) (c : comp * comp * comp) : Prop :=
  exists s v q a red green blue alpha, In s shipped_rooms /\ s_class s = r_cls r /\ read_file (s_file s) = Ok v /\
    voxel_colour (vf_voxels v) q = Some a /\ frame (r_pos r) (facing (r_turn r)) q = xyz /\
    nth_error (vf_palette v) (Z.to_nat a) = Some (red, green, blue, alpha) /\ c = intended (s_paint s) (r_turn r) (red, green, blue).
Local Open Scope string_scope.
(** Slot [k] of the textures a text declares (slots are numbered by the statements that open one)
    is the plain texture tinted with the colour. *)
Definition slot_has_colour (show : comp -> string) (text : string) (k : Z) (c : comp * comp * comp) : Prop :=
  let '(r, g, b) := c in
  exists before rest after,
    statements text = (before ++ "setshader stdworld"%string :: ("texture c " ++ quote ++ "hxr/textures/empty.png" ++ quote ++ rest)%string ::
                       ("texcolor " ++ show r ++ " " ++ show g ++ " " ++ show b)%string :: after)%list /\
    Z.of_nat (List.length (filter opens_slot before)) = k.
(** A line that sets a variable: a name, a space, and digits. *)
Definition digit (c : ascii) : bool := let n := nat_of_ascii c in (Nat.leb 48 n && Nat.leb n 57)%bool.
Definition plain (c : ascii) : bool := negb (Ascii.eqb c " "%char) && negb (Ascii.eqb c newline).
Definition sets_variable (s : string) : Prop :=
  exists name value, s = name ++ " " ++ value /\ name <> "" /\ value <> "" /\
    forallb plain (list_ascii_of_string name) = true /\ forallb digit (list_ascii_of_string value) = true.
(** What each flavour is for: the variables it sets. *)
Definition flavour_sets (name : string) : list (string * string) :=
  if String.eqb name "space_station" then
    [("gravity", "0"); ("impulselimit", "120"); ("aircoast", "250"); ("impulsestyle", "3"); ("impulseregen", "1000"); ("impulsecount", "10")]
  else if String.eqb name "maliwan" then
    [("shotgunrays1", "40"); ("shotgunspread1", "25"); ("shotgunammoadd", "8"); ("shotgunammosub1", "4");
     ("shotguncolor", "16711680"); ("shotgunexplcol1", "16724787"); ("shotgunexplode1", "500")]
  else if String.eqb name "crushed_blacks" then [("ambient", "0")]
  else [].
Definition setting_lines (name : string) : list string := map (fun nv : string * string => fst nv ++ " " ++ snd nv) (flavour_sets name).
