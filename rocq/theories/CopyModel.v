(** Model of the copying of texture files (textures/__init__.py:184-197, the [files] methods of
    basetex.py) and of the part of redeclipse/cli/__init__.py that writes a map.

    Simplifications.  The installation directory of the game can always be written to.  The text
    "None" stands for the value None, as in TexModel.v. *)
From Verif Require Import Py VoxelModel CodecModel OutModel TexModel ConfModel.
Local Open Scope Z_scope.
Local Open Scope string_scope.

(** The files of the repository below redeclipse/textures/data, relative to redeclipse/textures. *)
Definition texture_data : list string :=
  ["data/minecraft/admin.png"; "data/minecraft/admin_n.png"; "data/minecraft/admin_s.png";
   "data/minecraft/admin_z.png"; "data/minecraft/book.png"; "data/minecraft/book_n.png";
   "data/minecraft/book_s.png"; "data/minecraft/book_z.png"; "data/minecraft/brick.png";
   "data/minecraft/brick_n.png"; "data/minecraft/brick_s.png"; "data/minecraft/brick_z.png";
   "data/minecraft/coal.png"; "data/minecraft/coal_n.png"; "data/minecraft/coal_s.png";
   "data/minecraft/coal_z.png"; "data/minecraft/cobble.png"; "data/minecraft/cobble_n.png";
   "data/minecraft/cobble_s.png"; "data/minecraft/cobble_z.png"; "data/minecraft/dirt.png";
   "data/minecraft/dirt_n.png"; "data/minecraft/dirt_s.png"; "data/minecraft/dirt_side.png";
   "data/minecraft/dirt_side_n.png"; "data/minecraft/dirt_side_s.png"; "data/minecraft/dirt_side_z.png";
   "data/minecraft/dirt_z.png"; "data/minecraft/gold.png"; "data/minecraft/gold_n.png";
   "data/minecraft/gold_s.png"; "data/minecraft/gold_z.png"; "data/minecraft/grass.png";
   "data/minecraft/grass_n.png"; "data/minecraft/grass_s.png"; "data/minecraft/grass_z.png";
   "data/minecraft/gravel.png"; "data/minecraft/gravel_n.png"; "data/minecraft/gravel_s.png";
   "data/minecraft/gravel_z.png"; "data/minecraft/iron.png"; "data/minecraft/iron_n.png";
   "data/minecraft/iron_s.png"; "data/minecraft/iron_z.png"; "data/minecraft/machine.png";
   "data/minecraft/machine_n.png"; "data/minecraft/machine_s.png"; "data/minecraft/machine_z.png";
   "data/minecraft/mossy.png"; "data/minecraft/mossy_n.png"; "data/minecraft/mossy_s.png";
   "data/minecraft/mossy_z.png"; "data/minecraft/obsidian.png"; "data/minecraft/obsidian_n.png";
   "data/minecraft/obsidian_s.png"; "data/minecraft/obsidian_z.png"; "data/minecraft/sand.png";
   "data/minecraft/sand_n.png"; "data/minecraft/sand_s.png"; "data/minecraft/sand_z.png";
   "data/minecraft/stone.png"; "data/minecraft/stone_n.png"; "data/minecraft/stone_s.png";
   "data/minecraft/stone_z.png"; "data/minecraft/tree_side.png"; "data/minecraft/tree_side_n.png";
   "data/minecraft/tree_side_s.png"; "data/minecraft/tree_side_z.png"; "data/minecraft/tree_top.png";
   "data/minecraft/tree_top_n.png"; "data/minecraft/tree_top_s.png"; "data/minecraft/tree_top_z.png";
   "data/minecraft/wood.png"; "data/minecraft/wood_n.png"; "data/minecraft/wood_s.png";
   "data/minecraft/wood_z.png"; "data/paper/paper1_s.png"; "data/paper/paper2_s.png"; "data/paper/paper7_s.png"].

(** What a texture object declares: its [srcpath] and what [files()] yields; None for the empty list
    of basetex.py:17-18. *)
Definition declares : Type := tex -> option (string * list string).
(** basetex.py:47-62 — SimpleColourTex.  The classes of primary.py (and the ones made for a colour,
    textures/__init__.py:253-267) inherit both. *)
Definition colour_files : declares := fun t =>
  match t with Colour _ _ _ _ => Some ("data/hxr", ["empty.png"]) | _ => None end.
(** basetex.py:4-8, 135-141 — BumpSpecMapParallaxWorld, for the classes of minecraft.py. *)
Definition minecraft_files : declares := fun t =>
  match t with Parallax _ _ c n s z _ _ _ => Some ("data/minecraft", [c; n; s; z]) | _ => None end.
(** basetex.py:65-75 with paper.py:4-6. *)
Definition paper_files : declares := fun t =>
  match t with Simple _ _ c _ => Some ("data/paper", [c]) | _ => None end.
(** dull.py: all classes inherit [files] from BaseTex. *)
Definition dull_files : declares := fun _ => None.

(** textures/__init__.py:192-196 — the files of one texture: those copied, and the exception. *)
Fixpoint copy_files (tree : list string) (dir : string) (fs : list string) : list string * option exn :=
  match fs with
  | [] => ([], None)
  | f :: r =>
      if String.eqb f "None" then ([], Some TypeError)
      else if existsb (String.eqb (dir ++ "/" ++ f)) tree
      then let (c, x) := copy_files tree dir r in (f :: c, x)
      else ([], Some FileNotFoundError)
  end.
(** textures/__init__.py:188-197 — all textures of the atlas, in its order. *)
Fixpoint copy_all (tree : list string) (decl : declares) (ts : list tex) : list string * option exn :=
  match ts with
  | [] => ([], None)
  | t :: r =>
      match decl t with
      | None => copy_all tree decl r
      | Some (dir, fs) =>
          match copy_files tree dir fs with
          | (c, Some x) => (c, Some x)
          | (c, None) => let (c', x) := copy_all tree decl r in ((c ++ c')%list, x)
          end
      end
  end.
(** textures/__init__.py:184-197 — copy_data. *)
Definition copy_data (tree : list string) (decl : declares) (tm : texman) : list string * option exn :=
  copy_all tree decl (map snd (tm_atlas tm)).

(** cli/__init__.py:25-36 — the output of a map: the text in the configuration file, the texture files
    that were copied, and the bytes of the map file (an exception: none were written). *)
Definition output_mpz (show : comp -> string) (tree : list string) (decl : declares) (fuel : nat)
    (w : world (list Z)) (m : rmap) (tm : texman) (extra : list string) : string * list string * res (list Z) :=
  match copy_data tree decl tm with
  | (c, Some x) => (emit_conf show "Python" "test" tm, c, Err x)
  | (c, None) => (config_text show tm extra, c, output_map fuel w m)
  end.
