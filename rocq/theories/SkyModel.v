(** Model of the skies (redeclipse/skybox/__init__.py) and of attaching one to a map
    (redeclipse/__init__.py:326-331).

    Simplifications.  The files of a directory are the list of their names; copying a file is adding
    its name.  The installation directory of the game can always be written to. *)
From Verif Require Import Py CodecModel OutModel JsonModel.
Local Open Scope Z_scope.
Local Open Scope string_scope.

(** skybox/__init__.py:6-11 — the endings of the images of a sky. *)
Definition back_ext := "_bk.jpg".
Definition down_ext := "_dn.jpg".
Definition front_ext := "_ft.jpg".
Definition left_ext := "_lf.jpg".
Definition right_ext := "_rt.jpg".
Definition up_ext := "_up.jpg".

(** skybox/__init__.py:27-35 — get_files. *)
Definition get_files (basename : string) : list string :=
  [basename ++ back_ext; basename ++ down_ext; basename ++ front_ext; basename ++ left_ext;
   basename ++ right_ext; basename ++ up_ext].

(** skybox/__init__.py:37-38 — get_short_path. *)
Definition get_short_path (basename : string) : string := "hxr/skybox/" ++ basename.

(** The images of the repository in redeclipse/skybox. *)
Definition sky_images : list string :=
  ["desert_bk.jpg"; "desert_dn.jpg"; "desert_ft.jpg"; "desert_lf.jpg"; "desert_rt.jpg"; "desert_up.jpg";
   "minecraft.jpg";
   "minecraft_bk.jpg"; "minecraft_dn.jpg"; "minecraft_ft.jpg"; "minecraft_lf.jpg"; "minecraft_rt.jpg";
   "minecraft_up.jpg"].

(** skybox/__init__.py:21-25 — the loop of __init__ over the images, from the names of the files next
    to the module and those below the directory of the game. *)
Fixpoint copy_images (module : list string) (fs : list string) (game : list string) : list string * option exn :=
  match fs with
  | [] => (game, None)
  | f :: r =>
      if existsb (String.eqb f) module
      then copy_images module r (game ++ [("data/hxr/skybox/" ++ f)%string])%list
      else (game, Some FileNotFoundError)
  end.
(** skybox/__init__.py:14-25 — __init__ of a class with the given basename. *)
Definition new_sky (module : list string) (basename : string) (game : list string) : list string * option exn :=
  copy_images module (get_files basename) game.

(** redeclipse/__init__.py:326-331 — skybox, with a sky of the given basename. *)
Definition attach_sky (m : rmap) (basename : string) : rmap :=
  apply_edit m (Skybox (codes (get_short_path basename))).
