(** Model of redeclipse/textures/__init__.py, basetex.py and the theme files.

    Simplifications.  Colour components are Python ints or binary64 floats; a texture name
    built from a colour, 'c_%s_%s_%s', is represented by the three components (str of an int
    and of a float never coincide, never contain an underscore, and are injective; signed
    zeros are told apart).  The text of a component in the configuration is given by a
    function [show].  Copying texture files is in CopyModel.v.  RainbowPukeTextureManager is
    in RainbowModel.v. *)
From Coq Require Import SpecFloat Ascii DecimalString.
From Verif Require Import Py UpmModel KitModel.
Local Open Scope Z_scope.

(** ** Floats *)
(** [float(z)] and [a / b], [a * b] on floats (binary64, round to nearest even). *)
Definition fl_int (z : Z) : spec_float := binary_normalize 53 1024 z 0 false.
Definition fl_div : spec_float -> spec_float -> spec_float := SFdiv 53 1024.
Definition fl_mul : spec_float -> spec_float -> spec_float := SFmul 53 1024.
(** [a / b] on ints: correctly rounded (for |a|, |b| < 2^53 both convert exactly). *)
Definition int_div (a b : Z) : spec_float := fl_div (fl_int a) (fl_int b).
(** [int(f)]: OverflowError for an infinity, ValueError for a NaN. *)
Definition fl_trunc (f : spec_float) : res Z :=
  match f with
  | S754_zero _ => Ok 0
  | S754_infinity _ => Err OverflowError
  | S754_nan => Err ValueError
  | S754_finite s m e =>
      let v := if 0 <=? e then Zpos m * 2 ^ e else Zpos m / 2 ^ (- e) in Ok (if s then - v else v)
  end.
Definition fl_eqb (a b : spec_float) : bool :=
  match a, b with
  | S754_zero s, S754_zero s' | S754_infinity s, S754_infinity s' => Bool.eqb s s'
  | S754_nan, S754_nan => true
  | S754_finite s m e, S754_finite s' m' e' => Bool.eqb s s' && Pos.eqb m m' && (e =? e')
  | _, _ => false
  end.

(** A colour component. *)
Inductive comp := CInt (z : Z) | CFl (f : spec_float).
Definition comp_eqb (a b : comp) : bool :=
  match a, b with CInt x, CInt y => x =? y | CFl x, CFl y => fl_eqb x y | _, _ => false end.

(** A texture name. *)
Inductive tname := Named (s : string) | Coloured (r g b : comp).
Definition tname_eqb (a b : tname) : bool :=
  match a, b with
  | Named s, Named s' => String.eqb s s'
  | Coloured r g b, Coloured r' g' b' => comp_eqb r r' && comp_eqb g g' && comp_eqb b b'
  | _, _ => false
  end.

(** basetex.py — texture objects; text attributes are given as printed.  [cls] is what
    {0.__class__} prints. *)
Inductive tex :=
| Sky | Default
| Colour (cls : string) (r g b : comp)
| Simple (cls base c scale : string)
| Bump (cls scale base c n s : string) (texcolor : option string)
| Parallax (cls base c n s z : string) (specscale parallaxscale texcolor : option string)
| Glow (cls base c n s z g : string) (glowcolor specscale parallaxscale texcolor : option string).

(** ** The manager, textures/__init__.py:151-184 *)
Record texman := TM { tm_atlas : list (Z * tex); tm_backref : list (tname * Z); tm_texref : list (tname * tex) }.

(** Lines 168-170 (and 267-270): the insertion. *)
Definition insert (m : texman) (n : tname) (t : tex) : texman :=
  let pos := Z.of_nat (List.length (tm_atlas m)) in
  TM (dset Z.eqb (tm_atlas m) pos t) (dset tname_eqb (tm_backref m) n pos) (tm_texref m).
(** [self.atlas_backref[name]]. *)
Definition lookup (m : texman) (n : tname) : res Z :=
  match dget tname_eqb (tm_backref m) n with Some k => Ok k | None => Err KeyError end.
(** Lines 163-172 — get. *)
Definition get (m : texman) (n : tname) : texman * res Z :=
  if dmem tname_eqb (tm_backref m) n then (m, lookup m n)
  else match dget tname_eqb (tm_texref m) n with
       | None => (m, Err KeyError)
       | Some t => let m' := insert m n t in (m', lookup m' n)
       end.
(** Lines 255-271 — AutomatedMagicaTextureManager._get_colour. *)
Definition SIMPLE_COLOUR : string := "<class 'redeclipse.textures.basetex.SimpleColourTex'>".
Definition get_colour (m : texman) (r g b : comp) : texman * res Z :=
  let n := Coloured r g b in
  if dmem tname_eqb (tm_backref m) n then (m, lookup m n)
  else let t := Colour SIMPLE_COLOUR r g b in
       let m1 := TM (tm_atlas m) (tm_backref m) (dset tname_eqb (tm_texref m) n t) in
       let m' := insert m1 n t in (m', lookup m' n).

(** Lines 151-161 — __init__ of a manager whose discover_textures leaves the table [known]. *)
Definition tm_init (known : list (tname * tex)) : texman :=
  fst (get (fst (get (TM [] [] known) (Named "sky"))) (Named "default")).
(** Lines 159-161 with 238-244 — the table: 'sky', 'default', then the classes of the module. *)
Definition discovered (classes : list (string * tex)) : list (tname * tex) :=
  fold_left (fun d c => dset tname_eqb d (Named (fst c)) (snd c)) classes
    [(Named "sky", Sky); (Named "default", Default)].

(** A request. *)
Inductive request := RGet (s : string) | RColour (r g b : comp).
Definition ask (m : texman) (q : request) : texman * res Z :=
  match q with RGet s => get m (Named s) | RColour r g b => get_colour m r g b end.
(** The manager after a list of requests (a request that raises is caught by the caller). *)
Definition asked (m : texman) (l : list request) : texman := fold_left (fun m q => fst (ask m q)) l m.

(** ** Categories *)
(** Lines 273-286 — AutomatedMagicaTextureManager.get_c. *)
Definition tenths (k : Z) : comp := CFl (int_div k 10).
Definition auto_get_c (m : texman) (category : string) : texman * res Z :=
  if String.eqb category "generic" then get_colour m (CInt 0) (CInt 0) (CInt 0)
  else if String.eqb category "column" then get_colour m (tenths 5) (tenths 5) (tenths 5)
  else if String.eqb category "floor" then get_colour m (tenths 1) (tenths 1) (tenths 1)
  else if String.eqb category "wall" then get_colour m (tenths 9) (tenths 9) (tenths 9)
  else if String.eqb category "accent" then get_colour m (CInt 1) (CInt 0) (CInt 0)
  else get_colour m (CInt 0) (CInt 0) (CInt 1).

(** A theme module: the lists of material names. *)
Record theme := Theme {
  th_generic : list string; th_column : list string; th_floor : list string; th_wall : list string;
  th_accent : list string }.
(** [random.choice(l)]. *)
Definition choice (l : list string) (g : rng) : res string * rng :=
  match l with
  | [] => (Err IndexError, g)
  | a :: _ => let (d, g1) := draw g in (Ok (nth (Z.to_nat (d mod Z.of_nat (List.length l))) l a), g1)
  end.
(** What get_c returns: a number, or (last line) the name itself. *)
Inductive answer := Number (k : Z) | Text (s : string).
Definition pick (m : texman) (l : list string) (g : rng) : texman * res answer * rng :=
  match choice l g with
  | (Err e, g1) => (m, Err e, g1)
  | (Ok s, g1) => let (m', r) := get m (Named s) in (m', (let! k := r in Ok (Number k)), g1)
  end.
(** Lines 223-236 — ThemedTextureManager.get_c. *)
Definition themed_get_c (th : theme) (m : texman) (category : string) (g : rng) : texman * res answer * rng :=
  if String.eqb category "generic" then pick m (th_generic th) g
  else if String.eqb category "column" then pick m (th_column th) g
  else if String.eqb category "floor" then pick m (th_floor th) g
  else if String.eqb category "wall" then pick m (th_wall th) g
  else if String.eqb category "accent" then pick m (th_accent th) g
  else match choice (th_generic th) g with
       | (Err e, g1) => (m, Err e, g1)
       | (Ok s, g1) => (m, Ok (Text s), g1)
       end.

(** ** The configuration *)
Local Open Scope string_scope.
Definition nl : string := String (Ascii.ascii_of_nat 10) "".
Definition quote : string := String (Ascii.ascii_of_nat 34) "".
Definition decimal (z : Z) : string := NilZero.string_of_int (Z.to_int z).
(** [if x: conf += "<statement> %s" % x] with the given end of line. *)
Definition optional (before : string) (o : option string) (after : string) : string :=
  match o with Some s => before ++ s ++ after | None => "" end.
Definition texture_line (slot base file rest : string) : string :=
  "texture " ++ slot ++ " " ++ quote ++ base ++ "/" ++ file ++ quote ++ rest ++ nl.

(** basetex.py:20-185 — conf(idx=idx). *)
Definition conf (show : comp -> string) (idx : Z) (t : tex) : string :=
  match t with
  | Sky => nl ++ "setshader stdworld" ++ nl ++
      texture_line "c" "textures" "sky.png" " 0 0 0 1 // 0 <class 'redeclipse.textures.basetex.Sky'>"
  | Default => nl ++ "setshader stdworld" ++ nl ++
      texture_line "c" "textures" "default.png" " 0 0 0 1 // 1 <class 'redeclipse.textures.basetex.Default'>"
  | Colour cls r g b => nl ++ "setshader stdworld" ++ nl ++
      texture_line "c" "hxr/textures" "empty.png" (" 0 0 0 1 // " ++ decimal idx ++ " " ++ cls) ++
      "texcolor " ++ show r ++ " " ++ show g ++ " " ++ show b ++ nl
  | Simple cls base c scale => nl ++ "setshader stdworld" ++ nl ++
      texture_line "c" base c (" 0 0 0 " ++ scale ++ " // " ++ decimal idx ++ " " ++ cls)
  | Bump cls scale base c n s texcolor => "setshader bumpspecmapworld" ++ nl ++
      "setshaderparam specscale 0.500000 0.500000 0.500000 " ++ scale ++ nl ++
      texture_line "c" base c (" 0 0 0 0.500000 // " ++ decimal idx ++ " " ++ cls) ++
      texture_line "n" base n "" ++ texture_line "s" base s "" ++
      optional "texcolor " texcolor ""
  | Parallax cls base c n s z spec par texcolor => "setshader bumpspecmapparallaxworld" ++ nl ++
      optional "setshaderparam specscale " spec nl ++ optional "setshaderparam parallaxscale " par nl ++
      texture_line "c" base c (" 0 0 0 0.500000 // " ++ decimal idx ++ " " ++ cls) ++
      texture_line "n" base n "" ++ texture_line "s" base s "" ++ texture_line "z" base z "" ++
      optional "texcolor " texcolor (nl ++ nl)
  | Glow cls base c n s z g glow spec par texcolor => "setshader bumpspecmapparallaxglowworld" ++ nl ++
      optional "setshaderparam glowcolor " glow nl ++
      optional "setshaderparam specscale " spec nl ++ optional "setshaderparam parallaxscale " par nl ++
      texture_line "c" base c (" 0 0 0 0.500000 // " ++ decimal idx ++ " " ++ cls) ++
      texture_line "n" base n "" ++ texture_line "s" base s "" ++ texture_line "z" base z "" ++
      texture_line "g" base g "" ++ optional "texcolor " texcolor (nl ++ nl)
  end.

(** Lines 7-12 — the header. *)
Definition header (author map_name : string) : string :=
  nl ++ "// " ++ map_name ++ " by " ++ author ++ " (maps/base)" ++ nl ++
  "// Config generated by Red Eclipse Map Generator" ++ nl ++ nl ++
  "// Variables stored in map file, may be uncommented here, or changed from editmode." ++ nl.
(** Lines 179-184 — the text emit_conf writes; enumerate(self.atlas.items()). *)
Fixpoint confs (show : comp -> string) (idx : Z) (l : list (Z * tex)) : string :=
  match l with [] => "" | (_, t) :: l' => conf show idx t ++ confs show (idx + 1) l' end.
Definition emit_conf (show : comp -> string) (author map_name : string) (m : texman) : string :=
  header author map_name ++ confs show 0 (tm_atlas m).

(** Line 180 and cli/__init__.py:29 — [name.replace('.mpz', '.cfg')]. *)
Fixpoint cfg_name (s : string) : string :=
  match s with
  | "" => ""
  | String "." (String "m" (String "p" (String "z" r))) => ".cfg" ++ cfg_name r
  | String c r => String c (cfg_name r)
  end.

(** ** The shipped texture tables (class name in lower case, as in line 244) *)
Definition cls_of (module name : string) : string := "<class 'redeclipse.textures." ++ module ++ "." ++ name ++ "'>".
(** minecraft.py, 120 lines. *)
Definition minecraft_tex (name low : string) (file : string) : string * tex :=
  (low, Parallax (cls_of "minecraft" name) "hxr/textures" (file ++ ".png") (file ++ "_n.png") (file ++ "_s.png")
                 (file ++ "_z.png") None None None).
Definition minecraft : list (string * tex) :=
  [minecraft_tex "Admin" "admin" "admin"; minecraft_tex "Book" "book" "book"; minecraft_tex "Brick" "brick" "brick";
   ("bumpspecmapparallaxworld", Parallax (cls_of "basetex" "BumpSpecMapParallaxWorld") "hxr/textures" "None" "None" "None" "None" None None None);
   minecraft_tex "Coal" "coal" "coal"; minecraft_tex "Cobble" "cobble" "cobble"; minecraft_tex "Dirt" "dirt" "dirt";
   minecraft_tex "Gold" "gold" "gold"; minecraft_tex "Grass" "grass" "grass"; minecraft_tex "Gravel" "gravel" "gravel";
   minecraft_tex "Iron" "iron" "iron"; minecraft_tex "Machine" "machine" "machine"; minecraft_tex "Mossy" "mossy" "mossy";
   minecraft_tex "Obsidian" "obsidian" "obsidian"; minecraft_tex "Sand" "sand" "sand"; minecraft_tex "Stone" "stone" "stone";
   minecraft_tex "TreeSide" "treeside" "tree_side"; minecraft_tex "Wood" "wood" "wood"].
(** minecraft_theme.py. *)
Definition minecraft_theme : theme := Theme
  ["dirt"; "stone"; "grass"; "gravel"; "sand"] ["stone"; "wood"; "brick"; "treeside"]
  ["dirt"; "brick"; "wood"; "stone"; "sand"; "cobble"] ["wood"; "stone"; "brick"; "cobble"]
  ["gold"; "admin"; "machine"; "obsidian"; "book"; "coal"; "iron"; "mossy"].

(** paper.py; SimpleTex has no attribute scale, and is not used by the theme. *)
Definition paper_tex (name low file : string) : string * tex :=
  (low, Simple (cls_of "paper" name) "hxr/textures" file "0.25").
Definition paper : list (string * tex) :=
  [paper_tex "Paper1" "paper1" "paper1_s.png"; paper_tex "Paper2" "paper2" "paper2_s.png";
   paper_tex "Paper3" "paper3" "paper3_s.png"; paper_tex "Paper4" "paper4" "paper4_s.png";
   paper_tex "Paper5" "paper5" "paper5_s.png"; paper_tex "Paper7" "paper7" "paper7_s.png";
   paper_tex "PaperBase" "paperbase" "None"].
(** paper_theme.py. *)
Definition paper_theme : theme := Theme ["paper3"] ["paper2"] ["paper4"] ["paper1"] ["paper7"].

(** primary.py. *)
Definition primary_tex (name low : string) (r g b : comp) : string * tex := (low, Colour (cls_of "primary" name) r g b).
Definition primary : list (string * tex) :=
  [primary_tex "Black" "black" (tenths 1) (tenths 1) (tenths 1); primary_tex "Blue" "blue" (CInt 0) (CInt 0) (CInt 1);
   primary_tex "Cyan" "cyan" (CInt 0) (CInt 1) (CInt 1); primary_tex "DarkGray" "darkgray" (tenths 2) (tenths 2) (tenths 2);
   primary_tex "Gray" "gray" (tenths 5) (tenths 5) (tenths 5); primary_tex "Green" "green" (CInt 0) (CInt 1) (CInt 0);
   primary_tex "Magenta" "magenta" (CInt 1) (CInt 0) (CInt 1); primary_tex "Red" "red" (CInt 1) (CInt 0) (CInt 0);
   ("simplecolourtex", Colour SIMPLE_COLOUR (CInt 1) (CInt 0) (CInt 1));
   primary_tex "White" "white" (CInt 1) (CInt 1) (CInt 1); primary_tex "Yellow" "yellow" (CInt 1) (CInt 1) (CInt 0)].
(** primary_theme.py. *)
Definition primary_theme : theme := Theme ["gray"] ["white"] ["black"] ["gray"]
  ["red"; "green"; "blue"; "yellow"; "magenta"; "cyan"].

(** dull.py, in the order of dir(). *)
Definition dull : list (string * tex) :=
  [("defaultbumpspecmapparallaxglowworld", Glow (cls_of "basetex" "DefaultBumpSpecMapParallaxGlowWorld") "hxr/textures" "None" "None" "None" "None" "None" None None None None);
   ("defaultbumpspecmapparallaxworld", Parallax (cls_of "basetex" "DefaultBumpSpecMapParallaxWorld") "hxr/textures" "None" "None" "None" "None" None None None);
   ("defaultbumpspecmapworld", Bump (cls_of "basetex" "DefaultBumpSpecMapWorld") "2" "hxr/textures" "None" "None" "None" None);
   ("tex100", Parallax (cls_of "dull" "tex100") "jojo" "concrete10.png" "concrete10_n.png" "concrete10_s.png" "concrete10_z.png" (Some "3.0 3.0 3.0 0.0") (Some "0.002 0.002 0.002 0.0") None);
   ("tex101", Parallax (cls_of "dull" "tex101") "jojo" "concrete11.png" "concrete11_n.png" "concrete11_s.png" "concrete11_z.png" (Some "3.0 3.0 3.0 0.0") (Some "0.002 0.002 0.002 0.0") None);
   ("tex102", Parallax (cls_of "dull" "tex102") "jojo" "concrete12.png" "concrete12_n.png" "concrete12_s.png" "concrete12_z.png" (Some "3.0 3.0 3.0 0.0") (Some "0.002 0.002 0.002 0.0") None);
   ("tex103", Parallax (cls_of "dull" "tex103") "jojo" "concrete13.png" "concrete13_n.png" "concrete13_s.png" "concrete13_z.png" (Some "3.0 3.0 3.0 0.0") (Some "0.002 0.002 0.002 0.0") None);
   ("tex104", Parallax (cls_of "dull" "tex104") "jojo" "concrete02.png" "concrete02_n2.png" "concrete02_s.png" "concrete02_z.png" (Some "3.0 3.0 3.0 0.0") (Some "0.002 0.002 0.002 0.0") None);
   ("tex105", Parallax (cls_of "dull" "tex105") "jojo" "concrete03.png" "concrete03_n2.png" "concrete03_s.png" "concrete03_z.png" (Some "3.0 3.0 3.0 0.0") (Some "0.002 0.002 0.002 0.0") None);
   ("tex106", Parallax (cls_of "dull" "tex106") "jojo" "concrete04.png" "concrete04_n2.png" "concrete04_s.png" "concrete04_z.png" (Some "3.0 3.0 3.0 0.0") (Some "0.002 0.002 0.002 0.0") None);
   ("tex107", Parallax (cls_of "dull" "tex107") "jojo" "concrete05.png" "concrete05_n2.png" "concrete05_s.png" "concrete05_z.png" (Some "3.0 3.0 3.0 0.0") (Some "0.002 0.002 0.002 0.0") None);
   ("tex108", Parallax (cls_of "dull" "tex108") "jojo" "concrete06.png" "concrete06_n2.png" "concrete06_s.png" "concrete06_z.png" (Some "3.0 3.0 3.0 0.0") (Some "0.002 0.002 0.002 0.0") None);
   ("tex109", Parallax (cls_of "dull" "tex109") "jojo" "concrete07.png" "concrete07_n2.png" "concrete07_s.png" "concrete07_z.png" (Some "3.0 3.0 3.0 0.0") (Some "0.002 0.002 0.002 0.0") None);
   ("tex110", Parallax (cls_of "dull" "tex110") "jojo" "concrete08.png" "concrete08_n2.png" "concrete08_s.png" "concrete08_z.png" (Some "3.0 3.0 3.0 0.0") (Some "0.002 0.002 0.002 0.0") None);
   ("tex111", Parallax (cls_of "dull" "tex111") "jojo" "concrete09.png" "concrete09_n2.png" "concrete09_s.png" "concrete09_z.png" (Some "3.0 3.0 3.0 0.0") (Some "0.002 0.002 0.002 0.0") None);
   ("tex112", Parallax (cls_of "dull" "tex112") "jojo" "concrete10.png" "concrete10_n2.png" "concrete10_s.png" "concrete10_z.png" (Some "3.0 3.0 3.0 0.0") (Some "0.002 0.002 0.002 0.0") None);
   ("tex113", Parallax (cls_of "dull" "tex113") "jojo" "concrete11.png" "concrete11_n2.png" "concrete11_s.png" "concrete11_z.png" (Some "3.0 3.0 3.0 0.0") (Some "0.002 0.002 0.002 0.0") None);
   ("tex114", Parallax (cls_of "dull" "tex114") "jojo" "concrete12.png" "concrete12_n2.png" "concrete12_s.png" "concrete12_z.png" (Some "3.0 3.0 3.0 0.0") (Some "0.002 0.002 0.002 0.0") None);
   ("tex123", Glow (cls_of "dull" "tex123") "jojo" "concrete10.png" "concrete10_n.png" "concrete10_s.png" "concrete10_z.png" "concrete10_g.png" (Some "0.8 0.8 0.8 0") (Some "3 3 3 0") (Some "0.002 0.002 0.002 0") None);
   ("tex134", Glow (cls_of "dull" "tex134") "jojo" "concrete10.png" "concrete10_n2.png" "concrete10_s.png" "concrete10_z.png" "concrete10_g.png" (Some "0.8 0.8 0.8 0") (Some "3 3 3 0") (Some "0.002 0.002 0.002 0") None);
   ("tex161", Parallax (cls_of "dull" "tex161") "trak/trak4" "painted2.jpg" "painted2_nm.png" "painted2_s.jpg" "None" (Some "0.8 0.8 0.8 0.0") None None);
   ("tex162", Parallax (cls_of "dull" "tex162") "trak/trak4" "paint_blue.jpg" "paint_nm.png" "paint_s.jpg" "None" (Some "0.8 0.8 0.8 0.0") None None);
   ("tex163", Parallax (cls_of "dull" "tex163") "trak/trak4" "paint_dblue.jpg" "paint_nm.png" "paint_s.jpg" "None" (Some "0.8 0.8 0.8 0.0") None None);
   ("tex164", Parallax (cls_of "dull" "tex164") "trak/trak4" "paint_green.jpg" "paint_nm.png" "paint_s.jpg" "None" (Some "0.8 0.8 0.8 0.0") None None);
   ("tex165", Parallax (cls_of "dull" "tex165") "trak/trak4" "paint_pink.jpg" "paint_nm.png" "paint_s.jpg" "None" (Some "0.8 0.8 0.8 0.0") None None);
   ("tex166", Parallax (cls_of "dull" "tex166") "trak/trak4" "paint_purp.jpg" "paint_nm.png" "paint_s.jpg" "None" (Some "0.8 0.8 0.8 0.0") None None);
   ("tex167", Parallax (cls_of "dull" "tex167") "trak/trak4" "paint_red.jpg" "paint_nm.png" "paint_s.jpg" "None" (Some "0.8 0.8 0.8 0.0") None None);
   ("tex168", Parallax (cls_of "dull" "tex168") "trak/trak4" "paint_yellow.jpg" "paint_nm.png" "paint_s.jpg" "None" (Some "0.8 0.8 0.8 0.0") None None);
   ("tex169", Parallax (cls_of "dull" "tex169") "trak/trak4" "plaster1.jpg" "plaster1_nm.png" "plaster1_s.jpg" "None" (Some "0.8 0.8 0.8 0.0") None None);
   ("tex170", Parallax (cls_of "dull" "tex170") "trak/trak4" "plaster3-2.jpg" "plaster3_nm.png" "plaster3_s.jpg" "None" (Some "0.8 0.8 0.8 0.0") None None);
   ("tex171", Parallax (cls_of "dull" "tex171") "trak/trak4" "plaster3.jpg" "plaster3_nm.png" "plaster3_s.jpg" "None" (Some "0.8 0.8 0.8 0.0") None None);
   ("tex172", Parallax (cls_of "dull" "tex172") "trak/trak4" "plaster3a-2.jpg" "plaster3_nm.png" "plaster3_s.jpg" "None" (Some "0.8 0.8 0.8 0.0") None None);
   ("tex173", Parallax (cls_of "dull" "tex173") "trak/trak4" "plaster3a-3.jpg" "plaster3_nm.png" "plaster3a-3_s.jpg" "None" (Some "0.8 0.8 0.8 0.0") None None);
   ("tex174", Parallax (cls_of "dull" "tex174") "trak/trak4" "plaster3a.jpg" "plaster3_nm.png" "plaster3_s.jpg" "None" (Some "0.8 0.8 0.8 0.0") None None);
   ("tex175", Parallax (cls_of "dull" "tex175") "trak/trak4" "plaster3b-2.jpg" "plaster3_nm.png" "plaster3_s.jpg" "None" (Some "0.8 0.8 0.8 0.0") None None);
   ("tex176", Parallax (cls_of "dull" "tex176") "trak/trak4" "plaster3b.jpg" "plaster3_nm.png" "plaster3_s.jpg" "None" (Some "0.8 0.8 0.8 0.0") None None);
   ("tex177", Parallax (cls_of "dull" "tex177") "trak/trak4" "plaster3c-2.jpg" "plaster3_nm.png" "plaster3_s.jpg" "None" (Some "0.8 0.8 0.8 0.0") None None);
   ("tex178", Parallax (cls_of "dull" "tex178") "trak/trak4" "plaster3c-3.jpg" "plaster3_nm.png" "plaster3a-3_s.jpg" "None" (Some "0.8 0.8 0.8 0.0") None None);
   ("tex179", Parallax (cls_of "dull" "tex179") "trak/trak4" "plaster3c.jpg" "plaster3_nm.png" "plaster3_s.jpg" "None" (Some "0.8 0.8 0.8 0.0") None None);
   ("tex202", Parallax (cls_of "dull" "tex202") "trak/trak4" "wood1d.jpg" "wood1_nm.png" "wood1_s.jpg" "None" None None None);
   ("tex4", Bump (cls_of "dull" "tex4") "2" "trak/trak6" "tile3.jpg" "tile3_nm.png" "tile3_gloss.jpg" (Some "0.25 0.75 0.125"));
   ("tex418", Glow (cls_of "dull" "tex418") "philipk/pk01" "panel01a_d.png" "panel01_local.png" "panel01_s.png" "None" "panel01a_add.png" None (Some "0.5 0.5 0.5 0.0") None None);
   ("tex419", Glow (cls_of "dull" "tex419") "philipk/pk01" "panel01b_d.png" "panel01_local.png" "panel01_s.png" "None" "panel01b_add.png" None (Some "0.5 0.5 0.5 0.0") None None);
   ("tex420", Glow (cls_of "dull" "tex420") "philipk/pk01" "panel02_d.png" "panel02_local.png" "panel02_s.png" "None" "panel02_add.png" None (Some "0.5 0.5 0.5 0.0") None None);
   ("tex421", Glow (cls_of "dull" "tex421") "philipk/pk01" "panel03a_d.png" "panel03_local.png" "panel03_s.png" "None" "panel03a_add.png" None (Some "0.5 0.5 0.5 0.0") None None);
   ("tex422", Glow (cls_of "dull" "tex422") "philipk/pk01" "panel03b_d.png" "panel03_local.png" "panel03_s.png" "None" "panel03b_add.png" None (Some "0.5 0.5 0.5 0.0") None None);
   ("tex423", Glow (cls_of "dull" "tex423") "philipk/pk01" "panel_small01_d.png" "panel_small01_local.png" "panel_small01_s.png" "None" "panel_small01_add.png" None (Some "0.5 0.5 0.5 0.0") None None);
   ("tex5", Bump (cls_of "dull" "tex5") "2" "trak/trak6" "tile3.jpg" "tile3_nm.png" "tile3_gloss.jpg" (Some "0.125 0.25 0.75"));
   ("tex504", Bump (cls_of "dull" "tex504") "2" "philipk/pk02" "panels01a_c.png" "panels01a_n.png" "panels01a_s.png" None);
   ("tex505", Bump (cls_of "dull" "tex505") "2" "philipk/pk02" "panels01b_c.png" "panels01b_n.png" "panels01b_s.png" None);
   ("tex506", Bump (cls_of "dull" "tex506") "2" "philipk/pk02" "panels01c_c.png" "panels01c_n.png" "panels01c_s.png" None);
   ("tex582", Parallax (cls_of "dull" "tex582") "torley/desat" "someseemonsterseverywhere.png" "someseemonsterseverywhere_n.png" "someseemonsterseverywhere_s.png" "someseemonsterseverywhere_z.png" (Some "0.25 0.25 0.25 0") None None);
   ("tex6", Bump (cls_of "dull" "tex6") "2" "trak/trak6" "tile3.jpg" "tile3_nm.png" "tile3_gloss.jpg" (Some "0.75 0.75 0.25"));
   ("tex7", Bump (cls_of "dull" "tex7") "2" "trak/trak6" "tile3.jpg" "tile3_nm.png" "tile3_gloss.jpg" (Some "0.75 0.25 0.75"));
   ("tex9", Bump (cls_of "dull" "tex9") "2" "appleflap" "danger.jpg" "danger_nm.jpg" "danger_spec.jpg" None);
   ("tex92", Parallax (cls_of "dull" "tex92") "jojo" "concrete02.png" "concrete02_n.png" "concrete02_s.png" "concrete02_z.png" (Some "3.0 3.0 3.0 0.0") (Some "0.002 0.002 0.002 0.0") None);
   ("tex93", Parallax (cls_of "dull" "tex93") "jojo" "concrete03.png" "concrete03_n.png" "concrete03_s.png" "concrete03_z.png" (Some "3.0 3.0 3.0 0.0") (Some "0.002 0.002 0.002 0.0") None);
   ("tex94", Parallax (cls_of "dull" "tex94") "jojo" "concrete04.png" "concrete04_n.png" "concrete04_s.png" "concrete04_z.png" (Some "3.0 3.0 3.0 0.0") (Some "0.002 0.002 0.002 0.0") None);
   ("tex95", Parallax (cls_of "dull" "tex95") "jojo" "concrete05.png" "concrete05_n.png" "concrete05_s.png" "concrete05_z.png" (Some "3.0 3.0 3.0 0.0") (Some "0.002 0.002 0.002 0.0") None);
   ("tex96", Parallax (cls_of "dull" "tex96") "jojo" "concrete06.png" "concrete06_n.png" "concrete06_s.png" "concrete06_z.png" (Some "3.0 3.0 3.0 0.0") (Some "0.002 0.002 0.002 0.0") None);
   ("tex97", Parallax (cls_of "dull" "tex97") "jojo" "concrete07.png" "concrete07_n.png" "concrete07_s.png" "concrete07_z.png" (Some "3.0 3.0 3.0 0.0") (Some "0.002 0.002 0.002 0.0") None);
   ("tex98", Parallax (cls_of "dull" "tex98") "jojo" "concrete08.png" "concrete08_n.png" "concrete08_s.png" "concrete08_z.png" (Some "3.0 3.0 3.0 0.0") (Some "0.002 0.002 0.002 0.0") None);
   ("tex99", Parallax (cls_of "dull" "tex99") "jojo" "concrete09.png" "concrete09_n.png" "concrete09_s.png" "concrete09_z.png" (Some "3.0 3.0 3.0 0.0") (Some "0.002 0.002 0.002 0.0") None)].

(** dull_theme.py. *)
Definition texs (l : list Z) : list string := map (fun k => "tex" ++ decimal k) l.
Definition dull_theme : theme := Theme
  (texs (zrange 4 9))
  (texs (zrange 504 507 ++ zrange 161 180 ++ [134; 123])%list)
  (texs (zrange 4 8 ++ [9] ++ zrange 92 116 ++ zrange 504 505)%list)
  (texs ([4] ++ zrange 504 505)%list)
  (texs ([9; 202; 418; 419; 420; 421] ++ zrange 505 507)%list).
