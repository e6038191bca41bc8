(** Model of the map file reader and writer: redeclipse/__init__.py, and the cube
    and entity objects it uses (redeclipse/objects.py, redeclipse/entities/). The
    file is the decompressed byte string; gzip itself is not modelled. *)
From Verif Require Import Py VecModel.

(** ** Floats as stored in the file *)

(** A Python float that came from, or goes to, a binary32 field:
    (-1)^neg * man * 2^exp, an infinity, or a NaN with its binary32 bit pattern. *)
Inductive pfloat := PF (neg : bool) (man : Z) (exp : Z) | PInf (neg : bool) | PNaN (bits : Z).

(** [struct.unpack('f', ...)] on the 32-bit pattern (IEEE 754 binary32). A
    signalling NaN is quietened by the conversion to binary64. *)
Definition f32_decode (b : Z) : pfloat :=
  let s := b / 2 ^ 31 =? 1 in
  let x := (b / 2 ^ 23) mod 256 in
  let f := b mod 2 ^ 23 in
  if x =? 255 then if f =? 0 then PInf s else PNaN (Z.lor b (2 ^ 22))
  else if x =? 0 then PF s f (-149) else PF s (2 ^ 23 + f) (x - 150).

(** Round m / 2^k to the nearest integer, ties to even (k >= 0). *)
Definition rne (m k : Z) : Z :=
  let q := m / 2 ^ k in
  let r := m mod 2 ^ k in
  if 2 * r <? 2 ^ k then q
  else if 2 ^ k <? 2 * r then q + 1
  else if Z.even q then q else q + 1.

(** [struct.pack('f', x)]: round to nearest even binary32; OverflowError when a
    finite value does not fit. *)
Definition f32_encode (v : pfloat) : res Z :=
  match v with
  | PInf s => Ok ((if s then 2 ^ 31 else 0) + 255 * 2 ^ 23)
  | PNaN b => Ok b
  | PF s m e =>
      let sb := if s then 2 ^ 31 else 0 in
      if m =? 0 then Ok sb
      else
        let q := Z.max (e + Z.log2 m - 23) (-149) in
        let M := if q <=? e then m * 2 ^ (e - q) else rne m (q - e) in
        let '(M', q') := if M =? 2 ^ 24 then (2 ^ 23, q + 1) else (M, q) in
        if 104 <? q' then Err OverflowError
        else if M' <? 2 ^ 23 then Ok (sb + M') else Ok (sb + (q' + 150) * 2 ^ 23 + (M' - 2 ^ 23))
  end.

(** [x / 4] and [x * 4]: exact (power of two) for every binary32 value. *)
Definition pf_div4 (v : pfloat) : pfloat := match v with PF s m e => PF s m (e - 2) | _ => v end.
Definition pf_mul4 (v : pfloat) : pfloat := match v with PF s m e => PF s m (e + 2) | _ => v end.

(** The float of a coordinate. Simplifications: ints are taken as exact (true up
    to 2^53) and zero is positive zero. *)
Definition pf_of_num (n : num) : pfloat := PF (halves n <? 0) (Z.abs (halves n)) (-1).

(** ** Bytes *)
Fixpoint le (n : nat) (z : Z) : list Z :=
  match n with O => [] | S n' => z mod 256 :: le n' (z / 256) end.
Fixpoint unle (b : list Z) : Z :=
  match b with [] => 0 | x :: b' => x + 256 * unle b' end.

(** ** Writers (Map._write_*, redeclipse/__init__.py:148-177) *)

(** redeclipse/__init__.py:151-152 — _write_char: struct 'B'. *)
Definition w_u8 (z : Z) : res (list Z) :=
  if (0 <=? z) && (z <? 256) then Ok [z] else Err StructError.

(** redeclipse/__init__.py:154-155 — _write_int_as_chr: the UTF-8 encoding of
    chr(data) must be a single byte. *)
Definition w_chr (z : Z) : res (list Z) :=
  if (z <? 0) || (1114112 <=? z) then Err ValueError
  else if (55296 <=? z) && (z <? 57344) then Err ValueError
  else if z <? 128 then Ok [z] else Err StructError.

(** redeclipse/__init__.py:157-163 — _write_int on an int. *)
Definition w_i32 (z : Z) : res (list Z) :=
  if (- 2 ^ 31 <=? z) && (z <? 2 ^ 31) then Ok (le 4 (z mod 2 ^ 32)) else Err StructError.

(** redeclipse/__init__.py:165-166 — _write_ushort. *)
Definition w_u16 (z : Z) : res (list Z) :=
  if (0 <=? z) && (z <? 2 ^ 16) then Ok (le 2 z) else Err StructError.

(** redeclipse/__init__.py:168-169 — _write_float. *)
Definition w_f32 (v : pfloat) : res (list Z) := let! b := f32_encode v in Ok (le 4 b).

(** redeclipse/__init__.py:171-177 — _write_str on bytes. *)
Definition w_str (s : list Z) (null : bool) : list Z := if null then s ++ [0] else s.

(** Writing a sequence of items. *)
Definition wcat {A} (w : A -> res (list Z)) (l : list A) : res (list Z) :=
  let! bs := mapM w l in Ok (List.concat bs).

(** ** Readers (MapParser, redeclipse/__init__.py:336-370) *)

(** A reader consumes a prefix of the remaining bytes. *)
Definition P (A : Type) : Type := list Z -> res (A * list Z).
Definition pret {A} (a : A) : P A := fun b => Ok (a, b).
Definition perr {A} (e : exn) : P A := fun _ => Err e.
Definition pbind {A B} (p : P A) (k : A -> P B) : P B :=
  fun b => match p b with Ok (a, b') => k a b' | Err e => Err e end.
Notation "'do' x <- p ';;' k" := (pbind p (fun x => k))
  (at level 200, x pattern, p at level 100, right associativity).

(** redeclipse/__init__.py:336-339 — slice and unpack n bytes; a short slice is a
    struct.error, and so is a negative width. *)
Definition p_bytes (n : Z) : P (list Z) := fun b =>
  if n <? 0 then Err StructError
  else if Z.of_nat (List.length b) <? n then Err StructError
  else Ok (firstn (Z.to_nat n) b, skipn (Z.to_nat n) b).

(** redeclipse/__init__.py:345-347 — _read_char. *)
Definition p_u8 : P Z := do l <- p_bytes 1;; pret (unle l).
(** redeclipse/__init__.py:357-359 — _read_ushort. *)
Definition p_u16 : P Z := do l <- p_bytes 2;; pret (unle l).
Definition signed32 (u : Z) : Z := if u <? 2 ^ 31 then u else u - 2 ^ 32.
(** redeclipse/__init__.py:341-343 — _read_int. *)
Definition p_i32 : P Z := do l <- p_bytes 4;; pret (signed32 (unle l)).
(** redeclipse/__init__.py:353-355 — _read_float. *)
Definition p_f32 : P pfloat := do l <- p_bytes 4;; pret (f32_decode (unle l)).
(** redeclipse/__init__.py:361-370 — _read_str; the terminator is dropped
    whatever its value. *)
Definition p_str (n : Z) (null : bool) : P (list Z) :=
  if null then do l <- p_bytes (n + 1);; pret (removelast l) else p_bytes n.

(** [for i in range(n): l.append(p())].  The fuel only has to exceed the number
    of remaining bytes, because every item consumes at least one. *)
Fixpoint p_times {A} (fuel : nat) (p : P A) (n : Z) : P (list A) :=
  if n <=? 0 then pret []
  else match fuel with
       | O => perr OutOfFuel
       | S f => do x <- p;; do l <- p_times f p (n - 1);; pret (x :: l)
       end.

(** ** Cubes (redeclipse/objects.py) *)

(** objects.py:72-77 — SurfaceInfo. *)
Record surf := Surf { s_lmid0 : Z; s_lmid1 : Z; s_verts : Z; s_numverts : Z }.

(** objects.py:79-83 — SurfaceInfo.totalverts (LAYER_DUP = 128, MAXFACEVERTS = 15). *)
Definition surf_totalverts (s : surf) : Z :=
  if Z.testbit (s_numverts s) 7 then Z.land (s_numverts s) 15 * 2 else Z.land (s_numverts s) 15.

(** objects.py:181-210 — cube. [c_ext] is the surfaces list of [ext] if ext is
    set; face and texture enums are represented by their numeric values; fields
    never read or written by the file format (escaped, visible, mat, cube_id, the
    other cubext fields) are left out. *)
Inductive cube := Cube {
  c_children : option (list cube);
  c_ext : option (list (option surf));
  c_edges : list Z;
  c_faces : list Z;
  c_texture : list Z;
  c_material : option Z;
  c_merged : Z;
  c_surfmask : Z;
  c_totalverts : Z;
  c_octsav : Z }.

Definition F_EMPTY : Z := 0.
Definition F_SOLID : Z := 2155905152.

(** objects.py:183-210, 242-247 — cube(), newcube(face). *)
Definition newcube (face : Z) : cube :=
  Cube None None (repeat 128 12) [face; face; face] (repeat 1 6) None 0 0 0 1.

(** objects.py:249-274 — newtexcube/texturize; [tex] is the list of six texture
    numbers (an int texture is repeated six times). *)
Definition newtexcube (tex : list Z) : cube :=
  Cube None (Some (repeat (Some (Surf 2 0 0 32)) 6)) (repeat 128 12) [F_SOLID; F_SOLID; F_SOLID]
       tex None 0 63 0 35.

(** voxel/__init__.py:144-148 — an inner octree node. *)
Definition nodecube (children : list cube) : cube :=
  Cube (Some children) None (repeat 128 12) [F_EMPTY; F_EMPTY; F_EMPTY] (repeat 1 6) None 0 0 0 0.

(** redeclipse/__init__.py:247-266 — the optional tail of a leaf: for each of six
    faces with its bit in [mask], the surface at that index. *)
Definition w_surf (ext : option (list (option surf))) (mask : Z) (i : nat) : res (list Z) :=
  if Z.testbit mask (Z.of_nat i) then
    match ext with
    | None => Err AttributeError
    | Some l =>
        match nth_error l i with
        | None => Err IndexError
        | Some None => Err AttributeError
        | Some (Some s) =>
            let! a := w_u8 (s_lmid0 s) in let! b := w_u8 (s_lmid1 s) in
            let! c := w_u8 (s_verts s) in let! d := w_u8 (s_numverts s) in
            if s_verts s =? 0 then Ok (a ++ b ++ c ++ d) else Err NotImplementedError
        end
    end
  else Ok [].

(** redeclipse/__init__.py:235-266 — everything after the kind-specific part. *)
Definition w_tail (c : cube) : res (list Z) :=
  let o := c_octsav c in
  let! tx := wcat w_u16 (c_texture c) in
  let! mat := (if Z.testbit o 6 then
                 match c_material c with None => Err StructError | Some m => w_u16 m end
               else Ok []) in
  let! mer := (if Z.testbit o 7 then w_chr (c_merged c) else Ok []) in
  let! srf := (if Z.testbit o 5 then
                 let! a := w_chr (c_surfmask c) in
                 let! b := w_chr (c_totalverts c) in
                 let! s := wcat (w_surf (c_ext c) (c_surfmask c)) (seq 0 6) in
                 Ok (a ++ b ++ s)
               else Ok []) in
  Ok (tx ++ mat ++ mer ++ srf).

(** redeclipse/__init__.py:225-226 — struct 'BBBBBBBBBBBB' with twelve values. *)
Definition w_edges (l : list Z) : res (list Z) :=
  if Nat.eqb (List.length l) 12 then wcat w_u8 l else Err StructError.

(** redeclipse/__init__.py:207-266 — _savec with _savechildren (a missing or empty
    child list writes nothing). *)
Fixpoint savec (c : cube) : res (list Z) :=
  let! h := w_chr (c_octsav c) in
  let k := Z.land (c_octsav c) 7 in
  if k =? 0 then
    match c_children c with
    | None => Ok h
    | Some l => let! bs := mapM savec l in Ok (h ++ List.concat bs)
    end
  else if (k =? 1) || (k =? 2) || (k =? 4) then let! t := w_tail c in Ok (h ++ t)
  else if k =? 3 then let! e := w_edges (c_edges c) in let! t := w_tail c in Ok (h ++ e ++ t)
  else Err (SystemExit 42).

(** redeclipse/__init__.py:207-215 — _savechildren at the root. *)
Definition savechildren (l : list cube) : res (list Z) := wcat savec l.

(** redeclipse/__init__.py:500-519 — one surface of a leaf; the vertex byte is
    dropped, vertex data is not supported. *)
Definition p_surf (mask : Z) (i : nat) : P (option surf) :=
  if Z.testbit mask (Z.of_nat i) then
    do a <- p_u8;; do b <- p_u8;; do v <- p_u8;; do n <- p_u8;;
    if surf_totalverts (Surf a b v n) =? 0 then pret (Some (Surf a b 0 n))
    else perr NotImplementedError
  else pret None.

Fixpoint p_surfs (mask : Z) (is_ : list nat) : P (list (option surf)) :=
  match is_ with
  | [] => pret []
  | i :: r => do s <- p_surf mask i;; do l <- p_surfs mask r;; pret (s :: l)
  end.

Fixpoint p_repeat {A} (n : nat) (p : P A) : P (list A) :=
  match n with O => pret [] | S n' => do x <- p;; do l <- p_repeat n' p;; pret (x :: l) end.

(** redeclipse/__init__.py:487-521 — the part of _loadc shared by all leaves. *)
Definition p_tail (o : Z) (edges faces : list Z) : P cube :=
  do tx <- p_repeat 6 p_u16;;
  do mat <- (if Z.testbit o 6 then do m <- p_u16;; pret (Some m) else pret None);;
  do mer <- (if Z.testbit o 7 then p_u8 else pret 0);;
  if Z.testbit o 5 then
    do mask <- p_u8;; do tv <- p_u8;;
    do ss <- p_surfs mask (seq 0 6);;
    pret (Cube None (Some ss) edges faces tx mat mer mask tv o)
  else pret (Cube None None edges faces tx mat mer 0 0 o).

(** redeclipse/__init__.py:449-462 — the loop of _loadchildren over [n] remaining
    children; a failing cube stops it, leaving fresh cubes behind. *)
Fixpoint p_kids (p : P (bool * cube)) (n : nat) : P (list cube) :=
  match n with
  | O => pret []
  | S n' =>
      do r <- p;;
      if (fst r : bool) then pret (snd r :: repeat (newcube F_EMPTY) n')
      else do l <- p_kids p n';; pret (snd r :: l)
  end.

(** redeclipse/__init__.py:464-521 — _loadc; returns the failed flag and the cube.
    [fuel] bounds the nesting depth (each level consumes a byte); Python's own
    recursion limit is not modelled. *)
Fixpoint p_loadc (fuel : nat) : P (bool * cube) :=
  match fuel with
  | O => perr OutOfFuel
  | S f =>
      do o <- p_u8;;
      let k := Z.land o 7 in
      if k =? 0 then
        do l <- p_kids (p_loadc f) 8;;
        pret (false, Cube (Some l) None (repeat 128 12) [F_EMPTY; F_EMPTY; F_EMPTY]
                          (repeat 1 6) None 0 0 0 o)
      else if (k =? 1) || (k =? 4) then
        do c <- p_tail o (repeat 128 12) [F_EMPTY; F_EMPTY; F_EMPTY];; pret (false, c)
      else if k =? 2 then
        do c <- p_tail o (repeat 128 12) [F_SOLID; F_SOLID; F_SOLID];; pret (false, c)
      else if k =? 3 then
        do e <- p_repeat 12 p_u8;;
        do c <- p_tail o e [F_EMPTY; F_EMPTY; F_EMPTY];; pret (false, c)
      else
        pret (true, Cube None None (repeat 128 12) [F_EMPTY; F_EMPTY; F_EMPTY]
                         (repeat 1 6) None 0 0 0 o)
  end.

Definition p_loadchildren (fuel : nat) : P (list cube) := p_kids (p_loadc fuel) 8.

(** objects.py:469-476 — the face test of validatec on one cube: if some face
    range is empty or invalid all faces are emptied. *)
Definition bad_face (f : Z) : bool :=
  let e0 := Z.land f 252645135 in
  let e1 := Z.land (Z.shiftr f 4) 252645135 in
  (e0 =? e1) || negb (Z.land (Z.lor (e1 + 117901063) (e1 - e0)) 4042322160 =? 0).
Definition fix_faces (c : cube) : cube :=
  if existsb bad_face (c_faces c) then
    Cube (c_children c) (c_ext c) (c_edges c) [F_EMPTY; F_EMPTY; F_EMPTY] (c_texture c)
         (c_material c) (c_merged c) (c_surfmask c) (c_totalverts c) (c_octsav c)
  else c.
Definition with_children (c : cube) (l : list cube) : cube :=
  Cube (Some l) (c_ext c) (c_edges c) (c_faces c) (c_texture c) (c_material c) (c_merged c)
       (c_surfmask c) (c_totalverts c) (c_octsav c).

(** objects.py:454-476 — validatec for one cube at side [size]; the repair helpers
    solidfaces, discardchildren and subdividecube do not exist, so reaching them
    is an AttributeError. *)
Fixpoint validate1 (size : Z) (c : cube) : res cube :=
  match c_children c with
  | Some ((_ :: _) as l) =>
      if size <=? 1 then Err AttributeError
      else
        let! l' := mapM (validate1 (Z.shiftr size 1)) l in
        Ok (with_children c l')
  | _ => if 4096 <? size then Err AttributeError else Ok (fix_faces c)
  end.
Definition validatec (size : Z) (l : list cube) : res (list cube) := mapM (validate1 size) l.

(** ** Entities (redeclipse/entities/__init__.py) *)

(** An attribute: an int, a WeaponType member (by value), or the float h/2. *)
Inductive attr := AInt (z : Z) | AWeap (z : Z) | AHalf (h : Z).

(** entities/__init__.py:7-53 — fields of an entity ([e_pos] is [o]). *)
Record entity := Ent {
  e_x : pfloat; e_y : pfloat; e_z : pfloat;
  e_type : Z; e_attrs : list attr; e_links : list Z; e_reserved : list Z }.

(** enums.py:83-102 — values of WeaponType. *)
Definition is_weapon (z : Z) : bool := (z =? 0) || ((2 <=? z) && (z <=? 11)).

(** entities/__init__.py:12-48 — number of attribute annotations by EntType value;
    other types raise. *)
Definition attr_count (ty : Z) : option nat :=
  if ty =? 9 then Some 5%nat          (* ET_WEAPON *)
  else if ty =? 3 then Some 6%nat     (* ET_PLAYERSTART *)
  else if ty =? 2 then Some 13%nat    (* ET_MAPMODEL *)
  else if ty =? 8 then Some 8%nat     (* ET_SUNLIGHT *)
  else if ty =? 13 then Some 6%nat    (* ET_PUSHER *)
  else if ty =? 1 then Some 6%nat     (* ET_LIGHT *)
  else if ty =? 14 then Some 6%nat    (* ET_AFFINITY *)
  else None.

(** entities/__init__.py:7-53 as called at redeclipse/__init__.py:546: EntType(ty),
    then the constructor; [FineVector(x, y, z) / 4], [.fine() * 4]. *)
Definition mk_entity (x y z : pfloat) (ty : Z) (attrs : list Z) (links reserved : list Z)
  : res entity :=
  if (ty <? 0) || (17 <? ty) then Err ValueError
  else
    let pos v := pf_mul4 (pf_div4 v) in
    let! ats :=
      (if (ty =? 9) || (ty =? 3) then
         match attrs with
         | [] => Err IndexError
         | a :: r => if is_weapon a then Ok (AWeap a :: map AInt r) else Err ValueError
         end
       else Ok (map AInt attrs)) in
    match attr_count ty with
    | None => Err UserExn
    | Some n =>
        if Nat.eqb (List.length ats) n then Ok (Ent (pos x) (pos y) (pos z) ty ats links reserved)
        else Err AssertionError
    end.

(** redeclipse/__init__.py:157-163 — _write_int on an attribute. *)
Definition w_attr (a : attr) : res (list Z) :=
  match a with AInt z | AWeap z => w_i32 z | AHalf h => w_i32 (Z.quot h 2) end.

(** redeclipse/__init__.py:179-194 with entities/__init__.py:62-64 — one entity.
    serialize() encodes the type and reserved characters, then struct 'fffcccc'
    packs x, y, z and exactly four characters. *)
Definition w_ent (e : entity) : res (list Z) :=
  if negb (Nat.eqb (List.length (e_reserved e)) 3) then Err StructError
  else
    let! x := w_f32 (e_x e) in let! y := w_f32 (e_y e) in let! z := w_f32 (e_z e) in
    let! t := w_chr (e_type e) in let! r := wcat w_chr (e_reserved e) in
    let! na := w_i32 (Z.of_nat (List.length (e_attrs e))) in
    let! a := wcat w_attr (e_attrs e) in
    let! nl := w_i32 (Z.of_nat (List.length (e_links e))) in
    let! l := wcat w_i32 (e_links e) in
    Ok (x ++ y ++ z ++ t ++ r ++ na ++ a ++ nl ++ l).

(** redeclipse/__init__.py:526-547 — one entity. *)
Definition p_ent (fuel : nat) : P entity :=
  do x <- p_f32;; do y <- p_f32;; do z <- p_f32;;
  do t <- p_u8;; do r1 <- p_u8;; do r2 <- p_u8;; do r3 <- p_u8;;
  do na <- p_i32;; do attrs <- p_times fuel p_i32 na;;
  do nl <- p_i32;; do links <- p_times fuel p_i32 nl;;
  fun b => match mk_entity x y z t attrs links [r1; r2; r3] with
           | Ok e => Ok (e, b) | Err e => Err e end.

(** ** The map (redeclipse/__init__.py) *)

(** Values of the meta dictionary and of the map variables. *)
Inductive mval := MInt (z : Z) | MBytes (s : list Z) | MStr (utf8 : list Z).
Inductive vval := VInt (z : Z) | VFloat (f : pfloat) | VBytes (s : list Z) | VStr (utf8 : list Z).

(** redeclipse/__init__.py:72-83 — Map. [m_vslots] is the number of slots: the
    reader only ever creates VSlot(None, i) for i = 0, 1, ... *)
Record rmap := Map {
  m_magic : list Z; m_version : Z; m_headersize : Z;
  m_meta : list (string * mval);
  m_vars : list (list Z * vval);
  m_texmru : list Z;
  m_ents : list entity;
  m_vslots : Z;
  m_chg : list Z;
  m_world : list cube }.

Fixpoint bytes_eqb (a b : list Z) : bool :=
  match a, b with
  | [], [] => true
  | x :: a', y :: b' => (x =? y) && bytes_eqb a' b'
  | _, _ => false
  end.

(** redeclipse/__init__.py:100-104 — one header entry ([tb] at 15-22 encodes a str;
    ints have no len(), bytes no [.value]). *)
Definition w_meta (e : string * mval) : res (list Z) :=
  let '(k, v) := e in
  if String.eqb k "gameident" || String.eqb k "skybox" || String.eqb k "z" then
    match v with MBytes s | MStr s => Ok (w_str s true) | MInt _ => Err TypeError end
  else match v with MInt z => w_i32 z | _ => Err AttributeError end.

(** redeclipse/__init__.py:107-127 — one variable; struct rejects a str value. *)
Definition w_var (e : list Z * vval) : res (list Z) :=
  let '(name, v) := e in
  let! n := w_i32 (Z.of_nat (List.length name)) in
  let nm := w_str name true in
  match v with
  | VInt z => let! t := w_i32 0 in let! x := w_i32 z in Ok (n ++ nm ++ t ++ x)
  | VFloat f => let! t := w_i32 1 in let! x := w_f32 f in Ok (n ++ nm ++ t ++ x)
  | VBytes s => let! t := w_i32 2 in let! l := w_i32 (Z.of_nat (List.length s)) in
                Ok (n ++ nm ++ t ++ l ++ w_str s true)
  | VStr _ => Err StructError
  end.

(** redeclipse/__init__.py:196-202 — one entry of chg. *)
Definition w_chg (z : Z) : res (list Z) :=
  let! b := w_i32 z in if z <? 0 then Ok b else Err NotImplementedError.

(** redeclipse/__init__.py:99 — [self.meta['numents'] = len(self.ents)]. *)
Definition set_numents (m : rmap) : rmap :=
  Map (m_magic m) (m_version m) (m_headersize m)
      (dset String.eqb (m_meta m) "numents"%string (MInt (Z.of_nat (List.length (m_ents m)))))
      (m_vars m) (m_texmru m) (m_ents m) (m_vslots m) (m_chg m) (m_world m).

(** redeclipse/__init__.py:85-146 — write: the bytes handed to gzip (an error means
    the call raises; what it wrote before is not modelled). *)
Definition write_map (m0 : rmap) : res (list Z) :=
  let m := set_numents m0 in
  let magic := w_str (m_magic m) false in
  let! v := w_i32 (m_version m) in
  let! h := w_i32 (m_headersize m) in
  let! meta := wcat w_meta (m_meta m) in
  let! vars := wcat w_var (m_vars m) in
  let! nmru := w_u16 (Z.of_nat (List.length (m_texmru m))) in
  let! mru := wcat w_u16 (m_texmru m) in
  let! ents := wcat w_ent (m_ents m) in
  let! chg := wcat w_chg (m_chg m) in
  let! world := savechildren (m_world m) in
  Ok (magic ++ v ++ h ++ meta ++ vars ++ nmru ++ mru ++ ents ++ chg ++ world).

(** redeclipse/__init__.py:590-611 — one variable. *)
Definition p_var : P (list Z * vval) :=
  do n <- p_i32;; do name <- p_str n true;; do t <- p_i32;;
  if t =? 2 then do l <- p_i32;; do s <- p_str l true;; pret (name, VBytes s)
  else if t =? 1 then do f <- p_f32;; pret (name, VFloat f)
  else if t =? 0 then do z <- p_i32;; pret (name, VInt z)
  else perr UserExn.

(** redeclipse/__init__.py:397-417 — one shader parameter of a changed slot
    (values are dropped by the model, as by the reader); MAXSTRLEN = 512. *)
Definition p_shparam (flags : Z) : P unit :=
  do n <- p_u16;;
  if 512 <=? n then perr (SystemExit 0)
  else
    do _ <- p_bytes n;; do _ <- p_repeat 4 p_f32;;
    if Z.testbit flags 15 then do _ <- p_repeat 2 p_i32;; pret tt else pret tt.

Definition p_when {A} (c : bool) (p : P A) : P unit :=
  if c then do _ <- p;; pret tt else pret tt.

(** redeclipse/__init__.py:394-447 — _loadvslot (VTYPE bits, enums.py:35-50). *)
Definition p_vslot (fuel : nat) (changed : Z) : P unit :=
  do _ <- p_when (Z.testbit changed 0)
            (do fl <- p_u16;; p_times fuel (p_shparam fl) (Z.land fl 32767));;
  do _ <- p_when (Z.testbit changed 1) p_f32;;
  do _ <- p_when (Z.testbit changed 2) p_i32;;
  do _ <- p_when (Z.testbit changed 3) (p_repeat 2 p_i32);;
  do _ <- p_when (Z.testbit changed 4) (p_repeat 2 p_i32);;
  do _ <- p_when (Z.testbit changed 5) p_i32;;
  do _ <- p_when (Z.testbit changed 6) (p_repeat 2 p_f32);;
  do _ <- p_when (Z.testbit changed 7) (p_repeat 3 p_f32);;
  do _ <- p_when (Z.testbit changed 8) (p_repeat 2 p_i32);;
  p_when (Z.testbit changed 9) p_f32.

(** redeclipse/__init__.py:372-392 — _loadvslots: number of default slots created
    and the list chg. The final linking loop (389-391) never runs its body, as the
    counter has dropped to zero or below. *)
Fixpoint p_vslots (fuel : nat) (n : Z) : P (Z * list Z) :=
  if n <=? 0 then pret (0, [])
  else match fuel with
       | O => perr OutOfFuel
       | S f =>
           do ch <- p_i32;;
           if ch <? 0 then
             do r <- p_vslots f (n + ch);; pret (- ch + fst r, ch :: snd r)
           else
             do _ <- p_i32;; do _ <- p_vslot fuel ch;;
             do r <- p_vslots f (n - 1);; pret (fst r, ch :: snd r)
       end.

Definition MAPZ : list Z := [77; 65; 80; 90].
Definition BFGZ : list Z := [66; 70; 71; 90].

(** redeclipse/__init__.py:572-579 — the eight integer header fields, in order. *)
Definition int_keys : list string :=
  ["worldsize"; "numents"; "numpvs"; "lightmaps"; "blendmap"; "numvslots"; "gamever"; "revision"]%string.

(** redeclipse/__init__.py:589-611 — duplicates overwrite earlier entries. *)
Definition vars_dict (l : list (list Z * vval)) : list (list Z * vval) :=
  fold_left (fun d e => dset bytes_eqb d (fst e) (snd e)) l [].

(** redeclipse/__init__.py:550-649 — read, on the decompressed bytes. *)
Definition p_map (fuel : nat) : P rmap :=
  do magic <- p_str 4 false;;
  if negb (bytes_eqb magic MAPZ || bytes_eqb magic BFGZ) then perr UserExn
  else
  do version <- p_i32;; do headersize <- p_i32;;
  do worldsize <- p_i32;; do numents <- p_i32;; do numpvs <- p_i32;; do lightmaps <- p_i32;;
  do blendmap <- p_i32;; do numvslots <- p_i32;; do gamever <- p_i32;; do revision <- p_i32;;
  do gameident <- p_str 3 true;; do numvars <- p_i32;;
  do vars <- p_times fuel p_var numvars;;
  do nmru <- p_u16;; do texmru <- p_times fuel p_u16 nmru;;
  do ents <- p_times fuel (p_ent fuel) numents;;
  do sl <- p_vslots fuel numvslots;;
  do root <- p_loadchildren fuel;;
  fun b => match validatec (Z.shiftr worldsize 1) root with
  | Err e => Err e
  | Ok world =>
      Ok (Map magic version headersize
            (combine int_keys (map MInt [worldsize; numents; numpvs; lightmaps; blendmap;
                                         numvslots; gamever; revision])
             ++ [("gameident", MBytes gameident); ("numvars", MInt numvars)]%string)
            (vars_dict vars) texmru ents (fst sl) (snd sl) world, b)
  end.

Definition read_rest (b : list Z) : res (rmap * list Z) := p_map (S (List.length b)) b.
(** [MapParser().read(path)] on the decompressed contents; trailing bytes ignored. *)
Definition read_map (b : list Z) : res rmap := let! r := read_rest b in Ok (fst r).
