(** Vocabulary for the light properties. *)
From Verif Require Import Py VecModel VecSpec VoxelModel CodecModel CodecSpec OutModel.

(** A file coordinate is n / 2 * 2^k. *)
Definition coord_is (f : pfloat) (n k : Z) : Prop := feq f (PF (n <? 0) (Z.abs n) (k - 1)).
(** An entity stands at the point with the given doubled coordinates, at 2^k map units per
    voxel. *)
Definition stands (e : entity) (p : Z * Z * Z) (k : Z) : Prop :=
  let '(x, y, z) := p in coord_is (e_x e) x k /\ coord_is (e_y e) y k /\ coord_is (e_z e) z k.
(** The middle of the block of 8 voxels that starts at a point (doubled coordinates). *)
Definition middle (p : Z * Z * Z) : Z * Z * Z := let '(x, y, z) := p in (x + 8, y + 8, z + 8).
(** The map with one more entity, all else unchanged. *)
Definition one_more (m : rmap) (e : entity) (m' : rmap) : Prop :=
  m_ents m' = m_ents m ++ [e] /\ m_magic m' = m_magic m /\ m_version m' = m_version m /\
  m_headersize m' = m_headersize m /\ m_meta m' = m_meta m /\ m_vars m' = m_vars m /\
  m_texmru m' = m_texmru m /\ m_vslots m' = m_vslots m /\ m_chg m' = m_chg m /\ m_world m' = m_world m.
(** The coordinates are small enough to be exact in the file. *)
Definition in_file (p : Z * Z * Z) (k : Z) : Prop :=
  let '(x, y, z) := p in let ok n := - 2 ^ 24 < n * 2 ^ k < 2 ^ 24 in ok x /\ ok y /\ ok z.
