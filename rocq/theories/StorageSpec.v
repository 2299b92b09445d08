(** Files one after the other are one sequence of bytes; blocks are ranges of it. *)
From Verif Require Import Base LayoutModel StorageModel.

(** Every file exists and is as long as it should be. *)
Definition allocated (fs : list file) (disk : list (option (list Z))) : Prop :=
  Forall2 (fun f d => exists c, d = Some c /\ zlen c = fsize f) fs disk.

(** The bytes of all files. *)
Definition bytes_of (disk : list (option (list Z))) : list Z :=
  concat (map (fun d => match d with Some c => c | None => [] end) disk).

(** The first byte of a block in the torrent. *)
Definition block_start (ps : Z) (b : blockInfo) : Z := bindex b * ps + bbegin b.

Definition covers (ps : Z) (b : blockInfo) (x : Z) : Prop := block_start ps b <= x < block_start ps b + blength b.

(** A block lies within a piece and comes with as many bytes as it says. *)
Definition block_ok (ps : Z) (b : blockData) : Prop :=
  0 <= bindex (binfo b) < 4294967296 /\ 0 <= bbegin (binfo b) /\ 0 <= blength (binfo b) /\ bbegin (binfo b) + blength (binfo b) <= ps /\
  zlen (bdata b) = blength (binfo b).

(** Blocks which share a byte agree on it. *)
Definition agree (ps : Z) (bs : list blockData) : Prop :=
  forall b b' x, In b bs -> In b' bs -> covers ps (binfo b) x -> covers ps (binfo b') x ->
    zn (bdata b) (x - block_start ps (binfo b)) = zn (bdata b') (x - block_start ps (binfo b')).

(** After storing [bs] the bytes in a block are that block's, all others are what they were. *)
Definition stored (ps : Z) (bs : list blockData) (old new : list Z) : Prop :=
  length new = length old /\
  forall x, 0 <= x < zlen old ->
    (forall b, In b bs -> covers ps (binfo b) x -> zn new x = zn (bdata b) (x - block_start ps (binfo b))) /\
    ((forall b, In b bs -> ~ covers ps (binfo b) x) -> zn new x = zn old x).

(** The place of a file: its pieces and positions name its first byte and the end of its last. *)
Definition placed (ps o : Z) (f : file) : Prop :=
  startPiece f * ps + startPos f = o /\ endPiece f * ps + endPos f = o + fsize f /\ 0 <= startPos f < ps /\ 0 <= endPos f <= ps /\
  0 <= fsize f /\ 0 <= startPiece f <= endPiece f /\ endPiece f < 4294967295 /\ (0 < fsize f -> 0 < endPos f).

Fixpoint all_placed (ps o : Z) (fs : list file) : Prop :=
  match fs with [] => True | f :: fs' => placed ps o f /\ all_placed ps (o + fsize f) fs' end.
