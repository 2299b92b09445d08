(** Files one after the other, cut into pieces; pieces cut into blocks. *)
From Verif Require Import Base LayoutModel.

Definition total (sizes : list Z) : Z := fold_right Z.add 0 sizes.

(** The offset of file [k]: the bytes of the files before it. *)
Definition offset (sizes : list Z) (k : nat) : Z := total (firstn k sizes).

(** The first byte of a file, as its piece and position say. *)
Definition first_byte (ps : Z) (f : file) : Z := startPiece f * ps + startPos f.
(** The byte behind its last one. *)
Definition end_byte (ps : Z) (f : file) : Z := endPiece f * ps + endPos f.

(** Some byte of [a, a + size) lies in piece [p]. *)
Definition has_byte_in (ps a size p : Z) : Prop := exists b, a <= b < a + size /\ b / ps = p.

Definition sizes_fit (ps : Z) (sizes : list Z) : Prop :=
  0 < ps < 4294967296 /\ Forall (fun s => 0 <= s) sizes /\ total sizes < 9223372036854775808 /\ total sizes / ps < 4294967295.

(** The blocks cover [from, to) in order, each byte once, none empty or longer than 16 KiB. *)
Fixpoint tiles (from : Z) (bs : list blockInfo) (to : Z) : Prop :=
  match bs with
  | [] => from = to
  | b :: bs' => bbegin b = from /\ 0 < blength b <= 16384 /\ tiles (from + blength b) bs' to
  end.

(** The size of piece [idx] of a torrent of [full] bytes. *)
Definition size_of_piece (ps full idx : Z) : Z := Z.min ps (full - idx * ps).
