(** What is left to download *)
From Verif Require Import Base LayoutModel ProgressModel ProgressSpec Assoc DlModel DlSpec.

(** The blocks of piece [i] that are there: those of the request, or of a piece given up before *)
Definition blocks_at (d : dl) (i : Z) : list Z :=
  match aget i (dReqs d) with
  | Some r => psBlocks (rPiece r)
  | None => match find (fun u => (psIndex u =? i) && negb (psSize u =? 0)) (dUnf d) with Some u => psBlocks u | None => [] end
  end.

(** The bytes of block [k] of piece [i], when they are still missing *)
Definition block_left (t : torrentInfo) (d : dl) (i : Z) (k : nat) : Z :=
  if is_received (dProg d) i || negb (nth k (blocks_at d i) 0 =? 0) then 0 else blength (getPieceBlockInfo t i (Z.of_nat k)).

Definition sum_of (l : list Z) : Z := fold_right Z.add 0 l.

Definition piece_left (t : torrentInfo) (d : dl) (i : Z) : Z :=
  sum_of (map (block_left t d i) (seq 0 (Z.to_nat (getPieceBlocksCount t i)))).

(** Every missing byte of the [n] pieces *)
Definition all_left (t : torrentInfo) (n : Z) (d : dl) : Z := sum_of (map (fun i => piece_left t d (Z.of_nat i)) (seq 0 (Z.to_nat n))).

(** The bytes of the blocks marked in the list, from block [k] on *)
Fixpoint weight (t : torrentInfo) (i : Z) (k : nat) (l : list Z) : Z :=
  match l with [] => 0 | x :: l' => (if x =? 0 then 0 else blength (getPieceBlockInfo t i (Z.of_nat k))) + weight t i (S k) l' end.

(** A block has as many bytes as the place it is counted for *)
Definition right_size (t : torrentInfo) (e : devent) : Prop :=
  match e with MBlock p b => blength b = blength (getPieceBlockInfo t (bindex b) (u32 (bbegin b + 1) / 16384)) | _ => True end.

(** Saved pieces: none twice, none of a piece that is there, and their sizes are those of their blocks *)
Definition saved_ok (t : torrentInfo) (n : Z) (pr : progress) (unf : list pieceState) : Prop :=
  let l := filter (fun u => negb (psSize u =? 0)) unf in
  NoDup (map psIndex l) /\
  Forall (fun u => 0 <= psIndex u < n /\ is_received pr (psIndex u) = false /\ psSize u = weight t (psIndex u) 0 (psBlocks u)) l.

(** The pieces are those of the torrent *)
Definition whole (t : torrentInfo) (n : Z) : Prop := n = lastPieceIndex t + 1 /\ fullSize t < 18446744073709551616.

(** The pieces of a file *)
Definition pieces_of (f : file) : list Z := map (fun k => startPiece f + Z.of_nat k) (seq 0 (Z.to_nat (endPiece f - startPiece f + 1))).

(** The bytes of the blocks of a piece that are there *)
Definition piece_part (t : torrentInfo) (d : dl) (i : Z) : Z := weight t i 0 (blocks_at d i).
