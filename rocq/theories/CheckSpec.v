(** What is on the disk of a piece. *)
From Verif Require Import Base LayoutModel LayoutSpec StorageModel.

Definition touches (f : file) (p : Z) : Prop := startPiece f <= p <= endPiece f.

(** What a file which is on the disk as [d] holds of piece [p]: all its bytes there if it is as long as it should be; if it
    is a temporary file, which holds only what it shares with its neighbours, its part of its first piece is at the
    beginning and that of its last piece behind it. *)
Definition part (ps : Z) (f : file) (d : option (list Z)) (p : Z) : list Z :=
  match d with
  | None => []
  | Some c =>
    if zlen c =? fsize f
    then readAt c (Z.max 0 (p * ps - first_byte ps f))
                  (Z.min (first_byte ps f + fsize f) ((p + 1) * ps) - Z.max (first_byte ps f) (p * ps))
    else if p =? startPiece f then readAt c 0 (ps - startPos f)
    else readAt c (ps - startPos f) (endPos f)
  end.

(** A file holds its bytes of piece [p]. *)
Definition keeps (ps : Z) (f : file) (d : option (list Z)) (p : Z) : Prop :=
  exists c, d = Some c /\
    (zlen c = fsize f \/
     (startPiece f < endPiece f /\ zlen c <> fsize f /\
      ((p = startPiece f /\ ps - startPos f <= zlen c <= ps - startPos f + endPos f) \/
       (p = endPiece f /\ zlen c = ps - startPos f + endPos f /\ endPos f < ps /\ end_byte ps f = first_byte ps f + fsize f)))).

(** The bytes of piece [p] in the files, one after the other. *)
Fixpoint piece_data (ps : Z) (fs : list file) (disk : list (option (list Z))) (p : Z) : list Z :=
  match fs, disk with
  | f :: fs', d :: disk' =>
    (if (startPiece f <=? p) && (p <=? endPiece f) then part ps f d p else []) ++ piece_data ps fs' disk' p
  | _, _ => []
  end.

(** All files which touch piece [p] hold their bytes of it; the last file of the torrent holds all its bytes if [p] is its
    last piece. *)
Fixpoint all_keep (ps : Z) (fs : list file) (disk : list (option (list Z))) (p : Z) : Prop :=
  match fs, disk with
  | f :: fs', d :: disk' =>
    (touches f p -> keeps ps f d p /\ (fs' = [] -> p = endPiece f -> exists c, d = Some c /\ zlen c = fsize f)) /\
    all_keep ps fs' disk' p
  | _, _ => True
  end.
