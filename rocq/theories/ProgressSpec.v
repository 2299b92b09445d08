(** What the progress of a download means, said over the flags of the pieces alone. *)
From Verif Require Import Base ProgressModel.

(** A piece is received when its lowest bit is set, deselected when bit 3 is set. *)
Definition received (x : Z) : bool := Z.odd x.
Definition chosen (x : Z) : bool := negb (Z.testbit x 3).

Definition count (f : Z -> bool) (l : list Z) : Z := zlen (filter f l).

(** The flags in use. *)
Definition flag_ok (x : Z) : Prop := x = 0 \/ x = 1 \/ x = 8 \/ x = 9.
Definition flags_ok (p : progress) : Prop := Forall flag_ok (pieces p) /\ zlen (pieces p) < 4294967296.

(** Counters which count. *)
Definition exact (p : progress) : Prop :=
  receivedPiecesCount p = count received (pieces p) /\
  selectedPieces p = count chosen (pieces p) /\
  selectedReceivedPiecesCount p = count (fun x => received x && chosen x) (pieces p).

(** The operations on a progress and when a caller may use them. *)
Inductive op :=
| OCalculate
| OResize (n : Z)
| ORemoveReceived (wh : list bool)
| OSelect (a b : Z) (s : bool)
| OAdd (i : Z)
| ORemove (i : Z)
| OFromBitfield (b : list Z).

Definition op_ok (p : progress) (o : op) : Prop :=
  match o with
  | OCalculate => True
  | OResize n => 0 <= n < 4294967296
  | ORemoveReceived wh => zlen (pieces p) <= zlen wh
  | OSelect a b _ => 0 <= a /\ b < zlen (pieces p)
  | OAdd i => 0 <= i < 4294967295
  | ORemove i => 0 <= i < zlen (pieces p)
  | OFromBitfield b => bytes_ok b /\ zlen b * 8 <= 16777216 /\ zlen (pieces p) <= zlen b * 8
  end.

Definition run_op (o : op) (p : progress) : res progress :=
  match o with
  | OCalculate => Ok (calculatePieces p)
  | OResize n => Ok (resize n p)
  | ORemoveReceived wh => removeReceived wh p
  | OSelect a b s => select a b s p
  | OAdd i => addPiece i p
  | ORemove i => removePiece i p
  | OFromBitfield b => fromBitfieldData b p
  end.

(** A progress reached from another one by allowed operations. *)
Inductive reaches (allowed : op -> Prop) : progress -> list op -> progress -> Prop :=
| reach_nil p : reaches allowed p [] p
| reach_cons p o q os r : op_ok p o -> allowed o -> run_op o p = Ok q -> reaches allowed q os r ->
    reaches allowed p (o :: os) r.

(** What the operations mean for the set of received and of chosen pieces, piece by piece
    (indices out of range are neither). *)
Definition is_received (p : progress) (i : Z) : bool := (0 <=? i) && received (nth (Z.to_nat i) (pieces p) 0).
Definition is_chosen (p : progress) (i : Z) : bool :=
  (0 <=? i) && (i <? zlen (pieces p)) && chosen (nth (Z.to_nat i) (pieces p) 0).

(** BEP 3: bit 0 is the high bit of the first byte. *)
Definition bit (data : list Z) (i : Z) : bool := Z.testbit (nth (Z.to_nat (i / 8)) data 0) (7 - i mod 8).

(** The size of piece [i] of [n] and the bytes of the pieces selected by [f]. *)
Definition piece_size (pieceSize fullSize n i : Z) : Z :=
  if i =? n - 1 then fullSize - pieceSize * (n - 1) else pieceSize.
Fixpoint sum_sizes (f : Z -> bool) (pieceSize fullSize n i : Z) (l : list Z) : Z :=
  match l with
  | [] => 0
  | x :: l' => (if f x then piece_size pieceSize fullSize n i else 0) + sum_sizes f pieceSize fullSize n (i + 1) l'
  end.
