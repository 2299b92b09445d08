(** Files and their times. *)
From Verif Require Import Base LayoutModel StorageModel RoomModel.

(** A file whose time is as [c] says file_reaches piece [p]. *)
Fixpoint reached (c : Z -> bool) (fs : list file) (ts : list Z) (p : Z) : bool :=
  match fs, ts with
  | f :: fs', x :: ts' => (c x && (startPiece f <=? p) && (p <=? endPiece f)) || reached c fs' ts' p
  | _, _ => false
  end.

(** A file written after [last]; one which is not there. *)
Definition newer (last : Z) (x : Z) : bool := last <? x.
Definition gone (x : Z) : bool := x =? 0.

(** A file whose time is as [c] says has a byte or its place in piece [p]. *)
Definition file_reaches (c : Z -> Prop) (fs : list file) (ts : list Z) (p : Z) : Prop :=
  exists k, (k < length fs)%nat /\ c (nth k ts 0) /\ startPiece (nth k fs noFile) <= p <= endPiece (nth k fs noFile).
