(** States of C108. *)
From Verif Require Import Base LayoutModel LayoutSpec ProgressModel ProgressSpec StorageModel StorageSpec RoomModel RoomSpec StartModel StartSpec CheckProps.

(** A torrent of [n] pieces with its selection, files, their times and a sound progress. *)
Definition ready (t : torrentInfo) (n : Z) (sel : list bool) (s : filesState) : Prop :=
  parsed t /\ Forall (fun f => endPiece f < n) (files t) /\ length sel = length (files t) /\ zlen (files t) <= 4294967296 /\ n < 4294967296 /\
  length (times s) = length (files t) /\ flags_ok (prog s) /\ exact (prog s) /\ zlen (pieces (prog s)) = n.

(** A file changed since the last time. *)
Definition changed_since (s : filesState) : Prop := exists x, In x (times s) /\ lastTime s < x.
