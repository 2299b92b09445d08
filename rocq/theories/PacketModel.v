(** Model of mtTorrent/utils/PacketHelper.h and ByteSwap.cpp. The host is little-endian
    (as the code assumes): storing an [n]-byte integer [v] in memory gives [le n v]. *)
From Verif Require Import Base.

(** ByteSwap.cpp:4-6 [swap16/32/64]: reverse the bytes of an [n]-byte integer. *)
Definition bswap (n : nat) (v : Z) : Z := unle (rev (le n v)).

(** PacketHelper.h:94-97 [add(char)]. *)
Definition add8 (data : list Z) (c : Z) : list Z := data ++ [u8 c].

(** PacketHelper.h:99-104, 111-116, 123-128: swap, then append the object's bytes. *)
Definition addN (n : nat) (data : list Z) (i : Z) : list Z := data ++ le n (bswap n i).
(** Also PacketHelper.h:99-104, 111-116, 123-128. *)
Definition add16 := addN 2.
(** Also PacketHelper.h:99-104, 111-116, 123-128. *)
Definition add32 := addN 4.
(** Also PacketHelper.h:99-104, 111-116, 123-128. *)
Definition add64 := addN 8.

(** PacketHelper.h:136-139, 153-157 [add(ptr, length)]. *)
Definition addRaw (data : list Z) (b : list Z) : list Z := data ++ b.

(** PacketHelper.h:80-82, the reader: [rbuf] is the buffer it was given, [rpos] the position. *)
Record reader := { rbuf : list Z; rpos : nat }.

(** PacketHelper.h:53-59, the constructors of PacketReader. *)
Definition newReader (b : list Z) : reader := {| rbuf := b; rpos := 0 |}.

(** Reading [n] bytes at the position; outside the buffer it is undefined (the code has no
    check). For [pop8], PacketHelper.h:11-16. *)
Definition readAt (r : reader) (n : nat) : res (list Z) :=
  if Nat.leb (rpos r + n) (length (rbuf r)) then Ok (slice (rpos r) n (rbuf r)) else UB.

(** Helper of [pop8], PacketHelper.h:11-16. *)
Definition adv (r : reader) (n : nat) : reader := {| rbuf := rbuf r; rpos := rpos r + n |}.

(** PacketHelper.h:11-16 [pop]. *)
Definition pop8 (r : reader) : res (Z * reader) :=
  bind (readAt r 1) (fun b => Ok (nth 0 b 0, adv r 1)).

(** PacketHelper.h:18-37 [pop16], [pop32], [pop64]. *)
Definition popN (n : nat) (r : reader) : res (Z * reader) :=
  bind (readAt r n) (fun b => Ok (bswap n (unle b), adv r n)).
(** Also PacketHelper.h:18-37. *)
Definition pop16 := popN 2.
(** Also PacketHelper.h:18-37. *)
Definition pop32 := popN 4.
(** Also PacketHelper.h:18-37. *)
Definition pop64 := popN 8.

(** PacketHelper.h:39-44 [popBuffer]. *)
Definition popBuffer (n : nat) (r : reader) : res (list Z * reader) :=
  bind (readAt r n) (fun b => Ok (b, adv r n)).

(** PacketHelper.h:61-64 [getRemainingSize] ([size - pos] in [size_t]). *)
Definition remaining (r : reader) : Z := u64 (zlen (rbuf r) - Z.of_nat (rpos r)).

(** A sequence of calls on the builder, and the matching calls on the reader. Model only: the calls and events above, in any order, as the histories of the theorems. *)
Inductive field := F8 (v : Z) | F16 (v : Z) | F32 (v : Z) | F64 (v : Z) | FRaw (b : list Z).

(** Model only: the calls and events above, in any order, as the histories of the theorems. *)
Definition addField (data : list Z) (f : field) : list Z :=
  match f with
  | F8 v => add8 data v
  | F16 v => add16 data v
  | F32 v => add32 data v
  | F64 v => add64 data v
  | FRaw b => addRaw data b
  end.

(** Model only: the calls and events above, in any order, as the histories of the theorems. *)
Definition build (fs : list field) : list Z := fold_left addField fs [].

(** Model only: the calls and events above, in any order, as the histories of the theorems. *)
Definition popField (f : field) (r : reader) : res (field * reader) :=
  match f with
  | F8 _ => bind (pop8 r) (fun p => Ok (F8 (fst p), snd p))
  | F16 _ => bind (pop16 r) (fun p => Ok (F16 (fst p), snd p))
  | F32 _ => bind (pop32 r) (fun p => Ok (F32 (fst p), snd p))
  | F64 _ => bind (pop64 r) (fun p => Ok (F64 (fst p), snd p))
  | FRaw b => bind (popBuffer (length b) r) (fun p => Ok (FRaw (fst p), snd p))
  end.

(** Read fields with the shapes of [fs]. Model only: the calls and events above, in any order, as the histories of the theorems. *)
Fixpoint readAll (fs : list field) (r : reader) : res (list field * reader) :=
  match fs with
  | [] => Ok ([], r)
  | f :: fs' =>
    bind (popField f r) (fun p =>
    bind (readAll fs' (snd p)) (fun q => Ok (fst p :: fst q, snd q)))
  end.
