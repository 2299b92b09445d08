(** Model of Core/Uploader.{h,cpp}: the queue of block requests and the bytes
    granted by the bandwidth manager.

    Simplifications.  A peer is a number.  [peer->isEstablished()] and
    [storage.loadPieceBlock] are arguments of the call that uses them ([None]
    is a failed read, which leaves the buffer as it was).  What
    BandwidthManager::requestBandwidth returns is an argument of the call that
    asks: it is used only if the call really asks.  [u_posts] counts the
    sendRequests jobs posted to the service and not run yet.  The mutex makes
    each call atomic, so an execution is a list of calls.  [u_granted] and
    [u_requested] are ghost fields: all bytes granted and all requests
    received. *)
From Verif Require Export Base.

(** PieceBlockInfo, Core/Interface.h, and UploadRequest, Uploader.h 41-45. *)
Record block := MkBlock { b_index : Z; b_begin : Z; b_length : Z }.
(** Also Uploader.h 41-45. *)
Record upload := MkUp { up_peer : nat; up_block : block }.

(** What the peer is sent: PieceBlock with its data. For [sendLoop], Uploader.cpp 95-125. *)
Record answer := MkAns { a_up : upload; a_data : list Z }.

(** Helper of [stop], Uploader.cpp 14-21. *)
Record uploader := MkU {
  u_pending : list upload;   (* pendingRequests *)
  u_buffer : list Z;         (* buffer *)
  u_asking : bool;           (* requestingBytes *)
  u_avail : Z;               (* availableBytes, uint32 *)
  u_uploaded : Z;            (* uploaded, uint64 *)
  u_posts : nat;
  u_granted : Z;
  u_requested : list upload
}.

(** Uploader.h, the initial values of the members. *)
Definition newUploader : uploader := MkU [] [] false 0 0 O 0 [].

(** Uploader::stop, Uploader.cpp 14-21. *)
Definition stop (u : uploader) : uploader :=
  MkU [] (u_buffer u) false 0 (u_uploaded u) (u_posts u) (u_granted u) (u_requested u).

(** Uploader::cancelRequests, Uploader.cpp 29-40. *)
Definition cancelRequests (p : nat) (u : uploader) : uploader :=
  MkU (filter (fun r => negb (Nat.eqb (up_peer r) p)) (u_pending u))
      (u_buffer u) (u_asking u) (u_avail u) (u_uploaded u) (u_posts u) (u_granted u) (u_requested u).

(** Uploader::refreshRequest, Uploader.cpp 133-144. *)
Definition refreshRequest (est : nat -> bool) (u : uploader) : uploader :=
  MkU (filter (fun r => est (up_peer r)) (u_pending u))
      (u_buffer u) (u_asking u) (u_avail u) (u_uploaded u) (u_posts u) (u_granted u) (u_requested u).

(** Uploader::requestBytes, Uploader.cpp 65-80.  [reply amount] is what the
    bandwidth manager returns for a request of that size. *)
Definition requestBytes (amount : Z) (reply : Z -> Z) (u : uploader) : uploader :=
  if (amount <=? u_avail u) || u_asking u then u
  else
    let returned := reply (amount - u_avail u) in
    if returned =? 0 then
      MkU (u_pending u) (u_buffer u) true (u_avail u) (u_uploaded u) (u_posts u)
          (u_granted u) (u_requested u)
    else
      MkU (u_pending u) (u_buffer u) (u_asking u) (u32 (u_avail u + returned)) (u_uploaded u)
          (u_posts u) (u_granted u + returned) (u_requested u).

(** Uploader::pieceRequest, Uploader.cpp 42-51. *)
Definition pieceRequest (r : upload) (reply : Z -> Z) (u : uploader) : uploader :=
  let u1 := requestBytes (b_length (up_block r)) reply u in
  MkU (u_pending u1 ++ [r]) (u_buffer u1) (u_asking u1) (u_avail u1) (u_uploaded u1)
      (if u_asking u1 then u_posts u1 else Datatypes.S (u_posts u1))
      (u_granted u1) (u_requested u1 ++ [r]).

(** Uploader::assignBandwidth, Uploader.cpp 53-63. *)
Definition assignBandwidth (amount : Z) (u : uploader) : uploader :=
  MkU (u_pending u) (u_buffer u) false (u32 (u_avail u + amount)) (u_uploaded u)
      (match u_pending u with [] => u_posts u | _ => Datatypes.S (u_posts u) end)
      (u_granted u + amount) (u_requested u).

(** buffer.resize followed by storage.loadPieceBlock, Uploader.cpp 104-105. *)
Definition loadBlock (load : block -> option (list Z)) (b : block) (buffer : list Z) : list Z :=
  let n := Z.to_nat (b_length b) in
  let resized := firstn n buffer ++ repeat 0 (n - length buffer) in
  match load b with
  | Some d => d
  | None => resized
  end.

(** The loop of sendRequests, Uploader.cpp 95-125: [k] rounds are left, [i] is
    the position, [vec] the vector being compacted in place. *)
Fixpoint sendLoop (est : nat -> bool) (load : block -> option (list Z))
  (k i : nat) (vec : list upload) (delayed : nat) (wanted avail uploaded : Z)
  (buffer : list Z) (sent : list answer)
  : list upload * nat * Z * Z * Z * list Z * list answer :=
  match k with
  | O => (vec, delayed, wanted, avail, uploaded, buffer, sent)
  | Datatypes.S k' =>
    match nth_error vec i with
    | None => (vec, delayed, wanted, avail, uploaded, buffer, sent)
    | Some r =>
      let len := b_length (up_block r) in
      if est (up_peer r) then
        if len <=? avail then
          let buffer' := loadBlock load (up_block r) buffer in
          sendLoop est load k' (Datatypes.S i) vec delayed wanted (avail - len)
            (u64 (uploaded + len)) buffer' (sent ++ [MkAns r buffer'])
        else
          sendLoop est load k' (Datatypes.S i)
            (if (delayed <? i)%nat then upd delayed r vec else vec)
            (Datatypes.S delayed) (u32 (wanted + len)) avail uploaded buffer sent
      else sendLoop est load k' (Datatypes.S i) vec delayed wanted avail uploaded buffer sent
    end
  end.

(** Uploader::sendRequests, Uploader.cpp 87-131, run from the service if a job
    is posted. *)
Definition sendRequests (est : nat -> bool) (load : block -> option (list Z)) (reply : Z -> Z)
  (u : uploader) : uploader * list answer :=
  match u_posts u with
  | O => (u, [])
  | Datatypes.S posts =>
    let '(vec, delayed, wanted, avail, uploaded, buffer, sent) :=
      sendLoop est load (length (u_pending u)) 0 (u_pending u) 0 0 (u_avail u) (u_uploaded u)
        (u_buffer u) [] in
    let u1 := MkU (firstn delayed vec) buffer (u_asking u) avail uploaded posts
                  (u_granted u) (u_requested u) in
    ((if 0 <? wanted then requestBytes wanted reply u1 else u1), sent)
  end.

(** What can happen to an uploader: the calls of FileTransfer.cpp 34, 53, 82, 98,
    of the bandwidth manager and of the service. *)
Inductive call :=
| Ask (r : upload) (reply : Z -> Z)
| Grant (amount : Z)
| Run (est : nat -> bool) (load : block -> option (list Z)) (reply : Z -> Z)
| Cancel (p : nat)
| Refresh (est : nat -> bool)
| Stop.

(** Model only: the calls and events above, in any order, as the histories of the theorems. *)
Definition step (c : call) (u : uploader) : uploader * list answer :=
  match c with
  | Ask r reply => (pieceRequest r reply u, [])
  | Grant n => (assignBandwidth n u, [])
  | Run est load reply => sendRequests est load reply u
  | Cancel p => (cancelRequests p u, [])
  | Refresh est => (refreshRequest est u, [])
  | Stop => (stop u, [])
  end.

(** Model only: the calls and events above, in any order, as the histories of the theorems. *)
Fixpoint run (cs : list call) (u : uploader) : uploader * list answer :=
  match cs with
  | [] => (u, [])
  | c :: cs' =>
    let '(u1, o1) := step c u in
    let '(u2, o2) := run cs' u1 in
    (u2, o1 ++ o2)
  end.
