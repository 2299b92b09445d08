(** Core/MetadataReconstruction.cpp, Core/MetadataExtension.cpp, Core/MetadataDownload.cpp,
    Core/FileTransfer.cpp:120-141 and Core/Torrent.cpp:207-235: torrent metadata fetched from
    peers and served to them. *)
From Verif Require Import Base Dec BencodeModel ShaModel.

(** MetadataExtension.h:12 [PieceSize] *)
Definition mPart : Z := 16384.

(** ** MetadataReconstruction *)

(** MetadataReconstruction.h: the buffer, [pieces], [nextRequestedIndex] and the [std::set]
    [remainingPieces], kept as an ascending list. *)
Record recon := { mbuf : list Z; mpieces : Z; mnext : Z; mremain : list Z }.
(** Also MetadataReconstruction.h. *)
Definition noRecon : recon := {| mbuf := []; mpieces := 0; mnext := 0; mremain := [] |}.

(** [std::set::insert]. For [initLoop], MetadataReconstruction.cpp:9-16. *)
Fixpoint setInsert (x : Z) (l : list Z) : list Z :=
  match l with
  | [] => [x]
  | y :: l' => if x <? y then x :: l else if x =? y then l else y :: setInsert x l'
  end.

(** MetadataReconstruction.cpp:9-16: the loop of [init]. The fuel given below is enough. *)
Fixpoint initLoop (fuel : nat) (sz pieces : Z) (rem : list Z) : Z * list Z :=
  match fuel with
  | O => (pieces, rem)
  | S f => if sz >? 0 then initLoop f (if sz >? mPart then sz - mPart else 0) (u32 (pieces + 1)) (setInsert pieces rem)
           else (pieces, rem)
  end.

(** MetadataReconstruction.cpp:5-17; [resize] keeps old bytes and fills with zeros. *)
Definition minit (r : recon) (sz : Z) : recon :=
  let '(n, rem) := initLoop (Z.to_nat (sz / mPart + 1)) sz 0 (mremain r) in
  {| mbuf := firstn (Z.to_nat sz) (mbuf r) ++ repeat 0 (Z.to_nat sz - length (mbuf r));
     mpieces := n; mnext := 0; mremain := rem |}.

(** Helper of [maddPiece], MetadataReconstruction.cpp:19-31. *)
Definition inSet (x : Z) (l : list Z) : bool := existsb (Z.eqb x) l.
(** Helper of [maddPiece], MetadataReconstruction.cpp:19-31. *)
Definition setErase (x : Z) (l : list Z) : list Z := filter (fun y => negb (y =? x)) l.

(** [memcpy] of [data] to [off] in [b]: outside the buffer it is undefined. For [maddPiece], MetadataReconstruction.cpp:19-31. *)
Definition mcopy (b : list Z) (off : Z) (data : list Z) : res (list Z) :=
  if off + zlen data <=? zlen b
  then Ok (firstn (Z.to_nat off) b ++ data ++ skipn (Z.to_nat off + length data) b) else UB.

(** MetadataReconstruction.cpp:19-31; the offset is computed in 32 bits. *)
Definition maddPiece (r : recon) (data : list Z) (index : Z) : res (recon * bool) :=
  if inSet index (mremain r) then
    bind (mcopy (mbuf r) (u32 (index * mPart)) data) (fun b =>
    Ok ({| mbuf := b; mpieces := mpieces r; mnext := mnext r; mremain := setErase index (mremain r) |}, true))
  else Ok (r, false).

(** MetadataReconstruction.cpp:33-36 *)
Definition mfinished (r : recon) : bool :=
  match mremain r with [] => negb (mpieces r =? 0) | _ => false end.

(** Helper of [getMissingPieceIndex], MetadataReconstruction.cpp:38-53. *)
Definition noIndex : Z := 4294967295.

(** [lower_bound]. For [getMissingPieceIndex], MetadataReconstruction.cpp:38-53. *)
Fixpoint lowerBound (x : Z) (l : list Z) : option Z :=
  match l with [] => None | y :: l' => if x <=? y then Some y else lowerBound x l' end.

(** MetadataReconstruction.cpp:38-53; -1 as a [uint32_t] if there is none. *)
Definition getMissingPieceIndex (r : recon) : recon * Z :=
  match mremain r with
  | [] => (r, noIndex)
  | _ =>
    let next := if last (mremain r) 0 <? mnext r then 0 else mnext r in
    ({| mbuf := mbuf r; mpieces := mpieces r; mnext := u32 (next + 1); mremain := mremain r |},
     match lowerBound next (mremain r) with Some i => i | None => noIndex end)
  end.

(** ** UtMetadata messages *)

(** Helper of [requestBody], MetadataExtension.cpp:58, 8. *)
Definition kMsgType : list Z := [109;115;103;95;116;121;112;101].
(** Helper of [requestBody], MetadataExtension.cpp:58, 8. *)
Definition kPiece : list Z := [112;105;101;99;101].
(** Helper of [responseBody], MetadataExtension.cpp:77-97. *)
Definition kTotalSize : list Z := [116;111;116;97;108;95;115;105;122;101].

(** MetadataExtension.cpp:53-56 [setBufferSizeHeader]; the message id 20 is [Extended]. The
    first four bytes are reserved by [resize] and then overwritten. *)
Definition frame (messageId : Z) (body : list Z) : list Z := be 4 (u32 (2 + zlen body)) ++ [20; u8 messageId] ++ body.

(** MetadataExtension.cpp:58-75. [addRawItem "8:msg_type"] writes its text as it is. *)
Definition requestBody (index : Z) : list Z :=
  let d := startMap [] in
  let d := addNumber (addRawData d ([56;58] ++ kMsgType)) 0 in
  let d := addNumber (addRawData d ([53;58] ++ kPiece)) index in
  endMap d.
(** Also MetadataExtension.cpp:58, 8. *)
Definition sendPieceRequest (messageId index : Z) : list Z := frame messageId (requestBody index).

(** MetadataExtension.cpp:77-97 *)
Definition responseBody (index : Z) (data : list Z) (total : Z) : list Z :=
  let d := startMap [] in
  let d := addNumber (addRawData d ([56;58] ++ kMsgType)) 1 in
  let d := addNumber (addRawData d ([53;58] ++ kPiece)) index in
  let d := addNumber (addRawData d ([49;48;58] ++ kTotalSize)) total in
  addRawData (endMap d) data.
(** Also MetadataExtension.cpp:77-97. *)
Definition sendPieceResponse (messageId index : Z) (data : list Z) (total : Z) : list Z :=
  frame messageId (responseBody index data total).

(** What [Load] leaves in the message: [LUnset] if it says success without setting the type,
    which the callers then read. For [Load], MetadataExtension.cpp:12. *)
Inductive loaded := LFail | LUnset | LRequest (piece : Z) | LData (piece total : Z) (metadata : list Z) | LReject (piece : Z).

(** BencodeParser.cpp:303-307 [getInt] of a name, converted to [uint32_t]. *)
Definition getU32 (fuel : nat) (m : list Z) (objs : list obj) (name : list Z) : out Z :=
  obind (getObject fuel m objs 0 name TNumber) (fun o =>
  match o with None => Val 0 | Some j => obind (itemInt m (nth j objs noObj)) (fun v => Val (u32 v)) end).

(** MetadataExtension.cpp:12-51. [m] is the memory from the message on, [len] the length of the message. The log is
    left out. *)
Definition Load (fuel : nat) (m : list Z) (len : Z) : out loaded :=
  obind (parse fuel m len) (fun r =>
  if negb (pok r) then Val LFail
  else if negb (typeEqb (otyp (nth 0 (pobjs r) noObj)) TDict) then Val LFail
  else obind (getObject fuel m (pobjs r) 0 kMsgType TNumber) (fun o =>
  match o with
  | None => Val LUnset
  | Some j => obind (itemInt m (nth j (pobjs r) noObj)) (fun ty =>
    if ty =? 0 then obind (getU32 fuel m (pobjs r) kPiece) (fun p => Val (LRequest p))
    else if ty =? 1 then
      obind (getU32 fuel m (pobjs r) kPiece) (fun p =>
      obind (getU32 fuel m (pobjs r) kTotalSize) (fun t =>
      Val (LData p t (if negb (t =? 0) && (premaining r <=? mPart)
                      then slice (Z.to_nat (pend r)) (Z.to_nat (premaining r)) m else []))))
    else if ty =? 2 then obind (getU32 fuel m (pobjs r) kPiece) (fun p => Val (LReject p))
    else Val LFail)
  end)).

(** ** Serving: FileTransfer.cpp:120-141 *)

(** The bytes sent for a loaded message, if any. [data] is [infoFile.info.data]. Reading the
    unset type is undefined. FileTransfer.cpp:120-141. *)
Definition serve (data : list Z) (messageId : Z) (msg : loaded) : res (option (list Z)) :=
  match msg with
  | LUnset => UB
  | LRequest piece =>
    let offset := u32 (piece * mPart) in
    Ok (if offset <? zlen data
        then Some (sendPieceResponse messageId piece (slice (Z.to_nat offset) (Z.to_nat (Z.min mPart (zlen data - offset))) data) (zlen data))
        else None)
  | _ => Ok None
  end.

(** ** MetadataDownload *)

(** MetadataDownload.h: [state.active], [state.finished], [state.receivedParts], the
    reconstruction and [activeComms]. [masked] lists the pieces asked for with the peers asked,
    the last first. [minfo] is [infoFile.info]'s data and hash as set by Torrent.cpp:216-217.
    Peers are numbers. The event log and the times are left out; [disconnect] only matters as
    the later [MClosed]. *)
Record mdl := { mact : bool; mfin : bool; mgot : Z; mrec : recon; mcomms : list Z; masked : list (Z * Z);
                minfo : option (list Z * list Z) }.

(** MetadataDownload.h, the initial values of the members. *)
Definition noMdl : mdl := {| mact := false; mfin := false; mgot := 0; mrec := noRecon; mcomms := []; masked := []; minfo := None |}.

(** MetadataDownload.cpp:179-189 *)
Definition requestPiece (s : mdl) (peer : Z) : mdl :=
  if mact s && negb (mfin s) then
    let '(r, i) := getMissingPieceIndex (mrec s) in
    {| mact := mact s; mfin := mfin s; mgot := mgot s; mrec := r; mcomms := mcomms s; masked := (peer, i) :: masked s; minfo := minfo s |}
  else s.

(** The calls from outside. [MRetry] is the timer at MetadataDownload.cpp:27-38 when more than five seconds passed.
    [MStop] comes from the user or was posted at 139. *)
Inductive mevent :=
| MStart
| MHandshake (peer size : Z) (enabled : bool)
| MMessage (peer : Z) (msg : loaded)
| MRetry
| MClosed (peer : Z)
| MStop.

(** MetadataDownload.cpp:158-177 *)
Definition onHandshake (s : mdl) (peer size : Z) (enabled : bool) : mdl :=
  if negb (size =? 0) && enabled then
    requestPiece {| mact := mact s; mfin := mfin s; mgot := mgot s;
                    mrec := if mpieces (mrec s) =? 0 then minit (mrec s) size else mrec s;
                    mcomms := mcomms s ++ [peer]; masked := masked s; minfo := minfo s |} peer
  else s.

(** MetadataDownload.cpp:105-156 *)
Definition onMessage (s : mdl) (peer : Z) (msg : loaded) : res mdl :=
  if negb (mact s) then Ok s else
  match msg with
  | LUnset => UB
  | LData piece total data =>
    if negb (zlen (mbuf (mrec s)) =? total) then Ok s else
    bind (maddPiece (mrec s) data piece) (fun ra =>
    let '(r, added) := ra in
    let s1 := {| mact := mact s; mfin := mfin s; mgot := if added then u32 (mgot s + 1) else mgot s; mrec := r;
                 mcomms := mcomms s; masked := masked s; minfo := minfo s |} in
    if mfinished r then
      Ok {| mact := mact s1; mfin := true; mgot := mgot s1; mrec := mrec s1; mcomms := mcomms s1; masked := masked s1; minfo := minfo s1 |}
    else Ok (requestPiece s1 peer))
  | _ => Ok s
  end.

(** Helper of [mstep], Torrent.cpp:214-217. *)
Fixpoint removeFirst (x : Z) (l : list Z) : list Z :=
  match l with [] => [] | y :: l' => if x =? y then l' else y :: removeFirst x l' end.

(** 14-43 [start] (what matters of it), 30-37, 86-99 and 45-61 with the [End] event handled by
    Torrent.cpp:214-217: the reconstructed data and its hash become the torrent's. There the buffer is moved out of
    the reconstruction, which is not used again; here it stays. *)
Definition mstep (s : mdl) (e : mevent) : res mdl :=
  match e with
  | MStart => Ok {| mact := true; mfin := mfin s; mgot := mgot s; mrec := mrec s; mcomms := mcomms s; masked := masked s; minfo := minfo s |}
  | MHandshake p sz en => Ok (onHandshake s p sz en)
  | MMessage p msg => onMessage s p msg
  | MRetry => Ok (if mact s && negb (mfin s) then fold_left requestPiece (mcomms s) s else s)
  | MClosed p => Ok {| mact := mact s; mfin := mfin s; mgot := mgot s; mrec := mrec s; mcomms := removeFirst p (mcomms s); masked := masked s; minfo := minfo s |}
  | MStop => Ok (if mact s then
      {| mact := false; mfin := mfin s; mgot := mgot s; mrec := mrec s; mcomms := []; masked := masked s;
         minfo := if mfinished (mrec s) then Some (mbuf (mrec s), SHA1 (mbuf (mrec s))) else minfo s |} else s)
  end.

(** Model only: the calls and events above, in any order, as the histories of the theorems. *)
Fixpoint mrun (s : mdl) (evs : list mevent) : res mdl :=
  match evs with [] => Ok s | e :: evs' => bind (mstep s e) (fun s' => mrun s' evs') end.
