(** Model of mtTorrent/Core/PeerMessage.cpp, the message creation functions and the
    receive loop of mtTorrent/Core/PeerCommunication.cpp, and the read buffer of
    mtTorrent/utils/TcpAsyncStream.cpp. *)
From Verif Require Import Base PacketModel.

(** PeerMessage.h:10-26 message ids. *)
Definition idChoke := 0.
(** Also PeerMessage.h:10-26. *)
Definition idUnchoke := 1.
(** Also PeerMessage.h:10-26. *)
Definition idInterested := 2.
(** Also PeerMessage.h:10-26. *)
Definition idNotInterested := 3.
(** Also PeerMessage.h:10-26. *)
Definition idHave := 4.
(** Also PeerMessage.h:10-26. *)
Definition idBitfield := 5.
(** Also PeerMessage.h:10-26. *)
Definition idRequest := 6.
(** Also PeerMessage.h:10-26. *)
Definition idPiece := 7.
(** Also PeerMessage.h:10-26. *)
Definition idCancel := 8.
(** Also PeerMessage.h:10-26. *)
Definition idPort := 9.
(** Also PeerMessage.h:10-26. *)
Definition idExtended := 20.
(** Also PeerMessage.h:10-26. *)
Definition idHandshake := 21.
(** Also PeerMessage.h:10-26. *)
Definition idKeepAlive := 22.
(** Also PeerMessage.h:10-26. *)
Definition idInvalid := 23.

(** The fields a constructed message has initialised. [FNone]: none; the members
    [havePieceIndex], [request], [port], [handshake], [extended.id] then hold indeterminate
    values. For [pmsg], PeerMessage.h:27-55. *)
Inductive fields :=
| FNone
| FHave (index : Z)
| FBitfield (data : list Z)
| FRequest (index begin length : Z)
| FPiece (index begin length : Z) (data : list Z)
| FPort (port : Z)
| FExtended (id : Z) (data : list Z)
| FHandshake (reserved info peerId : list Z).

(** PeerMessage.h:27-55. *)
Record pmsg := { mid : Z; mfields : fields; messageSize : Z }.

(** "BitTorrent protocol". For [startsAsHandshake], PeerMessage.cpp:88-91. *)
Definition protocolName : list Z :=
  [66;105;116;84;111;114;114;101;110;116;32;112;114;111;116;111;99;111;108].

(** PeerMessage.cpp:88-91 [startsAsHandshake]. *)
Definition startsAsHandshake (b : list Z) : bool :=
  Nat.leb 20 (length b) && (nth 0 b 0 =? 19) && list_eqb (slice 1 19 b) protocolName.

(** PeerMessage.cpp:41-79 the message body: reader behind the length, [size] >= 1. *)
Definition parseBody (r0 : reader) (size : Z) : res (Z * fields) :=
  bind (pop8 r0) (fun p => let '(id, r) := p in
  if (id =? idHave) && (size =? 5) then
    bind (pop32 r) (fun p => Ok (id, FHave (fst p)))
  else if id =? idBitfield then
    bind (popBuffer (Z.to_nat (size - 1)) r) (fun p => Ok (id, FBitfield (fst p)))
  else if (id =? idRequest) && (size =? 13) then
    bind (pop32 r) (fun a => bind (pop32 (snd a)) (fun b => bind (pop32 (snd b)) (fun c =>
      Ok (id, FRequest (fst a) (fst b) (fst c)))))
  else if (id =? idPiece) && (9 <? size) then
    bind (pop32 r) (fun a => bind (pop32 (snd a)) (fun b =>
    bind (popBuffer (Z.to_nat (size - 9)) (snd b)) (fun c =>
      Ok (id, FPiece (fst a) (fst b) (u32 (zlen (fst c))) (fst c)))))
  else if (id =? idCancel) && (size =? 13) then
    bind (pop32 r) (fun a => bind (pop32 (snd a)) (fun b => bind (pop32 (snd b)) (fun c =>
      Ok (id, FRequest (fst a) (fst b) (fst c)))))
  else if (id =? idPort) && (size =? 3) then
    bind (pop16 r) (fun p => Ok (id, FPort (fst p)))
  else if (id =? idExtended) && (2 <? size) then
    bind (pop8 r) (fun a => bind (popBuffer (Z.to_nat (size - 2)) (snd a)) (fun b =>
      Ok (id, FExtended (fst a) (fst b))))
  else Ok (id, FNone)).

(** PeerMessage.cpp:6-86 the constructor. [messageSize] is a [uint16_t] (PeerMessage.h:44)
    assigned from the 32-bit sum [size + 4]. *)
Definition parseMsg (b : list Z) : res pmsg :=
  if Nat.ltb (length b) 4 then
    Ok {| mid := idInvalid; mfields := FNone; messageSize := 1 |}
  else if Nat.leb 68 (length b) && startsAsHandshake b then
    Ok {| mid := idHandshake;
          mfields := FHandshake (slice 20 8 b) (slice 28 20 b) (slice 48 20 b);
          messageSize := 68 |}
  else
    bind (pop32 (newReader b)) (fun p => let '(size, r) := p in
    let ms := u16 (u32 (size + 4)) in
    if remaining r <? size then
      Ok {| mid := idInvalid; mfields := FNone; messageSize := ms |}
    else
      bind (if size =? 0 then Ok (idKeepAlive, FNone) else parseBody r size) (fun q =>
      if idInvalid <=? fst q
      then Ok {| mid := idInvalid; mfields := FNone; messageSize := 0 |}
      else Ok {| mid := fst q; mfields := snd q; messageSize := ms |})).

(** PeerCommunication.cpp:203-229 [dataReceived]: the messages handled, and the number of
    bytes reported as consumed. [None]: the loop did not end within [fuel] messages.
    [handleMessage] is modelled by recording the message. *)
Fixpoint dataReceivedLoop (fuel : nat) (b : list Z) (consumed : nat) : option (res (list pmsg * nat)) :=
  match fuel with
  | O => None
  | S fuel' =>
    match parseMsg (skipn consumed b) with
    | UB => Some UB
    | Ok m =>
      if negb (mid m =? idInvalid) then
        match dataReceivedLoop fuel' b (consumed + Z.to_nat (messageSize m)) with
        | None => None
        | Some UB => Some UB
        | Some (Ok (ms, c)) => Some (Ok (m :: ms, c))
        end
      else if messageSize m =? 0 then Some (Ok ([], length b))
      else Some (Ok ([], consumed))
    end
  end.

(** TcpAsyncStream.h ReadBuffer: [rdata] the vector, [rused] the member [pos]. *)
Record readBuffer := { rdata : list Z; rused : nat }.

(** TcpAsyncStream.h, the initial values of the members. *)
Definition emptyReadBuffer : readBuffer := {| rdata := []; rused := 0 |}.

(** TcpAsyncStream.cpp:535-549 [reserve]: both branches make room for [n] bytes behind the
    used ones and keep those; new bytes are zero ([std::vector::resize]). *)
Definition reserve (rb : readBuffer) (n : nat) : readBuffer :=
  {| rdata := firstn (rused rb) (rdata rb) ++
              (firstn n (skipn (rused rb) (rdata rb)) ++
               repeat 0 (n - (length (rdata rb) - rused rb)));
     rused := rused rb |}.

(** The socket writes [chunk] at the reserved place; TcpAsyncStream.cpp:515-520
    [advanceBuffer]. *)
Definition received (rb : readBuffer) (chunk : list Z) : readBuffer :=
  {| rdata := firstn (rused rb) (rdata rb) ++ chunk ++ skipn (rused rb + length chunk) (rdata rb);
     rused := rused rb + length chunk |}.

(** TcpAsyncStream.cpp:522-533 [consume]. *)
Definition consume (rb : readBuffer) (n : nat) : readBuffer :=
  let pos := (rused rb - n)%nat in
  if negb (Nat.eqb pos 0) && negb (Nat.eqb n 0)
  then {| rdata := slice n pos (rdata rb); rused := pos |}
  else {| rdata := rdata rb; rused := pos |}.

(** TcpAsyncStream.cpp:474-496 and 374-412: one receive of [chunk] with room for [n] bytes,
    then the callback on the used bytes and [consume] of what it reports. The callback is
    [dataReceived]; [None] if it does not end. The fuel is one more than the bytes present:
    enough unless a message of size 0 is handled. *)
Definition receiveChunk (rb : readBuffer) (n : nat) (chunk : list Z) : option (res (readBuffer * list pmsg)) :=
  let rb1 := received (reserve rb n) chunk in
  let view := firstn (rused rb1) (rdata rb1) in
  match dataReceivedLoop (S (length view)) view 0 with
  | None => None
  | Some UB => Some UB
  | Some (Ok (ms, c)) => Some (Ok (consume rb1 c, ms))
  end.

(** A whole connection: the chunks received, each with the room requested for it. Model only: the calls and events above, in any order, as the histories of the theorems. *)
Fixpoint receiveAll (rb : readBuffer) (chunks : list (nat * list Z)) : option (res (readBuffer * list pmsg)) :=
  match chunks with
  | [] => Some (Ok (rb, []))
  | (n, c) :: rest =>
    match receiveChunk rb n c with
    | None => None
    | Some UB => Some UB
    | Some (Ok (rb1, ms1)) =>
      match receiveAll rb1 rest with
      | None => None
      | Some UB => Some UB
      | Some (Ok (rb2, ms2)) => Some (Ok (rb2, ms1 ++ ms2))
      end
    end
  end.

(** ** Message creation, PeerCommunication.cpp:15-97. Integers are [uint32_t]/[uint16_t],
    ids are appended as one [char]. *)

(** PeerCommunication.cpp:15-33; [dht] is the configuration value read on line 24. *)
Definition createHandshake (dht : bool) (torrentHash clientHash : list Z) : list Z :=
  let reserved := [0;0;0;0;0; Z.lor 0 16; 0; (if dht then Z.lor 0 128 else 0)] in
  addRaw (addRaw (addRaw (addRaw (add8 [] 19) protocolName) reserved)
    (firstn 20 torrentHash)) (firstn 20 clientHash).

(** PeerCommunication.cpp:35-42 *)
Definition createStateMessage (id : Z) : list Z := add8 (add32 [] 1) id.

(** PeerCommunication.cpp:44-54 *)
Definition createBlockRequest (index begin length : Z) : list Z :=
  add32 (add32 (add32 (add8 (add32 [] 13) idRequest) index) begin) length.

(** PeerCommunication.cpp:56-64 *)
Definition createHave (idx : Z) : list Z := add32 (add8 (add32 [] 5) idHave) idx.

(** PeerCommunication.cpp:66-74 *)
Definition createPort (port : Z) : list Z := add16 (add8 (add32 [] 3) idPort) port.

(** PeerCommunication.cpp:76-84 *)
Definition createBitfield (bitfield : list Z) : list Z :=
  addRaw (add8 (add32 [] (u32 (1 + u32 (zlen bitfield)))) idBitfield) bitfield.

(** PeerCommunication.cpp:86-97 *)
Definition createPiece (index begin : Z) (buffer : list Z) : list Z :=
  let dataSize := u32 (1 + 8 + u32 (zlen buffer)) in
  addRaw (add32 (add32 (add8 (add32 [] dataSize) idPiece) index) begin) buffer.

(** PeerCommunication.cpp:305-312 [sendKeepAlive]. *)
Definition createKeepAlive : list Z := repeat 0 4.

(** PeerCommunication.cpp:104-129: an extended message: length, Extended, extension id, payload
    ([Assign32] writes the length last). *)
Definition createExtended (extId : Z) (payload : list Z) : list Z :=
  let data := repeat 0 4 ++ [idExtended; u8 extId] ++ payload in
  le 4 (bswap 4 (u32 (zlen data - 4))) ++ skipn 4 data.
