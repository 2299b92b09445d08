(** Model of mtTorrent/Core/HolepunchExtension.cpp and of its use in Core/Peers.cpp. *)
From Verif Require Import Base PacketModel AddrModel.

(** HolepunchExtension.h:13-28: [MessageId] and [ErrorCode] as numbers. [hErr] is only set for
    an error; before that it is whatever was in memory. *)
Definition hRendezvous : Z := 0.
(** Also HolepunchExtension.h:13-28. *)
Definition hConnect : Z := 1.
(** Also HolepunchExtension.h:13-28. *)
Definition hError : Z := 2.
(** Also HolepunchExtension.h:13-28. *)
Record hmsg := { hId : Z; hAddr : addr; hErr : Z }.

(** HolepunchExtension.cpp:9-29 [Load]. [old] and [e0] are what the message object held
    (the bytes of its address, its error code), [b] the buffer. Reading outside is undefined:
    line 26 has no check of the size. *)
Definition hLoad (old : list Z) (e0 : Z) (b : list Z) : res (option hmsg) :=
  if zlen b <? 8 then Ok None
  else
    let id := nth 0 b 0 in
    if 1 <? nth 1 b 0 then Ok None
    else
      let v6 := nth 1 b 0 =? 1 in
      if v6 && (zlen b <? 20) then Ok None
      else
        bind (parseAddr old (skipn 2 b) v6) (fun p =>
        if id =? hError then
          bind (pop32 {| rbuf := b; rpos := 2 + Z.to_nat (snd p) |}) (fun e =>
          Ok (Some {| hId := id; hAddr := fst p; hErr := fst e |}))
        else Ok (Some {| hId := id; hAddr := fst p; hErr := e0 |})).

(** HolepunchExtension.cpp:46-66 [send]: the bytes given to the peer. [mid] is the number the
    peer chose for this extension, 20 the number of extended messages (PeerMessage.h). *)
Definition hBody (mid : Z) (a : addr) (id e : Z) : list Z :=
  [20; u8 mid; u8 id; (if ipv6 a then 1 else 0)] ++ toData a ++ (if id =? hError then addN 4 [] e else []).
(** Also HolepunchExtension.cpp:46-66. *)
Definition hSend (mid : Z) (a : addr) (id e : Z) : list Z :=
  addN 4 [] (zlen (hBody mid a id e)) ++ hBody mid a id e.

(** ** Core/Peers.cpp:695-730 [handleHolepunchMessage] *)

(** What is used of an active connection: the address of its stream, if it is a uTP stream,
    the number the peer gave to the extension, and whether the extension has its pointer to the
    connection (ExtensionProtocol.cpp:5-14 [init]: both are set when the handshake of the peer
    names the extension, else they stay 0 and null). *)
Record hpeer := { hpAddr : addr; hpUtp : bool; hpMid : Z; hpPtr : bool }.

(** ExtensionProtocol.cpp:5-14 [init] *)
Definition hInit (p : hpeer) (named : option Z) : hpeer :=
  match named with
  | Some id => {| hpAddr := hpAddr p; hpUtp := hpUtp p; hpMid := u8 id; hpPtr := true |}
  | None => p
  end.

(** ExtensionProtocol.cpp:16-19 [enabled] *)
Definition hpEnabled (p : hpeer) : bool := negb (hpMid p =? 0).

(** What happens: bytes sent to a peer (by its place in the list), or a connection opened. For [hTo], HolepunchExtension.cpp:65. *)
Inductive hact := HSend (to : nat) (bytes : list Z) | HOpen (a : addr).

(** Peers.cpp:509-518 [getActivePeer(Addr)]: the first with that address. *)
Fixpoint hFind (a : addr) (l : list hpeer) (i : nat) : option nat :=
  match l with
  | [] => None
  | p :: l' => if addrEq (hpAddr p) a then Some i else hFind a l' (S i)
  end.

(** Helper of [hTo], HolepunchExtension.cpp:65. *)
Definition noPeer : hpeer :=
  {| hpAddr := {| addrBytes := repeat 0 16; port := 0; ipv6 := false |}; hpUtp := false; hpMid := 0; hpPtr := false |}.

(** HolepunchExtension.cpp:65 [peer->send]: through a null pointer it is undefined. *)
Definition hTo (l : list hpeer) (i : nat) (a : addr) (id e : Z) : res (list hact) :=
  let p := nth i l noPeer in
  if hpPtr p then Ok [HSend i (hSend (hpMid p) a id e)] else UB.

(** Peers.cpp:695-730. [from] is the place of the sender among the active connections [l]; [maxC] the largest
    number of connections from the settings. *)
Definition hHandle (maxC : Z) (l : list hpeer) (from : nat) (m : hmsg) : res (list hact) :=
  if hId m =? hRendezvous then
    match hFind (hAddr m) l 0 with
    | Some t =>
      if hpUtp (nth t l noPeer) && hpEnabled (nth t l noPeer)
      then bind (hTo l t (hpAddr (nth from l noPeer)) hConnect 0) (fun x =>
           bind (hTo l from (hAddr m) hConnect 0) (fun y => Ok (x ++ y)))
      else Ok []
    | None => hTo l from (hAddr m) hError 2
    end
  else if hId m =? hConnect then Ok (if zlen l <? maxC then [HOpen (hAddr m)] else [])
  else Ok [].

(** Peers.cpp:737-747 [extendedMessageReceived] for this extension. *)
Definition hReceive (maxC : Z) (l : list hpeer) (from : nat) (old : list Z) (e0 : Z) (b : list Z) : res (list hact) :=
  bind (hLoad old e0 b) (fun o => match o with Some m => hHandle maxC l from m | None => Ok [] end).
