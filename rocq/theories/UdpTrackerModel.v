(** Model of mtTorrent/Core/UdpTrackerComm.cpp. Random numbers, the values of the torrent and
    the time are arguments; messages sent are collected. *)
From Verif Require Import Base PacketModel HttpModel.

(** What a request tells about the torrent: UdpTrackerComm.cpp:121-133. *)
Record tvalues := { vhash : list Z; vpeerId : list Z; vdownloaded : Z; vleft : Z; vuploaded : Z; vfinished : bool;
                    vkey : Z; vnumWant : Z; vport : Z }.

(** TrackerState (Api/Interface.h:111) *)
Definition sOffline : Z := 2.
(** Also Interface.h:111. *)
Definition sConnecting : Z := 4.
(** Also Interface.h:111. *)
Definition sConnected : Z := 5.
(** Also Interface.h:111. *)
Definition sAnnouncing : Z := 6.
(** Also Interface.h:111. *)
Definition sAnnounced : Z := 7.

(** Actions and events (UdpTrackerComm.h:47-61) *)
Definition aConnect : Z := 0.
(** Also UdpTrackerComm.h:47-61. *)
Definition aAnnounce : Z := 1.
(** Also UdpTrackerComm.h:47-61. *)
Definition eCompleted : Z := 1.
(** Also UdpTrackerComm.h:47-61. *)
Definition eStarted : Z := 2.

(** [ulast] is [lastMessage], [usent] the messages sent with a callback (true: for the reply of
    an announce); [ufails] and [uresults] count the calls of [onFail] and keep those of
    [onAnnounceResult]. For [usend], UdpTrackerComm.cpp:40, 114. *)
Record utracker := { ustate : Z; ulast : Z * Z; uconn : Z; useeds : Z; uleeches : Z; upeers : Z; uinterval : Z;
                     usent : list (bool * list Z); ufails : nat; uresults : list announceResp }.

(** UdpTrackerComm.h, the initial values of the members. *)
Definition newTracker : utracker :=
  {| ustate := 0; ulast := (0, 0); uconn := 0; useeds := 0; uleeches := 0; upeers := 0; uinterval := 0; usent := []; ufails := 0; uresults := [] |}.

(** Model only: record update. *)
Definition usetState (t : utracker) (s : Z) : utracker :=
  {| ustate := s; ulast := ulast t; uconn := uconn t; useeds := useeds t; uleeches := uleeches t; upeers := upeers t; uinterval := uinterval t;
     usent := usent t; ufails := ufails t; uresults := uresults t |}.

(** UdpTrackerComm.cpp:35-48: the message *)
Definition connectRequest (transaction : Z) : list Z :=
  add32 (add32 (add64 [] 4497486125440) aConnect) transaction.

(** UdpTrackerComm.cpp:110-136: the message *)
Definition announceRequest (connectionId transaction : Z) (v : tvalues) : list Z :=
  let p := add32 (add32 (add64 [] connectionId) aAnnounce) transaction in
  let p := addRaw (addRaw p (vhash v)) (vpeerId v) in
  let p := add64 (add64 (add64 p (vdownloaded v)) (vleft v)) (vuploaded v) in
  let p := add32 (add32 p (if vfinished v then eCompleted else eStarted)) 0 in
  add16 (add32 (add32 p (vkey v)) (vnumWant v)) (vport v).

(** Sending a message, which remembers it (UdpTrackerComm.cpp:40, 114). *)
Definition usend (t : utracker) (s action transaction : Z) (msg : bool * list Z) : utracker :=
  {| ustate := s; ulast := (action, transaction); uconn := uconn t; useeds := useeds t; uleeches := uleeches t; upeers := upeers t; uinterval := uinterval t;
     usent := usent t ++ [msg]; ufails := ufails t; uresults := uresults t |}.

(** UdpTrackerComm.cpp:187-200 with 174-180; [transaction] is the random number drawn. *)
Definition uannounce (t : utracker) (transaction : Z) (v : tvalues) : utracker :=
  if ustate t <? sConnected then usend t sConnecting aConnect transaction (false, connectRequest transaction)
  else usend t sAnnouncing aAnnounce transaction (true, announceRequest (uconn t) transaction v).

(** UdpTrackerComm.cpp:50-63 *)
Definition ufail (t : utracker) : utracker :=
  let s := if ustate t <? sConnected then sOffline else if ustate t <? sAnnounced then sConnected else sAnnounced in
  {| ustate := s; ulast := ulast t; uconn := uconn t; useeds := useeds t; uleeches := uleeches t; upeers := upeers t; uinterval := uinterval t;
     usent := usent t; ufails := S (ufails t); uresults := uresults t |}.

(** UdpTrackerComm.cpp:182-185 *)
Definition uvalid (t : utracker) (action transaction : Z) : bool := (action =? fst (ulast t)) && (transaction =? snd (ulast t)).

(** UdpTrackerComm.cpp:202-216: action, transaction and connection id; [sizeof(ConnectResponse)] is 16. *)
Definition getConnectResponse (b : list Z) : res (Z * Z * Z) :=
  if 16 <=? zlen b then
    bind (pop32 (newReader b)) (fun r1 => bind (pop32 (snd r1)) (fun r2 => bind (pop64 (snd r2)) (fun r3 => Ok (fst r1, fst r2, fst r3))))
  else Ok (0, 0, 0).

(** UdpTrackerComm.cpp:238-239: an address is the number whose bytes in memory are those received *)
Fixpoint popRawPeers (n : nat) (r : reader) : res (list (Z * Z)) :=
  match n with
  | O => Ok []
  | S n' => bind (popBuffer 4 r) (fun a => bind (pop16 (snd a)) (fun p => bind (popRawPeers n' (snd p)) (fun l => Ok ((unle (fst a), fst p) :: l))))
  end.

(** UdpTrackerComm.cpp:218-243: action, transaction and the response. [getRemainingSize() / 6.0f] is computed in
    [float]; for the at most 65535 bytes of a datagram, cutting it off gives the whole
    quotient. *)
Definition getAnnounceResponse (b : list Z) : res (Z * Z * announceResp) :=
  bind (pop32 (newReader b)) (fun r1 => bind (pop32 (snd r1)) (fun r2 =>
  if zlen b <? 26 then Ok (fst r1, fst r2, noResp)
  else
    bind (pop32 (snd r2)) (fun r3 => bind (pop32 (snd r3)) (fun r4 => bind (pop32 (snd r4)) (fun r5 =>
    bind (popRawPeers (Z.to_nat (remaining (snd r5) / 6)) (snd r5)) (fun ps =>
    Ok (fst r1, fst r2, {| ainterval := fst r3; aleeches := fst r4; aseeds := fst r5; apeers := ps |}))))))).

(** UdpTrackerComm.cpp:65-93; the bool is what the function returns: the reply is used up. *)
Definition onConnectReply (t : utracker) (b : list Z) (transaction : Z) (v : tvalues) : res (bool * utracker) :=
  match b with
  | [] => Ok (false, ufail t)
  | _ =>
    bind (getConnectResponse b) (fun r => let '(a, x, c) := r in
    if uvalid t a x then
      let t1 := {| ustate := sConnected; ulast := ulast t; uconn := c; useeds := useeds t; uleeches := uleeches t; upeers := upeers t; uinterval := uinterval t;
                   usent := usent t; ufails := ufails t; uresults := uresults t |} in
      Ok (true, uannounce t1 transaction v)
    else if x =? snd (ulast t) then Ok (true, ufail t)
    else Ok (false, t))
  end.

(** UdpTrackerComm.cpp:138-172 *)
Definition onAnnounceReply (t : utracker) (b : list Z) : res (bool * utracker) :=
  match b with
  | [] => Ok (false, ufail t)
  | _ =>
    bind (getAnnounceResponse b) (fun r => let '(a, x, m) := r in
    if uvalid t a x then
      Ok (true, {| ustate := sAnnounced; ulast := ulast t; uconn := uconn t; useeds := aseeds m; uleeches := aleeches m;
                   upeers := u32 (zlen (apeers m)); uinterval := ainterval m; usent := usent t; ufails := ufails t; uresults := uresults t ++ [m] |})
    else if x =? snd (ulast t) then Ok (true, ufail t)
    else Ok (false, t))
  end.

(** What can happen: an announce is asked for, and replies or their absence (an empty message),
    in any order. Model only: the calls and events above, in any order, as the histories of the theorems. *)
Inductive uevent := UAnnounce (transaction : Z) (v : tvalues) | UConnectReply (b : list Z) (transaction : Z) (v : tvalues) | UAnnounceReply (b : list Z).

(** Model only: the calls and events above, in any order, as the histories of the theorems. *)
Definition ustep (t : utracker) (e : uevent) : res utracker :=
  match e with
  | UAnnounce x v => Ok (uannounce t x v)
  | UConnectReply b x v => bind (onConnectReply t b x v) (fun r => Ok (snd r))
  | UAnnounceReply b => bind (onAnnounceReply t b) (fun r => Ok (snd r))
  end.

(** Model only: the calls and events above, in any order, as the histories of the theorems. *)
Fixpoint urun (t : utracker) (es : list uevent) : res utracker :=
  match es with [] => Ok t | e :: es' => bind (ustep t e) (fun t' => urun t' es') end.
