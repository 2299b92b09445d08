(** Peers that connect to us: Core/IncomingPeersListener.cpp, which waits for their first bytes and hands them to their torrent. The streams, the
    owner's callback (Core.cpp:298-302) and the encryption handshake (PeModel.v) are the environment; the ports on routers are in UpnpModel.v and
    the mutex in LockModel.v. *)
From Verif Require Import Base.

(** Who is called when a stream receives or closes: this object (IncomingPeersListener.cpp:135-142, 162-170), the peer it was handed to
    (PeerCommunication.cpp:175-180), or no one (IncomingPeersListener.cpp:89-90) *)
Inductive who := ByListener | ByOwner | ByNobody.

(** What the callback of Core.cpp:298-302 does with a peer. [Refuses]: there is no such torrent (301) or it is not active (Peers.cpp:219-220), the
    answer is 0. [Takes n]: the torrent sets its own callbacks and answers with the number of bytes it used (Peers.cpp:241). *)
Inductive answer := Refuses | Takes (n : nat).

(** Model only: what the object does. [OHanded id e hash data]: the callback is called with this stream, whose ciphers are set when [e].
    [OClose]: the stream is told to close. [OUsed id n]: [n] bytes received by the stream are done with. *)
Inductive out := OHanded (id : nat) (e : bool) (hash data : list Z) | OWrote (id : nat) (data : list Z) | OClose (id : nat) | OUsed (id n : nat).

(** PeerMessage.cpp:88-91 [startsAsHandshake] *)
Definition protocolName : list Z := [66; 105; 116; 84; 111; 114; 114; 101; 110; 116; 32; 112; 114; 111; 116; 111; 99; 111; 108].
(** Helper of [startsAsHandshake]: memcmp of PeerMessage.cpp:90 *)
Fixpoint same (a b : list Z) : bool :=
  match a, b with [], [] => true | x :: a', y :: b' => (x =? y) && same a' b' | _, _ => false end.
(** PeerMessage.cpp:88-91 [startsAsHandshake] *)
Definition startsAsHandshake (data : list Z) : bool := (20 <=? length data)%nat && same (firstn 20 data) (19 :: protocolName).

(** PeerMessage.cpp:6-33 for data that [startsAsHandshake]: handshake.info. With fewer than 68 bytes the constructor takes the data for a message
    of 0x13426974 bytes that is not there yet and leaves the member unset (PeerMessage.h:32-38), so the caller compares indeterminate bytes. *)
Definition handshakeInfo (data : list Z) : res (list Z) :=
  if (length data <? 68)%nat then UB else Ok (firstn 20 (skipn 28 data)).

Section Listener.

(** Model only: the encryption handshake, ProtocolEncryption.h:46-75. [peRead] is readRemoteDataAsListener: the state after, the bytes used and
    the response; [peDone] is established() with getTorrentHash() and getInitialBtMessage(); [peBad] is failed(); [peCipher]
    whether its ciphers were made (readPe3Handshake). *)
Variable H : Type.
Variable peNew : H.
Variable peRead : H -> list Z -> H * nat * list Z.
Variable peDone : H -> option (list Z * list Z).
Variable peBad : H -> bool.
Variable peCipher : H -> bool.

(** IncomingPeersListener.h:28-51: [lTcp] is tcpListener, [lUtp] the callback at the uTP manager, [lPending] is pendingPeers by stream. Streams are
    numbered as they come, [lNext] is the next number. [lStreams]: the streams that are not closed and whom they call. *)
Record listener := { lTcp : bool; lUtp : bool; lPending : list (nat * option H); lStreams : list (nat * who); lNext : nat; lOut : list out }.

(** Model only: a new object *)
Definition newListener : listener := {| lTcp := false; lUtp := false; lPending := []; lStreams := []; lNext := 0; lOut := [] |}.

(** Model only: setter for what was done *)
Definition emit (o : list out) (s : listener) : listener :=
  {| lTcp := lTcp s; lUtp := lUtp s; lPending := lPending s; lStreams := lStreams s; lNext := lNext s; lOut := lOut s ++ o |}.
(** Model only: setter for the pending peers *)
Definition setPending (p : list (nat * option H)) (s : listener) : listener :=
  {| lTcp := lTcp s; lUtp := lUtp s; lPending := p; lStreams := lStreams s; lNext := lNext s; lOut := lOut s |}.
(** Model only: setter for the streams *)
Definition setStreams (l : list (nat * who)) (s : listener) : listener :=
  {| lTcp := lTcp s; lUtp := lUtp s; lPending := lPending s; lStreams := l; lNext := lNext s; lOut := lOut s |}.
(** Model only: setter for the listeners *)
Definition setListen (t u : bool) (s : listener) : listener :=
  {| lTcp := t; lUtp := u; lPending := lPending s; lStreams := lStreams s; lNext := lNext s; lOut := lOut s |}.

(** std::map find of IncomingPeersListener.cpp:239, 259 *)
Fixpoint find (id : nat) (l : list (nat * option H)) : option (option H) :=
  match l with [] => None | (i, h) :: l' => if (i =? id)%nat then Some h else find id l' end.
(** std::map erase of IncomingPeersListener.cpp:232, 244 *)
Definition erase (id : nat) (l : list (nat * option H)) : list (nat * option H) := filter (fun p => negb (fst p =? id)%nat) l.
(** IncomingPeersListener.cpp:261-264: the handshake is kept with the peer *)
Definition keep (id : nat) (h : H) (l : list (nat * option H)) : list (nat * option H) :=
  map (fun p => if (fst p =? id)%nat then (id, Some h) else p) l.

(** Model only: whom the stream calls; [None] when it is closed or never was *)
Fixpoint calls (id : nat) (l : list (nat * who)) : option who :=
  match l with [] => None | (i, w) :: l' => if (i =? id)%nat then Some w else calls id l' end.
(** PeerCommunication.cpp:175-180: the stream calls another *)
Definition give (id : nat) (w : who) (l : list (nat * who)) : list (nat * who) :=
  map (fun p => if (fst p =? id)%nat then (id, w) else p) l.

(** IncomingPeersListener.cpp:235-253 [startPeer]; [a] is what the callback does when it is called. The number of bytes it used. *)
Definition startPeer (id : nat) (data hash : list Z) (a : answer) (s : listener) : nat * listener :=
  match find id (lPending s) with
  | None => (0%nat, s)
  | Some h =>
    let s1 := emit [OHanded id (match h with Some p => peCipher p | None => false end) hash data] (setPending (erase id (lPending s)) s) in
    match a with
    | Refuses => (0%nat, s1)
    | Takes n => (n, setStreams (give id ByOwner (lStreams s1)) s1)
    end
  end.

(** IncomingPeersListener.cpp:255-268 [getPeHandshake] *)
Definition getPeHandshake (id : nat) (s : listener) : option H :=
  match find id (lPending s) with None => None | Some None => Some peNew | Some (Some h) => Some h end.

(** IncomingPeersListener.cpp:175-223 [readStreamData] *)
Definition readStreamData (id : nat) (data : list Z) (a : answer) (s : listener) : res (nat * listener) :=
  if (length data <? 20)%nat then Ok (0%nat, s)
  else if startsAsHandshake data then
    bind (handshakeInfo data) (fun hash =>
    let (sz, s1) := startPeer id data hash a s in
    Ok (sz, if (sz =? 0)%nat then emit [OClose id] s1 else s1))
  else
    match getPeHandshake id s with
    | None => Ok (0%nat, s)
    | Some h =>
      let '(h1, sz, response) := peRead h data in
      let s1 := setPending (keep id h1 (lPending s)) s in
      let s2 := match response with [] => s1 | _ => emit [OWrote id response] s1 end in
      let s3 := match peDone h1 with
                | Some (hash, message) => snd (startPeer id message hash a s2)
                | None => if peBad h1 then emit [OClose id] s2 else s2
                end in
      Ok (sz, s3)
    end.

(** IncomingPeersListener.cpp:225-233 [removePeer] *)
Definition removePeer (id : nat) (s : listener) : listener := setPending (erase id (lPending s)) s.

(** IncomingPeersListener.cpp:75-97 [stop], without the ports of UpnpModel.v *)
Definition stop (s : listener) : listener :=
  let ids := map fst (lPending s) in
  setPending [] (emit (map OClose ids)
    (setStreams (map (fun p => if existsb (Nat.eqb (fst p)) ids then (fst p, ByNobody) else p) (lStreams s)) (setListen false false s))).

(** IncomingPeersListener.cpp:104-145 [createTcpListener]; [ok] when the port could be opened (109-117) *)
Definition createTcpListener (ok : bool) (s : listener) : listener := setListen ok (lUtp s) s.

(** IncomingPeersListener.cpp:15-34 [start], without the ports of UpnpModel.v *)
Definition start (ok : bool) (s : listener) : listener :=
  let s1 := createTcpListener ok (if lTcp s then stop s else s) in setListen (lTcp s1) true s1.

(** IncomingPeersListener.cpp:119-142 and 152-171: a stream that was accepted. [refused] when TCP from outside is off (121-125), which is
    not asked for uTP. *)
Definition accept (refused : bool) (s : listener) : listener :=
  let id := lNext s in
  let s1 := {| lTcp := lTcp s; lUtp := lUtp s; lPending := lPending s; lStreams := lStreams s; lNext := S id; lOut := lOut s |} in
  if refused then emit [OClose id] (setStreams ((id, ByNobody) :: lStreams s1) s1)
  else setPending ((id, None) :: lPending s1) (setStreams ((id, ByListener) :: lStreams s1) s1).

(** Model only: the calls and events above. [EPort]: the setting of the port changed (IncomingPeersListener.cpp:62-63); [ETcp on]: a TCP stream came,
    with enableTcpIn [on]; [EData id data a]: the stream has these bytes not done with; [EClosed]: the stream closed. *)
Inductive event := EStart (ok : bool) | EStop | EPort (ok : bool) | ETcp (on : bool) | EUtp | EData (id : nat) (data : list Z) (a : answer) | EClosed (id : nat).

(** The callbacks of IncomingPeersListener.cpp:119-142 and 152-171, and the calls of the owner *)
Definition step (e : event) (s : listener) : res listener :=
  match e with
  | EStart ok => Ok (start ok s)
  | EStop => Ok (stop s)
  | EPort ok => Ok (createTcpListener ok s)
  | ETcp on => Ok (if lTcp s then accept (negb on) s else s)
  | EUtp => Ok (if lUtp s then accept false s else s)
  | EData id data a =>
    match calls id (lStreams s) with
    | Some ByListener => bind (readStreamData id data a s) (fun r => Ok (emit [OUsed id (fst r)] (snd r)))
    | _ => Ok s
    end
  | EClosed id =>
    let s1 := setStreams (filter (fun p => negb (fst p =? id)%nat) (lStreams s)) s in
    match calls id (lStreams s) with Some ByListener => Ok (removePeer id s1) | _ => Ok s1 end
  end.

(** Model only: any history of those *)
Fixpoint run (es : list event) (s : listener) : res listener :=
  match es with [] => Ok s | e :: es' => bind (step e s) (run es') end.

End Listener.
