(** The stream to a peer: Core/PeerStream, which tries TCP and uTP and plain and encrypted handshakes. The streams below, the bytes of the
    encryption handshake and the owner are the environment; PeModel.v has the handshake and the decryption, TcpModel.v the TCP stream. *)
From Verif Require Import Base.

(** PeerStream.h:66-70 [Type] *)
Inductive kind := Tcp | Utp.
(** The comparisons of PeerStream.cpp:281, 288 *)
Definition kind_eqb (a b : kind) : bool := match a, b with Tcp, Tcp | Utp, Utp => true | _, _ => false end.

(** Api/Configuration.h:20 [Encryption] *)
Inductive encryption := Refuse | Allow | Require.

(** The settings that are read: PeerStream.cpp:47-51, 70, 281, 288, 384, 388 *)
Record settings := { tcpOut : bool; utpOut : bool; preferUtp : bool; enc : encryption }.

(** What a buffer given to the stream below is: data of the owner, the first message of the encryption handshake around a message of the owner
    (PeerStream.cpp:366-373), a later message of that handshake (PeerStream.cpp:349-350) *)
Inductive payload := PData (d : list Z) | PStart (d : list Z) | PReply.

(** Model only: what the stream does and tells its owner. [OSend e p]: [p] is written, encrypted when [e]. *)
Inductive effect := OConnect (k : kind) | OSend (e : bool) (p : payload) | OShut | COpened | CData | CClosed (code : Z).

(** Model only: where the stream below is; [PNone] when there is none *)
Inductive phase := PNone | PConnecting | POpen | PClosed.

(** ProtocolEncryption.h:46-75, as far as PeerStream.cpp:343, 352 and 384 look at it: [HOpen] is neither failed nor established *)
Inductive handshake := HNone | HOpen | HFailed.

(** PeerStream.h:49-95: [cur] is the one stream that is not null, with its [ph]ase and the bytes it received; [hs] is peHandshake, [pe] whether
    pe is set. [holepunch] is fixed at the start; [posted] is the call of PeerStream.cpp:56. The address and infoHash are left out. *)
Record pstream := { cur : option kind; ph : phase; received : Z; hs : handshake; pe : bool; initial : list Z;
  manual : bool; connected : bool; remote : bool; tcpTried : bool; utpTried : bool; reconnect : bool; firstWrite : bool; holepunch : bool;
  posted : bool; log : list effect }.

(** PeerStream.h:77-93: a new object *)
Definition newStream (hp : bool) : pstream :=
  {| cur := None; ph := PNone; received := 0; hs := HNone; pe := false; initial := []; manual := false; connected := false; remote := false;
     tcpTried := false; utpTried := false; reconnect := false; firstWrite := true; holepunch := hp; posted := false; log := [] |}.

(** Model only: setter for the stream below *)
Definition withCur (c : option kind) (p : phase) (r : Z) (s : pstream) : pstream :=
  {| cur := c; ph := p; received := r; hs := hs s; pe := pe s; initial := initial s; manual := manual s; connected := connected s; remote := remote s;
     tcpTried := tcpTried s; utpTried := utpTried s; reconnect := reconnect s; firstWrite := firstWrite s; holepunch := holepunch s; posted := posted s; log := log s |}.
(** Model only: setter for the handshake *)
Definition withHs (h : handshake) (e : bool) (i : list Z) (f : bool) (s : pstream) : pstream :=
  {| cur := cur s; ph := ph s; received := received s; hs := h; pe := e; initial := i; manual := manual s; connected := connected s; remote := remote s;
     tcpTried := tcpTried s; utpTried := utpTried s; reconnect := reconnect s; firstWrite := f; holepunch := holepunch s; posted := posted s; log := log s |}.
(** Model only: setter for the flags *)
Definition withFlags (m c r t u rc p : bool) (s : pstream) : pstream :=
  {| cur := cur s; ph := ph s; received := received s; hs := hs s; pe := pe s; initial := initial s; manual := m; connected := c; remote := r;
     tcpTried := t; utpTried := u; reconnect := rc; firstWrite := firstWrite s; holepunch := holepunch s; posted := p; log := log s |}.
(** Model only: one more effect *)
Definition say (e : effect) (s : pstream) : pstream :=
  {| cur := cur s; ph := ph s; received := received s; hs := hs s; pe := pe s; initial := initial s; manual := manual s; connected := connected s; remote := remote s;
     tcpTried := tcpTried s; utpTried := utpTried s; reconnect := reconnect s; firstWrite := firstWrite s; holepunch := holepunch s; posted := posted s; log := log s ++ [e] |}.

(** PeerStream.cpp:189-214 [openTcpStream], 216-236 [openUtpStream]: a new stream begins to connect. Where the other stream is set to null
    afterwards (284, 291) and where this one is replaced (193-194, 220-221) the model keeps only the new one. *)
Definition openStream (k : kind) (s : pstream) : pstream :=
  say (OConnect k) (withCur (Some k) PConnecting 0
    (withFlags (manual s) (connected s) (remote s) (match k with Tcp => true | Utp => tcpTried s end) (match k with Utp => true | Tcp => utpTried s end) (reconnect s) (posted s) s)).

(** PeerStream.cpp:41-58 [open] *)
Definition open (c : settings) (s : pstream) : pstream :=
  if utpOut c && (holepunch s || preferUtp c || negb (tcpOut c)) then openStream Utp s
  else if tcpOut c && negb (holepunch s) then openStream Tcp s
  else withFlags (manual s) (connected s) (remote s) (tcpTried s) (utpTried s) (reconnect s) true s.

(** PeerStream.cpp:16-39 [fromStream] and [addEncryption] of a stream that is open; 205, 227: it counts as tried *)
Definition fromStream (k : kind) (e : bool) : pstream :=
  let s := newStream false in
  withHs HNone e [] true (withCur (Some k) POpen 0 (withFlags false false true (match k with Tcp => true | Utp => false end) (match k with Utp => true | Tcp => false end) false false s)).

(** PeerStream.cpp:80-88: encrypt and give to the stream there is *)
Definition send (p : payload) (s : pstream) : pstream := match cur s with None => s | Some _ => say (OSend (pe s) p) s end.

(** PeerStream.cpp:60-89 [write] while a handshake is under way or of a later buffer: no message is kept *)
Definition writeOn (p : payload) (s : pstream) : pstream :=
  send p (if remote s then s else withHs (hs s) (pe s) (initial s) false s).

(** PeerStream.cpp:366-373 [startProtocolEncryption] *)
Definition startEncryption (d : list Z) (s : pstream) : pstream := writeOn (PStart d) (withHs HOpen (pe s) (initial s) (firstWrite s) s).

(** PeerStream.cpp:60-89 [write] *)
Definition write (c : settings) (d : list Z) (s : pstream) : pstream :=
  if negb (remote s) && firstWrite s && match hs s with HNone => true | _ => false end then
    let s1 := withHs (hs s) (pe s) d (firstWrite s) s in
    match enc c with Require => startEncryption d s1 | _ => writeOn (PData d) s1 end
  else writeOn (PData d) s.

(** PeerStream.cpp:252-258 [closeStream] *)
Definition closeStream (s : pstream) : pstream := match cur s with None => s | Some _ => say OShut s end.

(** PeerStream.cpp:91-98 [close] *)
Definition close (s : pstream) : pstream :=
  closeStream (withFlags true (connected s) (remote s) (tcpTried s) (utpTried s) (reconnect s) (posted s) s).

(** PeerStream.cpp:399-415 [sendEncryptionMethodRetry]; 409: the handshake is gone and the first write is over, so [write] keeps nothing *)
Definition sendRetry (c : settings) (s : pstream) : pstream :=
  let d := initial s in
  match hs s with
  | HNone => startEncryption d (withHs (hs s) (pe s) [] (firstWrite s) s)
  | _ => write c d (withHs HNone (pe s) [] (firstWrite s) s)
  end.

(** PeerStream.cpp:260-271 [connectionOpened]; the owner has its callback set *)
Definition connectionOpened (c : settings) (s : pstream) : pstream :=
  let s1 := withFlags (manual s) true (remote s) (tcpTried s) (utpTried s) (reconnect s) (posted s) (withCur (cur s) POpen (received s) s) in
  if reconnect s then sendRetry c s1 else say COpened s1.

(** PeerStream.cpp:375-397 [retryEncryptionMethod]: the message that is kept for the retry *)
Definition keptMessage (c : settings) (s : pstream) : list Z :=
  match hs s with
  | HNone => if (received s =? 0) && match enc c with Refuse => false | _ => true end then initial s else []
  | HOpen => match enc c with Require => [] | _ => initial s end
  | HFailed => []
  end.

(** PeerStream.cpp:238-250, 393-394 [reconnectStream] *)
Definition reconnectStream (s : pstream) : pstream :=
  let s1 := withFlags (manual s) (connected s) (remote s) (tcpTried s) (utpTried s) true (posted s) s in
  match cur s with Some k => openStream k s1 | None => s1 end.

(** PeerStream.cpp:302-311: the owner is told *)
Definition tellClosed (code : Z) (s : pstream) : pstream := say (CClosed code) s.

(** PeerStream.cpp:273-312 [connectionClosed] of the stream there is *)
Definition connectionClosed (c : settings) (code : Z) (s0 : pstream) : pstream :=
  let s := withCur (cur s0) PClosed (received s0) s0 in
  if negb (remote s) && negb (manual s) then
    if negb (connected s) && match cur s with Some Utp => negb (tcpTried s) && tcpOut c | _ => false end then openStream Tcp s
    else if negb (connected s) && match cur s with Some Tcp => negb (utpTried s) && utpOut c | _ => false end then openStream Utp s
    else if connected s then
      let s1 := withHs (hs s) (pe s) (keptMessage c s) (firstWrite s) s in
      match keptMessage c s with [] => tellClosed code s1 | _ => reconnectStream s1 end
    else tellClosed code s
  else tellClosed code s.

(** What the encryption handshake makes of a buffer: ProtocolEncryption.cpp:81-101. [HFail]; [HMore r]: not yet established, [r] when it
    answers; [HDone plain rest]: established, for plain text when [plain], with bytes left when [rest] *)
Inductive hsResult := HFail | HMore (r : bool) | HDone (plain rest : bool).

(** PeerStream.cpp:321-333: data for the owner *)
Definition deliver (s : pstream) : pstream := say CData (withHs (hs s) (pe s) [] (firstWrite s) s).

(** PeerStream.cpp:314-364 [dataReceived], [dataReceivedPeHandshake] *)
Definition dataReceived (n : Z) (r : hsResult) (s0 : pstream) : pstream :=
  let s := withCur (cur s0) (ph s0) (received s0 + n) s0 in
  match hs s with
  | HNone => deliver s
  | _ => match r with
         | HFail => closeStream (withHs HFailed (pe s) (initial s) (firstWrite s) s)
         | HMore reply => if reply then writeOn PReply s else s
         | HDone plain rest => let s1 := withHs HNone (negb plain || pe s) (initial s) (firstWrite s) s in if rest then deliver s1 else s1
         end
  end.

(** Model only: what happens to the stream, with the settings at that time *)
Inductive event :=
| EWrite (c : settings) (d : list Z) | EClose
| EOpened (c : settings) | EClosed (c : settings) (code : Z) | EData (n : Z) (r : hsResult) | EPosted.

(** PeerStream.cpp: the functions above; EPosted is PeerStream.cpp:56 *)
Definition step (e : event) (s : pstream) : pstream :=
  match e with
  | EWrite c d => write c d s
  | EClose => close s
  | EOpened c => connectionOpened c s
  | EClosed c code => connectionClosed c code s
  | EData n r => dataReceived n r s
  | EPosted => tellClosed 0 (withFlags (manual s) (connected s) (remote s) (tcpTried s) (utpTried s) (reconnect s) false s)
  end.
