(** The encryption handshake as a whole: the steps of Core/ProtocolEncryption.cpp with the keys of utils/DiffieHellman.cpp (DhModel.v) and
    messages 3 and 4 of PeModel.v, on both sides of a connection. The initiator's side is Core/PeerStream.cpp, the other side
    Core/IncomingPeersListener.cpp. Private keys and paddings, which are random, are arguments; a stream hands over the bytes not done with
    followed by what came (TcpAsyncStream.cpp:392-405). *)
From Verif Require Import Base DhModel BigModel Rc4Model PeModel.
From Verif Require ListenerModel.

(** ProtocolEncryption.h:90 [Step] *)
Inductive peStep := SPe1 | SPe2 | SPe3 | SPe4 | SEstablished | SError.

(** ProtocolEncryption.h:46-115: [hStep] is nextStep, [hPrivate] the private key of dh, [hSecret] the 96 bytes sharedSecret exports, [hInfo] what
    infoHash points at, [hMessage] is pe3BtMessage, [hIn] and [hOut] the ciphers of pe (of no meaning before it is made), [hType] is type. *)
Record pehs := { hStep : peStep; hPrivate : list Z; hSecret : list Z; hInfo : list Z; hMessage : list Z; hIn : rc4; hOut : rc4; hType : peType }.

(** Model only: the cipher of a handshake that has none yet *)
Definition noCipher : rc4 := {| xs := 0; ys := 0; buf := [] |}.

(** DiffieHellman.cpp:3-7, 49-51 with the initial values of ProtocolEncryption.h:72-115 *)
Definition newHandshake (private : list Z) : pehs :=
  {| hStep := SPe1; hPrivate := private; hSecret := []; hInfo := []; hMessage := []; hIn := noCipher; hOut := noCipher; hType := TypeRC4 |}.

(** ProtocolEncryption.cpp:61-71 [initiate] *)
Definition initiate (h : pehs) (info message padding : list Z) : res (pehs * list Z) :=
  bind (createExchangeMessage (hPrivate h) padding) (fun m =>
  Ok ({| hStep := SPe2; hPrivate := hPrivate h; hSecret := hSecret h; hInfo := info; hMessage := message;
         hIn := hIn h; hOut := hOut h; hType := hType h |}, m)).

(** Model only: a private key that was set to zero (DiffieHellman.cpp:28) *)
Definition zeroKey : list Z := repeat 0 12.

(** ProtocolEncryption.cpp:81-101 [readRemoteDataAsInitiator] with 159-210 and 329-404 (PeModel.v): the state after, the bytes used and the
    response. *)
Definition readAsInitiator (h : pehs) (data padding : list Z) : res (pehs * nat * list Z) :=
  match hStep h with
  | SPe2 =>
    if (length data <? KeySize)%nat then Ok (h, 0%nat, [])
    else
      bind (createSecretFromRemoteKey (hPrivate h) data) (fun s =>
      let secret := Export s 96 in
      let (out, m3) := createPe3 secret (hInfo h) padding (hMessage h) in
      Ok ({| hStep := SPe4; hPrivate := zeroKey; hSecret := secret; hInfo := hInfo h; hMessage := hMessage h;
             hIn := rcStart invokerB secret (hInfo h); hOut := out; hType := hType h |}, length data, m3))
  | SPe4 =>
    match readPe4 (hIn h) data with
    | (in1, Pe4Wait n) =>
      Ok ({| hStep := SPe4; hPrivate := hPrivate h; hSecret := hSecret h; hInfo := hInfo h; hMessage := hMessage h;
             hIn := in1; hOut := hOut h; hType := hType h |}, n, [])
    | (in1, Pe4Fail) =>
      Ok ({| hStep := SError; hPrivate := hPrivate h; hSecret := hSecret h; hInfo := hInfo h; hMessage := hMessage h;
             hIn := in1; hOut := hOut h; hType := hType h |}, length data, [])
    | (in1, Pe4Done n t) =>
      Ok ({| hStep := SEstablished; hPrivate := hPrivate h; hSecret := hSecret h; hInfo := hInfo h; hMessage := hMessage h;
             hIn := in1; hOut := hOut h; hType := t |}, n, [])
    end
  | _ => Ok (h, 0%nat, [])
  end.

(** ProtocolEncryption.cpp:103-130 [readRemoteDataAsListener] with 212-326 and 382-404 (PeModel.v); [padB] and [padD] are the paddings of the
    two responses *)
Definition readAsListener (h : pehs) (torrents : list (list Z)) (data padB padD : list Z) : res (pehs * nat * list Z) :=
  match hStep h with
  | SPe1 =>
    if (length data <? KeySize)%nat then Ok (h, 0%nat, [])
    else
      bind (createExchangeMessage (hPrivate h) padB) (fun m2 =>
      bind (createSecretFromRemoteKey (hPrivate h) data) (fun s =>
      Ok ({| hStep := SPe3; hPrivate := zeroKey; hSecret := Export s 96; hInfo := hInfo h; hMessage := hMessage h;
             hIn := hIn h; hOut := hOut h; hType := hType h |}, length data, m2)))
  | SPe3 =>
    match readPe3 (hSecret h) torrents data with
    | Pe3Wait n => Ok (h, n, [])
    | Pe3Fail =>
      Ok ({| hStep := SError; hPrivate := hPrivate h; hSecret := hSecret h; hInfo := hInfo h; hMessage := hMessage h;
             hIn := hIn h; hOut := hOut h; hType := hType h |}, length data, [])
    | Pe3Done info t rcIn rcOut message =>
      let (out, m4) := createPe4 rcOut t padD in
      Ok ({| hStep := SEstablished; hPrivate := hPrivate h; hSecret := hSecret h; hInfo := info; hMessage := message;
             hIn := rcIn; hOut := out; hType := t |}, length data, m4)
    end
  | _ => Ok (h, 0%nat, [])
  end.

(** Model only: the side of PeerStream.cpp. [IWaits]: in the handshake, with the bytes not done with. [IOpen st out view]: it is over, [st]
    reads, [out] is the cipher for what is sent and [view] was shown to the owner. [IPlain]: the other end chose no encryption. *)
Inductive iside := IWaits (h : pehs) (buffer : list Z) | IClosed | IOpen (st : pstream) (out : rc4) (view : list Z) | IPlain (rest : list Z).

(** PeerStream.cpp:336-364 [dataReceivedPeHandshake]: the side after and what was sent; [takes] is the owner's answer as in PeModel.v [deliver] *)
Definition iDeliver (h : pehs) (buffer chunk padding : list Z) (takes : list Z -> nat) : res (iside * list (list Z)) :=
  let data := buffer ++ chunk in
  bind (readAsInitiator h data padding) (fun r =>
  let '(h1, sz, response) := r in
  match hStep h1 with
  | SError => Ok (IClosed, [])
  | SEstablished =>
    let writes := match response with [] => [] | _ => [response] end in
    match hType h1 with
    | TypePlain => Ok (IPlain (skipn sz data), writes)
    | TypeRC4 =>
      match skipn sz data with
      | [] => Ok (IOpen {| ps_in := hIn h1; ps_unhandled := 0; ps_buffer := [] |} (hOut h1) [], writes)
      | rest =>
        let (st, view) := deliver {| ps_in := hIn h1; ps_unhandled := 0; ps_buffer := [] |} rest takes in
        Ok (IOpen st (hOut h1) view, writes)
      end
    end
  | _ => Ok (IWaits h1 (skipn sz data), match response with [] => [] | _ => [response] end)
  end).

(** Model only: deliveries until the handshake is over *)
Fixpoint iRun (h : pehs) (buffer : list Z) (padding : list Z) (takes : list Z -> nat) (chunks : list (list Z)) : res (iside * list (list Z)) :=
  match chunks with
  | [] => Ok (IWaits h buffer, [])
  | c :: cs =>
    bind (iDeliver h buffer c padding takes) (fun r =>
    match r with
    | (IWaits h1 b1, w) => bind (iRun h1 b1 padding takes cs) (fun q => Ok (fst q, w ++ snd q))
    | _ => Ok r
    end)
  end.

(** Model only: the side of IncomingPeersListener.cpp. [LPlainPeer]: the bytes began as an unencrypted handshake (183-193). [LOpen]: the peer is
    handed to the torrent [info] with the stream [st], the cipher [out] for what is sent and the message that came along. *)
Inductive lside := LWaits (h : pehs) (buffer : list Z) | LClosed | LPlainPeer (data : list Z)
  | LOpen (info : list Z) (st : pstream) (out : rc4) (message : list Z).

(** IncomingPeersListener.cpp:175-223 [readStreamData] for one stream, with 246-247: the ciphers are used whatever type was agreed on *)
Definition lDeliver (h : pehs) (buffer chunk : list Z) (torrents : list (list Z)) (padB padD : list Z) : res (lside * list (list Z)) :=
  let data := buffer ++ chunk in
  if (length data <? 20)%nat then Ok (LWaits h data, [])
  else if ListenerModel.startsAsHandshake data then Ok (LPlainPeer data, [])
  else
    bind (readAsListener h torrents data padB padD) (fun r =>
    let '(h1, sz, response) := r in
    let writes := match response with [] => [] | _ => [response] end in
    match hStep h1 with
    | SEstablished => Ok (LOpen (hInfo h1) {| ps_in := hIn h1; ps_unhandled := 0; ps_buffer := [] |} (hOut h1) (hMessage h1), writes)
    | SError => Ok (LClosed, writes)
    | _ => Ok (LWaits h1 (skipn sz data), writes)
    end).

(** Model only: deliveries until the handshake is over *)
Fixpoint lRun (h : pehs) (buffer : list Z) (torrents : list (list Z)) (padB padD : list Z) (chunks : list (list Z)) : res (lside * list (list Z)) :=
  match chunks with
  | [] => Ok (LWaits h buffer, [])
  | c :: cs =>
    bind (lDeliver h buffer c torrents padB padD) (fun r =>
    match r with
    | (LWaits h1 b1, w) => bind (lRun h1 b1 torrents padB padD cs) (fun q => Ok (fst q, w ++ snd q))
    | _ => Ok r
    end)
  end.
