(** Model of Core/ProtocolEncryption.cpp (handshake steps 3 and 4, and the lookup of the
    torrent) and of the encrypted receive path of Core/PeerStream.cpp.
    The shared secret is the 96 bytes written by [sharedSecret.Export(.., 96)]; torrents are
    the 20 byte info hashes, in the iteration order of the std::map (which is by address);
    random padding is an argument. *)
From Verif Require Import Base Rc4Model ShaModel.

(** Helper of [req2Hash], ProtocolEncryption.cpp:20-29. *)
Definition tagReq (d : Z) : list Z := [114; 101; 113; d].        (* 'r','e','q',d. For [rcStart], ProtocolEncryption.cpp:382-404. *)
Definition tagKey (d : Z) : list Z := [107; 101; 121; d].        (* 'k','e','y',d *)

(** ProtocolEncryption.cpp:20-29 [addTorrent]: the hash stored for a torrent. *)
Definition req2Hash (t : list Z) : list Z := SHA1 (tagReq 50 ++ t).

(** ProtocolEncryption.cpp:181-182 bytewise xor. *)
Fixpoint xorBytes (a b : list Z) : list Z :=
  match a, b with
  | x :: a', y :: b' => Z.lxor x y :: xorBytes a' b'
  | _, _ => []
  end.

(** ProtocolEncryption.cpp:48-52 the comparison loop over [n] bytes, as written: a byte
    "matches" when it differs. *)
Fixpoint sameLoop (n : nat) (data req2 req3 : list Z) (i : nat) : bool :=
  match n with
  | O => true
  | S n' => if negb (nth i data 0 =? Z.lxor (nth i req2 0) (nth i req3 0))
            then sameLoop n' data req2 req3 (S i) else false
  end.

(** ProtocolEncryption.cpp:42-59 [findByPe3Hash]. *)
Fixpoint findByPe3Hash (torrents : list (list Z)) (data req3 : list Z) : option (list Z) :=
  match torrents with
  | [] => None
  | t :: ts => if sameLoop 20 data (req2Hash t) req3 0 then Some t else findByPe3Hash ts data req3
  end.

(** ProtocolEncryption.cpp:382-404 [prepareEncryption]: one of its two ciphers. The key is a
    20 byte digest so [init] is always defined; the second branch does not occur. *)
Definition rcStart (who : Z) (secret info : list Z) : rc4 :=
  match rc4_init (SHA1 (tagKey who ++ secret ++ info)) with
  | Ok st => rc4_skip st 1024
  | UB => {| xs := 0; ys := 0; buf := [] |}
  end.
(** Also ProtocolEncryption.cpp:382-404. *)
Definition invokerA : Z := 65.
(** Also ProtocolEncryption.cpp:382-404. *)
Definition invokerB : Z := 66.

(** ProtocolEncryption.cpp:189-207 the part of message 3 that gets encrypted. *)
Definition pe3Plain (padding message : list Z) : list Z :=
  repeat 0 8 ++ be 4 3 ++ be 2 (zlen padding) ++ padding ++ be 2 (u16 (zlen message)) ++ message.

(** ProtocolEncryption.cpp:159-210 [createPe3Handshake]: the outgoing cipher afterwards and
    the bytes sent. *)
Definition createPe3 (secret info padding message : list Z) : rc4 * list Z :=
  let (out, body) := rc4_encode (rcStart invokerA secret info) (pe3Plain padding message) in
  (out, SHA1 (tagReq 49 ++ secret) ++ xorBytes (SHA1 (tagReq 51 ++ secret)) (req2Hash info) ++ body).

(** ProtocolEncryption.cpp:224-229 (and 339-344): first position at most [pos + n - 1] where
    [pat] occurs; [rest] is the data from [pos] on. *)
Fixpoint searchLoop (n : nat) (rest pat : list Z) (pos : nat) : option nat :=
  match n with
  | O => None
  | S n' => if list_eqb (firstn (length pat) rest) pat then Some pos
            else searchLoop n' (skipn 1 rest) pat (S pos)
  end.

(** Helper of [peOptions], ProtocolEncryption.cpp:267-277. *)
Inductive peType := TypeRC4 | TypePlain.

(** What a read step did: more data needed (with the bytes consumed), failure, or established. For [readPe3], ProtocolEncryption.cpp:212-303. *)
Inductive pe3out :=
| Pe3Wait (consumed : nat)
| Pe3Fail
| Pe3Done (info : list Z) (type : peType) (rcIn rcOut : rc4) (message : list Z).

(** ProtocolEncryption.cpp:267-277 the negotiated type. *)
Definition peOptions (o : Z) : option peType :=
  if negb (Z.land o 2 =? 0) then Some TypeRC4
  else if negb (Z.land o 1 =? 0) then Some TypePlain else None.

(** ProtocolEncryption.cpp:212-303 [readPe3Handshake]. Failure and success consume everything.
    Line 242 passes [reqBuffer] ("req3" and the secret), not its hash computed on line 240.
    Fields left over from an attempt that has to be repeated are recomputed by the next one. *)
Definition readPe3 (secret : list Z) (torrents : list (list Z)) (data : list Z) : pe3out :=
  if (length data <? 56)%nat then Pe3Wait 0
  else
    match searchLoop (length data - 56 + 1) data (SHA1 (tagReq 49 ++ secret)) 0 with
    | None => Pe3Wait 0
    | Some start =>
      let reqBuffer := tagReq 51 ++ secret in
      match findByPe3Hash torrents (skipn (start + 20) data) reqBuffer with
      | None => Pe3Fail
      | Some info =>
        let rcIn := rcStart invokerA secret info in
        let rcOut := rcStart invokerB secret info in
        let body := skipn (start + 40) data in
        let (in1, head) := rc4_decode rcIn (firstn 14 body) in
        if negb (unbe (firstn 8 head) =? 0) then Pe3Fail
        else
          match peOptions (unbe (slice 8 4 head)) with
          | None => Pe3Fail
          | Some type =>
            let pad := Z.to_nat (unbe (slice 12 2 head)) in
            if (length data <? start + 40 + 14 + pad + 2)%nat then Pe3Wait start
            else
              let in2 := rc4_skip in1 pad in
              let (in3, tail) := rc4_decode in2 (skipn (14 + pad) body) in
              let iaSize := Z.to_nat (unbe (firstn 2 tail)) in
              let rest := skipn 2 tail in
              if (length rest <? iaSize)%nat then Pe3Wait start
              else
                match skipn iaSize rest with
                | [] => Pe3Done info type in3 rcOut (firstn iaSize rest)
                | _ => Pe3Fail
                end
          end
      end
    end.

(** ProtocolEncryption.cpp:307-326 [createPe4Handshake]. *)
Definition createPe4 (rcOut : rc4) (type : peType) (padding : list Z) : rc4 * list Z :=
  rc4_encode rcOut (repeat 0 8 ++ be 4 (match type with TypeRC4 => 2 | TypePlain => 1 end)
                    ++ be 2 (zlen padding) ++ padding).

(** Helper of [readPe4], ProtocolEncryption.cpp:329-380. *)
Inductive pe4out :=
| Pe4Wait (consumed : nat)
| Pe4Fail
| Pe4Done (consumed : nat) (type : peType).

(** ProtocolEncryption.cpp:329-380 [readPe4Handshake]: the incoming cipher after the call and
    the outcome. The cipher is a member that keeps whatever state an unfinished call left. *)
Definition readPe4 (rcIn : rc4) (data : list Z) : rc4 * pe4out :=
  if (length data <? 14)%nat then (rcIn, Pe4Wait 0)
  else
    let (in1, vc) := rc4_decode rcIn (repeat 0 8) in
    match searchLoop (length data - 14 + 1) data vc 0 with
    | None => (in1, Pe4Wait 0)
    | Some start =>
      let (in2, head) := rc4_decode in1 (firstn 6 (skipn (start + 8) data)) in
      match peOptions (unbe (firstn 4 head)) with
      | None => (in2, Pe4Fail)
      | Some type =>
        let pad := Z.to_nat (unbe (slice 4 2 head)) in
        if (length data <? start + 14 + pad)%nat then (in2, Pe4Wait start)
        else (rc4_skip in2 pad, Pe4Done (start + 14 + pad) type)
      end
    end.

(** The receiving side of a connection whose encryption is established (PeerStream.h
    [pe->rcIn] and [lastUnhandledDataSize]) with the transport's receive buffer
    (TcpAsyncStream [readBuffer]: bytes not yet consumed). *)
Record pstream := { ps_in : rc4; ps_unhandled : nat; ps_buffer : list Z }.

(** One delivery: TcpAsyncStream.cpp:392 the chunk is appended to the buffer, 404 the callback
    sees the whole buffer; PeerStream.cpp:321-325 the part beyond [lastUnhandledDataSize] is
    decrypted in place; 329-333 the reader sees it and consumes [takes view] bytes;
    TcpAsyncStream.cpp:522-533 [consume] drops these. The result is the view the reader saw.
    [takes] answers at most the size of the view (property C04). *)
Definition deliver (st : pstream) (chunk : list Z) (takes : list Z -> nat) : pstream * list Z :=
  let buffer := ps_buffer st ++ chunk in
  let (in1, fresh) := rc4_decode (ps_in st) (skipn (ps_unhandled st) buffer) in
  let view := firstn (ps_unhandled st) buffer ++ fresh in
  let sz := takes view in
  ({| ps_in := in1; ps_unhandled := (length view - sz)%nat; ps_buffer := skipn sz view |}, view).

(** PeerStream.cpp:336-364 [dataReceivedPeHandshake] while waiting for message 4: the buffer
    is [data]; on success the rest of it is handed on by line 360 with the new cipher (or none
    for a plain connection), [lastUnhandledDataSize] being 0 so far. *)
Inductive hsOut :=
| HsWait (rcIn : rc4) (buffer : list Z)
| HsClosed
| HsOpen (st : pstream) (view : list Z)
| HsPlain (rest : list Z).

(** Helper of [awaitPe4], PeerStream.cpp:336-364. *)
Definition deliverPe4 (rcIn : rc4) (buffer chunk : list Z) (takes : list Z -> nat) : hsOut :=
  let data := buffer ++ chunk in
  match readPe4 rcIn data with
  | (in1, Pe4Wait n) => HsWait in1 (skipn n data)
  | (_, Pe4Fail) => HsClosed
  | (in1, Pe4Done n TypePlain) => HsPlain (skipn n data)
  | (in1, Pe4Done n TypeRC4) =>
    match skipn n data with
    | [] => HsOpen {| ps_in := in1; ps_unhandled := 0; ps_buffer := [] |} []
    | rest => let (st, view) := deliver {| ps_in := in1; ps_unhandled := 0; ps_buffer := [] |} rest takes in
              HsOpen st view
    end
  end.

(** IncomingPeersListener.cpp:175-223 [readStreamData] after the key exchange, with
    TcpAsyncStream.cpp:404-405: every delivery is appended to the unconsumed bytes and
    [readPe3] decides. Simplification: the test of line 183 whether the data looks like an
    unencrypted handshake is left out. The result is the first outcome that is not "wait". *)
Fixpoint listen (secret : list Z) (torrents : list (list Z)) (buffer : list Z) (chunks : list (list Z)) : option pe3out :=
  match chunks with
  | [] => None
  | c :: cs =>
    match readPe3 secret torrents (buffer ++ c) with
    | Pe3Wait n => listen secret torrents (skipn n (buffer ++ c)) cs
    | r => Some r
    end
  end.

(** IncomingPeersListener.cpp:246-247: the accepted stream gets the ciphers whatever [type]
    was negotiated. *)
Definition acceptedStream (o : pe3out) : option pstream :=
  match o with
  | Pe3Done _ _ rcIn _ _ => Some {| ps_in := rcIn; ps_unhandled := 0; ps_buffer := [] |}
  | _ => None
  end.

(** A sequence of deliveries: the views the reader saw. Model only: the calls and events above, in any order, as the histories of the theorems. *)
Fixpoint deliverAll (st : pstream) (events : list (list Z * (list Z -> nat))) : pstream * list (list Z) :=
  match events with
  | [] => (st, [])
  | (chunk, takes) :: es =>
    let (st1, view) := deliver st chunk takes in
    let (st2, views) := deliverAll st1 es in (st2, view :: views)
  end.

(** Deliveries while message 4 is awaited, PeerStream.cpp:336-364. *)
Fixpoint awaitPe4 (rcIn : rc4) (buffer : list Z) (chunks : list (list Z)) : option hsOut :=
  match chunks with
  | [] => None
  | c :: cs =>
    match deliverPe4 rcIn buffer c (fun _ => 0%nat) with
    | HsWait in1 b1 => awaitPe4 in1 b1 cs
    | r => Some r
    end
  end.
