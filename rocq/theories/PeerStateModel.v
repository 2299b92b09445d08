(** Model of the choke/interest state of a peer connection:
    mtTorrent/Core/PeerCommunication.cpp and mtTorrent/Api/Interface.h:149-168. *)
From Verif Require Import Base PacketModel PeerMsgModel.

(** Interface.h:159-166. *)
Inductive action := Disconnected | Connecting | Connected | HandshakeSent | Established.

(** PeerCommunication.h, [PeerExtensions::state]. *)
Inductive extState := ExtDisabled | ExtHandshake | ExtEnabled.

(** Interface.h:149-168 [PeerState], with the extension state beside it. *)
Record peerState := {
  act : action;
  amChoking : bool; amInterested : bool;
  peerChoking : bool; peerInterested : bool;
  ext : extState
}.

(** Interface.h:151-154, 166: the initial values. *)
Definition freshPeerState : peerState :=
  {| act := Disconnected; amChoking := true; amInterested := false;
     peerChoking := true; peerInterested := false; ext := ExtDisabled |}.

(** Helper of [sendHandshake], PeerCommunication.cpp:195-201. *)
Definition setAction (s : peerState) (a : action) : peerState :=
  {| act := a; amChoking := amChoking s; amInterested := amInterested s;
     peerChoking := peerChoking s; peerInterested := peerInterested s; ext := ext s |}.
(** Helper of [sendExtendedHandshake], PeerCommunication.cpp:488-492. *)
Definition setExt (s : peerState) (e : extState) : peerState :=
  {| act := act s; amChoking := amChoking s; amInterested := amInterested s;
     peerChoking := peerChoking s; peerInterested := peerInterested s; ext := e |}.
(** Helper of [handleMessage], PeerCommunication.cpp:363-439, 441-486. *)
Definition setPeerChoking (s : peerState) (b : bool) : peerState :=
  {| act := act s; amChoking := amChoking s; amInterested := amInterested s;
     peerChoking := b; peerInterested := peerInterested s; ext := ext s |}.
(** Helper of [handleMessage], PeerCommunication.cpp:363-439, 441-486. *)
Definition setPeerInterested (s : peerState) (b : bool) : peerState :=
  {| act := act s; amChoking := amChoking s; amInterested := amInterested s;
     peerChoking := peerChoking s; peerInterested := b; ext := ext s |}.
(** Helper of [setChoke], PeerCommunication.cpp:276-288. *)
Definition setAmChoking (s : peerState) (b : bool) : peerState :=
  {| act := act s; amChoking := b; amInterested := amInterested s;
     peerChoking := peerChoking s; peerInterested := peerInterested s; ext := ext s |}.
(** Helper of [setInterested], PeerCommunication.cpp:262-274. *)
Definition setAmInterested (s : peerState) (b : bool) : peerState :=
  {| act := act s; amChoking := amChoking s; amInterested := b;
     peerChoking := peerChoking s; peerInterested := peerInterested s; ext := ext s |}.

(** What the connection takes from its surroundings: the configuration, the two hashes and
    the payload of the extended handshake (PeerCommunication.cpp:99-132). *)
Record commEnv := { dhtEnabled : bool; ourHash : list Z; ourId : list Z; udpPort : Z; extPayload : list Z }.

(** Helper of [setInterested], PeerCommunication.cpp:262-274. *)
Definition isEstablished (s : peerState) : bool :=
  match act s with Established => true | _ => false end.

(** PeerCommunication.cpp:195-201 *)
Definition sendHandshake (e : commEnv) (s : peerState) : peerState * list (list Z) :=
  (setAction s HandshakeSent, [createHandshake (dhtEnabled e) (ourHash e) (ourId e)]).

(** PeerCommunication.cpp:488-492; the extension id of the handshake is 0. *)
Definition sendExtendedHandshake (e : commEnv) (s : peerState) : peerState * list (list Z) :=
  (setExt s ExtHandshake, [createExtended 0 (extPayload e)]).

(** PeerCommunication.cpp:142-150: bits of the reserved bytes. *)
Definition supportsExtensions (reserved : list Z) : bool := negb (Z.land (nth 5 reserved 0) 16 =? 0).
(** Also PeerCommunication.cpp:142-150. *)
Definition supportsDht (reserved : list Z) : bool := negb (Z.land (nth 7 reserved 0) 128 =? 0).

(** PeerCommunication.cpp:363-439 [handleMessage] with 441-486 for extended handshakes. Only the state above and the
    bytes written to the stream are kept; the listener calls, statistics and the peer's
    piece list are not part of this model (a payload of an extended handshake is taken to
    parse). *)
Definition handleMessage (e : commEnv) (s : peerState) (m : pmsg) : peerState * list (list Z) :=
  if mid m =? idBitfield then (s, [])
  else if mid m =? idHave then (s, [])
  else if mid m =? idUnchoke then (setPeerChoking s false, [])
  else if mid m =? idChoke then (setPeerChoking s true, [])
  else if mid m =? idNotInterested then (setPeerInterested s true, [])
  else if mid m =? idInterested then (setPeerInterested s false, [])
  else if mid m =? idExtended then
    match mfields m with
    | FExtended 0 _ =>
      let (s1, w) := match ext s with ExtDisabled => sendExtendedHandshake e s | _ => (s, []) end in
      (setExt s1 ExtEnabled, w)
    | _ => (s, [])
    end
  else if mid m =? idHandshake then
    match act s with
    | HandshakeSent | Connected =>
      let (s1, w1) := match act s with Connected => sendHandshake e s | _ => (s, []) end in
      let s2 := setAction s1 Established in
      match mfields m with
      | FHandshake reserved _ _ =>
        let (s3, w2) := match supportsExtensions reserved, ext s2 with
                        | true, ExtDisabled => sendExtendedHandshake e s2
                        | _, _ => (s2, []) end in
        let w3 := if supportsDht reserved && dhtEnabled e then [createPort (udpPort e)] else [] in
        (s3, w1 ++ w2 ++ w3)
      | _ => (s2, w1)
      end
    | _ => (s, [])
    end
  else (s, []).

(** PeerCommunication.cpp:262-274 *)
Definition setInterested (s : peerState) (enabled : bool) : peerState * list (list Z) :=
  if negb (isEstablished s) then (s, [])
  else if Bool.eqb (amInterested s) enabled then (s, [])
  else (setAmInterested s enabled, [createStateMessage (if enabled then idInterested else idNotInterested)]).

(** PeerCommunication.cpp:276-288 *)
Definition setChoke (s : peerState) (enabled : bool) : peerState * list (list Z) :=
  if negb (isEstablished s) then (s, [])
  else if Bool.eqb (amChoking s) enabled then (s, [])
  else (setAmChoking s enabled, [createStateMessage (if enabled then idChoke else idUnchoke)]).

(** What can happen to one connection object: [connect] (PeerCommunication.cpp:182-193), the transport opens
    (231-238), it is made from an incoming stream (163-173), a message arrives, the client
    sets its interest or choking, it closes (240-247). *)
Inductive commEvent :=
| EvConnect | EvOpened | EvIncoming | EvMessage (m : pmsg)
| EvSetInterested (b : bool) | EvSetChoke (b : bool) | EvClose.

(** Model only: the calls and events above, in any order, as the histories of the theorems. *)
Definition commStep (e : commEnv) (s : peerState) (ev : commEvent) : peerState * list (list Z) :=
  match ev with
  | EvConnect =>
    (setAction (match act s with Disconnected => s | _ => freshPeerState end) Connecting, [])
  | EvOpened => sendHandshake e (setAction s Connected)
  | EvIncoming => (setAction s Connected, [])
  | EvMessage m => handleMessage e s m
  | EvSetInterested b => setInterested s b
  | EvSetChoke b => setChoke s b
  | EvClose => (setAction s Disconnected, [])
  end.

(** Model only: the calls and events above, in any order, as the histories of the theorems. *)
Fixpoint commRun (e : commEnv) (s : peerState) (evs : list commEvent) : peerState * list (list Z) :=
  match evs with
  | [] => (s, [])
  | ev :: evs' =>
    let (s1, w1) := commStep e s ev in
    let (s2, w2) := commRun e s1 evs' in
    (s2, w1 ++ w2)
  end.
