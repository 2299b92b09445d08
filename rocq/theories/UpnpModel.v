(** Ports mapped on the routers: mtTorrent/utils/UpnpPortMapping.cpp and its use in Core/IncomingPeersListener.cpp:15-73. Every
    function holds the mutex while it works, so each is one step. Left out: the text of the requests, the log, the wait for the
    last requests when all is unmapped, and the discovery itself, whose devices arrive as events. *)
From Verif Require Import Base.

(** UpnpPortMapping.h:16 [PortType] *)
Inductive ptype := Tcp | Udp.

(** Helper of [foundOn], UpnpPortMapping.cpp:308: comparing two types *)
Definition ptypeEq (a b : ptype) : bool := match a, b with Tcp, Tcp => true | Udp, Udp => true | _, _ => false end.

(** UpnpPortMapping.h:58-62 [Mapping]: a port that should be mapped *)
Record want := { wPort : Z; wType : ptype }.

(** UpnpDiscovery.h:18-26 [DeviceInfo]; its name and services are left out *)
Record device := { vGateway : list Z; vClient : list Z; vPort : Z }.

(** UpnpPortMapping.h:45-51 [MappedPort] *)
Record mapped := { mGateway : list Z; mGwPort : Z; mPort : Z; mType : ptype }.

(** A request on its way, UpnpPortMapping.cpp:97 and 177: what its callbacks captured, and the stream it is. [qAnswered] is
    for the theorems only: a whole answer was read *)
Record request := { qId : Z; qAdd : bool; qHost : list Z; qGwPort : Z; qClient : list Z; qPort : Z; qType : ptype; qAnswered : bool }.

(** UpnpPortMapping.h:39-66; [uSent] is every request made, [uNext] the next stream *)
Record upnp := { uMapping : list want; uDevices : list device; uMapped : list mapped; uPending : list request; uActive : bool; uNext : Z; uSent : list request }.

(** UpnpPortMapping.cpp:11-14 *)
Definition newUpnp : upnp := {| uMapping := []; uDevices := []; uMapped := []; uPending := []; uActive := true; uNext := 0; uSent := [] |}.

(** Helpers: one field written. For UpnpPortMapping.cpp:36, 71, 87. *)
Definition setMapping (l : list want) (s : upnp) : upnp :=
  {| uMapping := l; uDevices := uDevices s; uMapped := uMapped s; uPending := uPending s; uActive := uActive s; uNext := uNext s; uSent := uSent s |}.
(** UpnpPortMapping.cpp:53 *)
Definition setDevices (l : list device) (s : upnp) : upnp :=
  {| uMapping := uMapping s; uDevices := l; uMapped := uMapped s; uPending := uPending s; uActive := uActive s; uNext := uNext s; uSent := uSent s |}.
(** UpnpPortMapping.cpp:147 and 225 *)
Definition setMapped (l : list mapped) (s : upnp) : upnp :=
  {| uMapping := uMapping s; uDevices := uDevices s; uMapped := l; uPending := uPending s; uActive := uActive s; uNext := uNext s; uSent := uSent s |}.
(** UpnpPortMapping.cpp:164 and 247 *)
Definition setPending (l : list request) (s : upnp) : upnp :=
  {| uMapping := uMapping s; uDevices := uDevices s; uMapped := uMapped s; uPending := l; uActive := uActive s; uNext := uNext s; uSent := uSent s |}.
(** UpnpPortMapping.cpp:20 *)
Definition setActive (b : bool) (s : upnp) : upnp :=
  {| uMapping := uMapping s; uDevices := uDevices s; uMapped := uMapped s; uPending := uPending s; uActive := b; uNext := uNext s; uSent := uSent s |}.

(** UpnpPortMapping.cpp:120-121 and 197-199: a new stream, waiting *)
Definition send (q : request) (s : upnp) : upnp :=
  {| uMapping := uMapping s; uDevices := uDevices s; uMapped := uMapped s; uPending := uPending s ++ [q]; uActive := uActive s; uNext := uNext s + 1; uSent := uSent s ++ [q] |}.

(** UpnpPortMapping.cpp:97-175 [mapPort] *)
Definition mapPort (v : device) (w : want) (s : upnp) : upnp :=
  send {| qId := uNext s; qAdd := true; qHost := vGateway v; qGwPort := vPort v; qClient := vClient v; qPort := wPort w; qType := wType w; qAnswered := false |} s.

(** UpnpPortMapping.cpp:177-258 [unmapPort]; a request to unmap names no client *)
Definition unmapPort (v : device) (m : mapped) (s : upnp) : upnp :=
  send {| qId := uNext s; qAdd := false; qHost := vGateway v; qGwPort := vPort v; qClient := []; qPort := mPort m; qType := mType m; qAnswered := false |} s.

(** UpnpPortMapping.cpp:308 and 328: the test of both loops *)
Definition foundOn (gateway : list Z) (m : mapped) (w : want) : bool :=
  list_eqb (mGateway m) gateway && (mPort m =? wPort w) && ptypeEq (mType m) (wType w).

(** UpnpPortMapping.cpp:302-320: the first port that should be mapped on the device and is not *)
Definition firstMissing (v : device) (s : upnp) : option want :=
  find (fun w => negb (existsb (fun m => foundOn (vGateway v) m w) (uMapped s))) (uMapping s).

(** UpnpPortMapping.cpp:322-340: the first mapped port that is not among those of this device *)
Definition firstExtra (v : device) (s : upnp) : option mapped :=
  find (fun m => negb (existsb (fun w => foundOn (vGateway v) m w) (uMapping s))) (uMapped s).

(** UpnpPortMapping.cpp:294-341: the devices from one on. A request waiting for one of them ends the whole loop. *)
Fixpoint refreshFrom (vs : list device) (s : upnp) : upnp :=
  match vs with
  | [] => s
  | v :: vs' =>
    if existsb (fun q => list_eqb (qHost q) (vGateway v)) (uPending s) then s
    else let s1 := match firstMissing v s with Some w => mapPort v w s | None => s end in
         let s2 := match firstExtra v s1 with Some m => unmapPort v m s1 | None => s1 end in
         refreshFrom vs' s2
  end.

(** UpnpPortMapping.cpp:290-342 *)
Definition refreshMapping (s : upnp) : upnp := refreshFrom (uDevices s) s.

(** Helper of [mapActiveAdapters], UpnpPortMapping.cpp:32 and 69 *)
Definition wantEq (port : Z) (type : ptype) (w : want) : bool := (wPort w =? port) && ptypeEq (wType w) type.

(** UpnpPortMapping.cpp:26-60; the discovery is left out *)
Definition mapActiveAdapters (port : Z) (type : ptype) (s : upnp) : upnp :=
  if existsb (wantEq port type) (uMapping s) then s
  else refreshMapping (setMapping (uMapping s ++ [{| wPort := port; wType := type |}]) s).

(** UpnpPortMapping.cpp:67-74: the first such entry is erased *)
Fixpoint eraseWant (port : Z) (type : ptype) (l : list want) : list want :=
  match l with [] => [] | w :: l' => if wantEq port type w then l' else w :: eraseWant port type l' end.

(** UpnpPortMapping.cpp:62-77 *)
Definition unmapMappedAdapters (port : Z) (type : ptype) (s : upnp) : upnp :=
  refreshMapping (setMapping (eraseWant port type (uMapping s)) s).

(** UpnpPortMapping.cpp:79-89 *)
Definition unmapAllMappedAdapters (s : upnp) : upnp := refreshMapping (setMapping [] s).

(** UpnpPortMapping.cpp:44-56: the discovery found a device *)
Definition deviceFound (v : device) (s : upnp) : upnp :=
  if existsb (fun d => list_eqb (vClient d) (vClient v) && list_eqb (vGateway d) (vGateway v) && (vPort d =? vPort v)) (uDevices s) then s
  else refreshMapping (setDevices (uDevices s ++ [v]) s).

(** UpnpPortMapping.cpp:219-229: the first such entry is erased *)
Fixpoint eraseMapped (gateway : list Z) (port : Z) (type : ptype) (l : list mapped) : list mapped :=
  match l with
  | [] => []
  | m :: l' => if list_eqb (mGateway m) gateway && (mPort m =? port) && ptypeEq (mType m) type then l' else m :: eraseMapped gateway port type l'
  end.

(** Model only: the request is marked as answered *)
Definition markAnswered (id : Z) (l : list request) : list request :=
  map (fun q => if qId q =? id then {| qId := qId q; qAdd := qAdd q; qHost := qHost q; qGwPort := qGwPort q; qClient := qClient q; qPort := qPort q; qType := qType q; qAnswered := true |} else q) l.

(** UpnpPortMapping.cpp:136-153 and 209-236: a whole answer came on stream [id], with or without success *)
Definition answered (id : Z) (success : bool) (s : upnp) : upnp :=
  match find (fun q => qId q =? id) (uPending s) with
  | None => s
  | Some q =>
    let s := setPending (markAnswered id (uPending s)) s in
    if negb success then s
    else if qAdd q then setMapped (uMapped s ++ [{| mGateway := qHost q; mGwPort := qGwPort q; mPort := qPort q; mType := qType q |}]) s
    else setMapped (eraseMapped (qHost q) (qPort q) (qType q) (uMapped s)) s
  end.

(** UpnpPortMapping.cpp:160-167 and 243-250: the first entry of the stream is erased *)
Fixpoint erasePending (id : Z) (l : list request) : list request :=
  match l with [] => [] | q :: l' => if qId q =? id then l' else q :: erasePending id l' end.

(** UpnpPortMapping.cpp:155-172 and 238-255: the stream closed, answered or not. Only streams that wait can close. *)
Definition closed (id : Z) (s : upnp) : upnp :=
  if existsb (fun q => qId q =? id) (uPending s)
  then let s := setPending (erasePending id (uPending s)) s in if uActive s then refreshMapping s else s
  else s.

(** Model only: the calls and events above, in any order, as the histories of the theorems. [UGone] is the destructor,
    UpnpPortMapping.cpp:16-24 *)
Inductive uevent := UMap (port : Z) (type : ptype) | UUnmap (port : Z) (type : ptype) | UUnmapAll | UDevice (v : device) | UAnswer (id : Z) (success : bool) | UClosed (id : Z) | UGone.

(** Model only: one of them *)
Definition ustep (s : upnp) (e : uevent) : upnp :=
  match e with
  | UMap p t => mapActiveAdapters p t s
  | UUnmap p t => unmapMappedAdapters p t s
  | UUnmapAll => unmapAllMappedAdapters s
  | UDevice v => deviceFound v s
  | UAnswer id b => answered id b s
  | UClosed id => closed id s
  | UGone => setActive false s
  end.

(** Model only: a history *)
Definition urun (es : list uevent) (s : upnp) : upnp := fold_left ustep es s.

(** IncomingPeersListener.h [usedPorts], [upnpEnabled], with the object above *)
Record mapper := { aUpnp : upnp; aEnabled : bool; aTcp : Z; aUdp : Z }.

(** The settings read: Configuration.h [connection.upnpPortMapping], [tcpPort], [udpPort]. For IncomingPeersListener.cpp:37. *)
Record portCfg := { cEnabled : bool; cTcp : Z; cUdp : Z }.

(** Helper of [startMapper], IncomingPeersListener.cpp:31-32 and 43-44 *)
Definition mapBoth (c : portCfg) (s : upnp) : upnp := mapActiveAdapters (cUdp c) Udp (mapActiveAdapters (cTcp c) Tcp s).

(** IncomingPeersListener.cpp:26-33 and 71-72; a new object *)
Definition startMapper (c : portCfg) : mapper :=
  {| aUpnp := if cEnabled c then mapBoth c newUpnp else newUpnp; aEnabled := cEnabled c; aTcp := cTcp c; aUdp := cUdp c |}.

(** IncomingPeersListener.cpp:39-68: the settings may have changed *)
Definition settingsChanged (c : portCfg) (a : mapper) : mapper :=
  let u := aUpnp a in
  let u :=
    if negb (Bool.eqb (cEnabled c) (aEnabled a)) then (if cEnabled c then mapBoth c u else unmapAllMappedAdapters u)
    else if aEnabled a then
      let u := if negb (aUdp a =? cUdp c) then mapActiveAdapters (cUdp c) Udp (unmapMappedAdapters (aUdp a) Udp u) else u in
      if negb (aTcp a =? cTcp c) then mapActiveAdapters (cTcp c) Tcp (unmapMappedAdapters (aTcp a) Tcp u) else u
    else u in
  {| aUpnp := u; aEnabled := cEnabled c; aTcp := cTcp c; aUdp := cUdp c |}.

(** Model only: what may happen to the listener's mapping: settings, devices, answers and closed streams *)
Inductive mevent := MSettings (c : portCfg) | MUpnp (v : device) | MAnswer (id : Z) (success : bool) | MClose (id : Z).

(** Model only: one of them *)
Definition mstep (a : mapper) (e : mevent) : mapper :=
  let on u := {| aUpnp := u; aEnabled := aEnabled a; aTcp := aTcp a; aUdp := aUdp a |} in
  match e with
  | MSettings c => settingsChanged c a
  | MUpnp v => on (deviceFound v (aUpnp a))
  | MAnswer id b => on (answered id b (aUpnp a))
  | MClose id => on (closed id (aUpnp a))
  end.
