(** Lookups of peers in the DHT: which are under way, whom they report to, and what switching the DHT off does. *)
From Verif Require Import Base.

(** Api/Interface.h:111 [TrackerState]: the three states a [DhtSource] takes *)
Definition stClear := 0. Definition stConnected := 5. Definition stAnnouncing := 6.

(** Peers.h:99-122 [DhtSource], the fields of [info] it uses *)
Record dsrc := { dsState : Z; dsNext : Z; dsLast : Z; dsPeers : Z }.

(** Dht/Communication.h:57-61 [QueryInfo]: the query, the hash it looks for and the torrent that listens *)
Record entry := { enQ : Z; enHash : list Z; enFor : Z }.

(** Dht/Query.h:55-99 [GetPeers] with requests under way: its hash and [foundCount] *)
Record look := { lkQ : Z; lkHash : list Z; lkCount : Z }.

(** Dht/Communication.h:55-75: the list of queries; also the queries that run, the sources of all torrents, the setting
    [dht.enabled], whether UdpAsyncComm.h [onUnhandledReceive] is set, the requests of others (trackers) in its
    [pendingResponses], and a number for the next query *)
Record dcomm := { dcEntries : list entry; dcRun : list look; dcSrc : Z -> dsrc; dcOn : bool; dcHears : bool; dcWait : list Z; dcNew : Z }.

(** What happens to the outside: a lookup begins for a torrent; peers are handed to a torrent; the end of a lookup is
    reported to a torrent; the callback of another request is called; an unexpected packet is handed on to uTP and the DHT.
    Model only: the log of the theorems. *)
Inductive dout := OStarted (q t : Z) | OFound (q t : Z) (h : list Z) (values : list Z) | OReported (q t : Z) (count : Z) | OAnswered (k : Z) | OPacket.

Section Comm.
Variable hashOf : Z -> list Z.   (* Torrent::hash *)
Variable interval : Z.           (* Peers.cpp:548 announceInterval *)

(** Model only: record updates *)
Definition setSrc (s : dcomm) (t : Z) (v : dsrc) : dcomm :=
  {| dcEntries := dcEntries s; dcRun := dcRun s; dcSrc := fun x => if x =? t then v else dcSrc s x; dcOn := dcOn s; dcHears := dcHears s; dcWait := dcWait s; dcNew := dcNew s |}.
(** Model only: record updates *)
Definition setLists (s : dcomm) (e : list entry) (r : list look) : dcomm :=
  {| dcEntries := e; dcRun := r; dcSrc := dcSrc s; dcOn := dcOn s; dcHears := dcHears s; dcWait := dcWait s; dcNew := dcNew s |}.

(** Communication.cpp:101-104 [operator==] of a query and a hash *)
Definition isHash (h : list Z) (e : entry) : bool := list_eqb (enHash e) h.

(** the erase of the first query of a hash, Communication.cpp:133-138, 179-187 *)
Fixpoint eraseHash (h : list Z) (l : list entry) : list entry :=
  match l with [] => [] | e :: l' => if isHash h e then l' else e :: eraseHash h l' end.

(** Communication.cpp:173-188 [findingPeersFinished] of query q, Peers.cpp:599-604 [dhtFindingPeersFinished] *)
Definition finding_finished (s : dcomm) (q : Z) (h : list Z) (count now : Z) : dcomm * list dout :=
  match find (isHash h) (dcEntries s) with
  | None => (s, [])
  | Some e =>
    let t := enFor e in
    (setSrc (setLists s (eraseHash h (dcEntries s)) (dcRun s)) t {| dsState := stConnected; dsNext := now + interval; dsLast := now; dsPeers := dsPeers (dcSrc s t) |}, [OReported q t count])
  end.

(** Communication.cpp:106-127 [findPeers] with Query.cpp:92-117 [start]; nodes: the table knows some. The look for the hash
    and the insertion are two critical sections in the code, one step here. *)
Definition comm_find (s : dcomm) (t : Z) (nodes : bool) (now : Z) : dcomm * list dout :=
  if existsb (isHash (hashOf t)) (dcEntries s) then (s, []) else
  let q := dcNew s in
  let s1 := {| dcEntries := dcEntries s ++ [{| enQ := q; enHash := hashOf t; enFor := t |}];
               dcRun := if nodes then dcRun s ++ [{| lkQ := q; lkHash := hashOf t; lkCount := 0 |}] else dcRun s;
               dcSrc := dcSrc s; dcOn := dcOn s; dcHears := dcHears s; dcWait := dcWait s; dcNew := q + 1 |} in
  if nodes then (s1, [OStarted q t]) else let (s2, o) := finding_finished s1 q (hashOf t) 0 now in (s2, OStarted q t :: o).

(** Peers.cpp:583-591 [DhtSource::findPeers] *)
Definition src_find (s : dcomm) (t : Z) (nodes : bool) (now : Z) : dcomm * list dout :=
  let d := dcSrc s t in
  if dcOn s && negb (dsState d =? stAnnouncing)
  then comm_find (setSrc s t {| dsState := stAnnouncing; dsNext := 0; dsLast := dsLast d; dsPeers := dsPeers d |}) t nodes now else (s, []).

(** Peers.cpp:570-581 [DhtSource::update]; done: the torrent has all it selected *)
Definition src_update (s : dcomm) (t : Z) (done nodes : bool) (now : Z) : dcomm * list dout :=
  let d := dcSrc s t in
  if (dsNext d <=? now) && (dsState d =? stConnected)
  then if done then (setSrc s t {| dsState := dsState d; dsNext := now + interval; dsLast := dsLast d; dsPeers := dsPeers d |}, []) else src_find s t nodes now
  else (s, []).

(** Peers.cpp:551-559 [DhtSource::start] *)
Definition src_start (s : dcomm) (t : Z) : dcomm :=
  let d := dcSrc s t in if dsState d =? stClear then setSrc s t {| dsState := stConnected; dsNext := dsNext d; dsLast := dsLast d; dsPeers := dsPeers d |} else s.

(** Peers.cpp:561-568 [DhtSource::stop], Communication.cpp:129-139 [stopFindingPeers]: the query itself goes on *)
Definition src_stop (s : dcomm) (t : Z) : dcomm :=
  let d := dcSrc s t in setSrc (setLists s (eraseHash (hashOf t) (dcEntries s)) (dcRun s)) t {| dsState := stClear; dsNext := 0; dsLast := dsLast d; dsPeers := dsPeers d |}.

(** Query.cpp:243-246 and Communication.cpp:157-171 [onFoundPeers], Peers.cpp:593-597 [dhtFoundPeers]: an answer to query q
    with values, of which [added] are new to the torrent *)
Definition found (s : dcomm) (q : Z) (values : list Z) (added : Z) : dcomm * list dout :=
  match find (fun l => lkQ l =? q) (dcRun s) with
  | None => (s, [])
  | Some l =>
    let count (c : Z) := map (fun x => if lkQ x =? q then {| lkQ := q; lkHash := lkHash x; lkCount := u32 (lkCount x + c) |} else x) (dcRun s) in
    match find (isHash (lkHash l)) (dcEntries s) with
    | None => (setLists s (dcEntries s) (count (u32 (zlen values))), [])
    | Some e =>
      let t := enFor e in let d := dcSrc s t in let p := u32 (dsPeers d + added) in
      (setSrc (setLists s (dcEntries s) (count p)) t {| dsState := dsState d; dsNext := dsNext d; dsLast := dsLast d; dsPeers := p |}, [OFound q t (lkHash l) values])
    end
  end.

(** Query.cpp:276-315: the last request of query q ended. That a query may report this twice (C36) is left out. *)
Definition ended (s : dcomm) (q now : Z) : dcomm * list dout :=
  match find (fun l => lkQ l =? q) (dcRun s) with
  | None => (s, [])
  | Some l => finding_finished (setLists s (dcEntries s) (filter (fun x => negb (lkQ x =? q)) (dcRun s))) q (lkHash l) (lkCount l) now
  end.

(** Communication.cpp:46-60 [start], run when the setting is on. Nothing of what [stop] removed comes back. *)
Definition comm_start (s : dcomm) : dcomm :=
  {| dcEntries := dcEntries s; dcRun := dcRun s; dcSrc := dcSrc s; dcOn := true; dcHears := dcHears s; dcWait := dcWait s; dcNew := dcNew s |}.

(** Communication.cpp:62-81 [stop]: every query is stopped and UdpAsyncComm.cpp:61-72 [removeListeners] drops all pending
    responses and the receiver of unexpected packets *)
Definition comm_stop (s : dcomm) : dcomm :=
  {| dcEntries := []; dcRun := []; dcSrc := dcSrc s; dcOn := false; dcHears := false; dcWait := []; dcNew := dcNew s |}.

(** Model only: what happens, in any order, as the histories of the theorems: a torrent starts or stops its source, its
    timer or the user asks (Peers.cpp:481-502, 301-310), answers and ends of queries, the setting, requests of others, their
    answers, unexpected packets *)
Inductive devt := DStart (t : Z) | DStop (t : Z) | DUpdate (t now : Z) (done nodes : bool) | DRefresh (t now : Z) (nodes : bool) | DFound (q : Z) (values : list Z) (added : Z)
| DEnd (q now : Z) | DOn | DOff | DAsk (k : Z) | DAnswer (k : Z) | DPacket.

(** one of them; Core.cpp:290-294 and UdpAsyncComm.cpp:162-174 for packets *)
Definition dstep (s : dcomm) (e : devt) : dcomm * list dout :=
  match e with
  | DStart t => (src_start s t, [])
  | DStop t => (src_stop s t, [])
  | DUpdate t now done nodes => src_update s t done nodes now
  | DRefresh t now nodes => src_find s t nodes now
  | DFound q v a => found s q v a
  | DEnd q now => ended s q now
  | DOn => (comm_start s, [])
  | DOff => (comm_stop s, [])
  | DAsk k => ({| dcEntries := dcEntries s; dcRun := dcRun s; dcSrc := dcSrc s; dcOn := dcOn s; dcHears := dcHears s; dcWait := k :: dcWait s; dcNew := dcNew s |}, [])
  | DAnswer k => if existsb (Z.eqb k) (dcWait s)
                 then ({| dcEntries := dcEntries s; dcRun := dcRun s; dcSrc := dcSrc s; dcOn := dcOn s; dcHears := dcHears s; dcWait := filter (fun x => negb (x =? k)) (dcWait s); dcNew := dcNew s |}, [OAnswered k])
                 else (s, [])
  | DPacket => (s, if dcHears s then [OPacket] else [])
  end.

(** Model only: a history of the events above, as in the theorems *)
Fixpoint drun (s : dcomm) (es : list devt) : dcomm * list dout :=
  match es with [] => (s, []) | e :: es' => let (s1, o1) := dstep s e in let (s2, o2) := drun s1 es' in (s2, o1 ++ o2) end.

End Comm.

(** Core.cpp:277-303 [initListeners]: listening, the setting as it is, no query *)
Definition dcInit (on : bool) : dcomm :=
  {| dcEntries := []; dcRun := []; dcSrc := fun _ => {| dsState := stClear; dsNext := 0; dsLast := 0; dsPeers := 0 |}; dcOn := on; dcHears := true; dcWait := []; dcNew := 0 |}.
