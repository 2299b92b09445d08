(** Which mutexes the functions of the client lock, in which order. Everything else of them is left out: what they compute
    decides only which way they go, and all ways are covered by arguments. A call that is posted to a pool locks nothing
    where it is posted; what it does there is a function of its own below. Logging, alerts and UPnP are left out. *)
From Verif Require Import Base LockModel.

(** * Peers *)

(** PeerStream.cpp:60-89 [write]: over TCP posted, over uTP the state is locked and for each packet the writer
    (UtpStream.cpp:114-142, UdpAsyncWriter.cpp:264-282). [o]: the uTP streams written to, with the packets sent. *)
Definition writes (o : list (Z * nat)) : prog := seqs (map (fun w => hold (MUtp (fst w)) [rep (snd w) (hold (MUtpWriter (fst w)) [])]) o).

(** Peers.cpp:114-153 [connectNext] and 468-479 [connect]: opening a TCP stream asks for its bandwidth channel
    (PeerStream.cpp:189-214, Bandwidth.cpp:110-123); n of them. *)
Definition connectNext (t : Z) (n : nat) : prog := hold (MPeers t) [rep n (hold MBandwidth [])].

(** Peers.cpp:392-458 [updateKnownPeers]. *)
Definition knownPeers (t : Z) (fresh : bool) (n : nat) : prog := seqs [hold (MPeers t) []; when fresh (connectNext t n)].

(** Peers.cpp:244-262 [disconnect]: closing is posted. *)
Definition disconnect (t : Z) : prog := hold (MPeers t) [].

(** Dht/Query.cpp:560-566 [PingNodes::start] of one address: sending adds a pending response (UdpAsyncComm.cpp:130-146). *)
Definition send : prog := hold MResponses [].

(** PeerCommunication.cpp:363-486: a message of a peer and what its handling needs; meta: metadata is downloaded (MetadataDownload listens), else
    FileTransfer does. *)
Inductive said :=
| SaidHello (meta bare : bool) (o : list (Z * nat))
| SaidPort
| SaidInterested (o : list (Z * nat))
| SaidRequest (bw : bool)
| SaidPiece (loads : nat) (o : list (Z * nat))
| SaidHave (loads : nat) (o : list (Z * nat))
| SaidOther
| SaidExtended (meta usable : bool) (o : list (Z * nat))
| SaidPex (s : Z) (new4 new6 : bool) (n4 n6 : nat)
| SaidRendezvous (o : list (Z * nat))
| SaidConnect (tcp : bool)
| SaidMetadata (o : list (Z * nat))
| SaidAskMetadata (o : list (Z * nat))
| SaidReject.

(** PeerCommunication.cpp:363-439 [handleMessage], 441-486, with Peers.cpp:607-644, 695-755. *)
Definition saidProg (t : Z) (x : said) : prog :=
  match x with
  | SaidHello meta bare o => seqs [writes o; hold (MPeers t) []; when (meta && bare) (disconnect t)]   (* FileTransfer.cpp:65-75, MetadataDownload.cpp:78-84 *)
  | SaidPort => send                                                                       (* Peers.cpp:631-644 *)
  | SaidInterested o => writes o                                                           (* Uploader.cpp:23-27 *)
  | SaidRequest bw => hold (MUp t) [when bw (hold MBandwidth [])]                          (* Uploader.cpp:42-51, 65-80 *)
  | SaidPiece loads o => hold (MDown t) [hold (MCache t) []; rep loads (hold (MPieces t) []); writes o]   (* Downloader.cpp:264-341 *)
  | SaidHave loads o => hold (MDown t) [rep loads (hold (MPieces t) []); writes o]         (* Downloader.cpp:372-419 *)
  | SaidOther => PEnd
  | SaidExtended meta usable o => if meta then (if usable then hold (MMeta t) [writes o] else disconnect t) else writes o   (* MetadataDownload.cpp:158-177 *)
  | SaidPex s new4 new6 n4 n6 => seqs [hold (MPexRemote s) []; knownPeers t new4 n4; knownPeers t new6 n6]   (* PexExtension.cpp:156-220 *)
  | SaidRendezvous o => seqs [hold (MPeers t) []; writes o]                                (* Peers.cpp:695-730 *)
  | SaidConnect tcp => hold (MPeers t) [when tcp (hold MBandwidth [])]                     (* Peers.cpp:179-215 *)
  | SaidMetadata o => hold (MMeta t) [writes o]                                            (* MetadataDownload.cpp:116-147 *)
  | SaidAskMetadata o => writes o                                                          (* FileTransfer.cpp:120-141 *)
  | SaidReject => seqs [disconnect t; hold (MMeta t) []]                                   (* MetadataDownload.cpp:148-154 *)
  end.

(** Peers.cpp:646-668: who listens to the peers of a torrent. *)
Inductive heard := HNobody | HTransfer | HMeta.

(** FileTransfer.cpp:77-83 and Downloader.cpp:109-127, Uploader.cpp:29-40; MetadataDownload.cpp:86-99. *)
Definition heardClosed (t : Z) (h : heard) : prog :=
  match h with HNobody => PEnd | HTransfer => seqs [hold (MDown t) []; hold (MUp t) []] | HMeta => hold (MMeta t) [] end.

(** Peers.cpp:618-629 [connectionClosed], 670-693 [evaluatePossibleHolepunch]. *)
Definition closed (t : Z) (h : heard) (punch : bool) (peers : list Z) (o : list (Z * nat)) (n : nat) : prog :=
  seqs [hold (MPeers t) []; when punch (seqs [hold (MPeers t) [seqs (map (fun s => hold (MPexRemote s) []) peers)]; writes o]); connectNext t n; heardClosed t h].

(** PeerStream.cpp:273-312 [connectionClosed]: open another stream instead, or tell. *)
Definition streamClosed (again : bool) (told : prog) : prog := if again then hold MBandwidth [] else told.

(** * Requests over UDP and the DHT *)

(** UdpAsyncComm.cpp:113-128 [removeCallback], 61-71 [removeListeners]. *)
Definition removeCallback : prog := hold MResponding [hold MResponses []].

(** Table.cpp: each function that locks does so for its whole length. *)
Definition table : prog := hold MTable [].

(** Communication.cpp:157-171 [onFoundPeers] with Peers.cpp:593-597. *)
Definition foundPeers (t : Z) (listened fresh : bool) (n : nat) : prog := hold MQueries [when listened (knownPeers t fresh n)].

(** Communication.cpp:173-188 [findingPeersFinished]; the listener locks nothing (Peers.cpp:599-604). *)
Definition findingFinished : prog := hold MQueries [].

(** UdpTrackerComm.cpp:110-136, 187-200 [announce]: an announce tells what is left (Torrent.cpp:427-440, Downloader.cpp:143-155). *)
Definition announceUdp (t : Z) : prog := seqs [hold (MPieces t) []; hold (MDown t) []; send].

(** The callbacks of requests over UDP: UdpTrackerComm.cpp:65-172, Dht/Query.cpp:227-318, 378-453, 588-633. *)
Inductive cb :=
| CbTracker (t : Z) (announces : bool)
| CbGetPeers (q t : Z) (found : option (bool * bool * nat)) (nodes : bool) (sends : nat) (fin : bool)
| CbFindNode (q : Z) (nodes : bool) (sends : nat)
| CbPing (q : Z) (next : bool).

(** UdpTrackerComm.cpp:65-108, 138-172, Dht/Query.cpp:227-318, 378-453, 588-633. *)
Definition cbProg (c : cb) : prog :=
  match c with
  | CbTracker t announces => when announces (announceUdp t)
  | CbGetPeers q t found nodes sends fin =>
      seqs [match found with Some (l, f, n) => foundPeers t l f n | None => PEnd end; when nodes (hold (MNodes q) []); table;
            hold (MRequests q) [hold (MNodes q) [rep sends send]; when fin findingFinished]]
  | CbFindNode q nodes sends => seqs [when nodes (hold (MNodes q) []); table; hold (MRequests q) [hold (MNodes q) [rep sends send]]]
  | CbPing q next => seqs [table; hold (MRequests q) [when next send]]
  end.

(** UdpAsyncComm.cpp:222-267 [onUdpReceive], 176-219 [onDirectUdpReceive]: the callbacks, and whether each is kept waiting. *)
Definition receive (l : list (cb * bool)) : prog :=
  hold MResponding [hold MResponses []; seqs (map (fun x => seqs [cbProg (fst x); when (snd x) (hold MResponses [])]) l)].

(** UdpAsyncComm.cpp:269-296 [onUdpClose]. *)
Definition udpClose (l : list cb) : prog := seqs [hold MResponses []; seqs (map cbProg l)].

(** Dht/Query.cpp:92-117 [DhtQuery::start]. *)
Definition startQuery (q : Z) (n : nat) : prog := seqs [table; match n with O => findingFinished | _ => hold (MRequests q) [rep n send] end].

(** Communication.cpp:106-127 [findPeers]. *)
Definition findPeers (q : Z) (known : bool) (n : nat) : prog := seqs [hold MQueries []; when (negb known) (seqs [hold MQueries []; startQuery q n])].

(** ServiceThreadpool.cpp:47-61 [stop]: waits for each of the threads. *)
Definition join (k t : Z) (workers : list Z) : prog := seqs (map (fun i => hold (MThread k t i) []) workers).

(** ScheduledTimer.cpp:13-31 [schedule], [disable]. *)
Definition timer (k i : Z) : prog := hold (MTimer k i) [].

(** Communication.cpp:62-81 [stop] with Query.cpp:119-129 for each query of peers, with the number of its requests, and
    Table.cpp [save]. *)
Definition dhtStop (qs : list (Z * nat)) (workers : list Z) : prog :=
  seqs [hold MQueries [seqs (map (fun q => hold (MRequests (fst q)) [rep (snd q) removeCallback]) qs)]; timer tiDht 0; removeCallback; join poDht 0 workers; table].

(** * Trackers *)

(** HttpTrackerComm.cpp:195-210 [announce]. *)
Definition announceHttp (t k : Z) : prog := hold (MComm k) [hold (MPieces t) []; hold (MDown t) []].

(** Trackers by their kind: TrackerManager.cpp:180-203 *)
Definition announce (t : Z) (k : Z) (http : bool) : prog := if http then announceHttp t k else announceUdp t.

(** HttpTrackerComm.cpp:24-32, UdpTrackerComm.cpp:30-33 [deinit]. *)
Definition deinit (k : Z) (http : bool) : prog := if http then hold (MComm k) [] else removeCallback.

(** TrackerManager.cpp:180-203 [start] of one: another one in its place ends the old one; the timer is new. *)
Definition startTracker (t k : Z) (http old oldHttp : bool) : prog := seqs [when old (deinit k oldHttp); announce t k http].

(** TrackerManager.cpp:25-32 [stop], 205-217 [stopAll]. *)
Definition stopTrackers (t : Z) (ks : list (Z * bool)) : prog := hold (MTrackers t) [seqs (map (fun k => seqs [timer tiTracker (fst k); deinit (fst k) (snd k)]) ks)].

(** * A torrent *)

(** Peers.cpp:57-96 [stop]: trackers, DHT (561-569), each connected peer, the timer. *)
Definition stopPeers (t : Z) (ks : list (Z * bool)) (h : heard) (n : nat) : prog :=
  seqs [stopTrackers t ks; hold MQueries []; hold MConfig []; hold (MPeers t) [rep n (heardClosed t h)]; timer tiPeers t].

(** DownloadStorage.cpp:12-19 [stop]. *)
Definition stopStorage (t : Z) (workers : list Z) : prog := seqs [hold (MCache t) []; join poStorage t workers].

(** FileTransfer.cpp:44-55 [stop], Downloader.cpp:23-45, Uploader.cpp:14-21. *)
Definition stopTransfer (t : Z) (ks : list (Z * bool)) (h : heard) (n : nat) (storage : list Z) : prog :=
  seqs [stopPeers t ks h n; timer tiTransfer t; hold (MDown t) []; hold (MPieces t) []; stopStorage t storage; hold (MUp t) []].

(** Torrent.cpp:207-238: once all metadata is there, the end of its download adds the trackers and resizes the peers
    (Peers.cpp:379-390). *)
Definition metaEnd (t : Z) : prog := seqs [hold (MTrackers t) []; hold (MPeers t) []].

(** MetadataDownload.cpp:45-60 [stop]. *)
Definition stopMeta (t : Z) (active finished : bool) (ks : list (Z * bool)) (h : heard) (n : nat) : prog :=
  seqs [timer tiMeta t; when active (seqs [hold (MMeta t) [when finished (metaEnd t)]; stopPeers t ks h n])].

(** Peers.cpp:646-668 [setTargetListener] and 31-55 [start]; the timers are new. For MetadataDownload each established
    peer without extensions, or with them, is disconnected here (MetadataDownload.cpp:78-84, 158-178). *)
Definition startPeers (t : Z) (meta : bool) (established : nat) (o : list (Z * nat)) : prog :=
  seqs [hold (MPeers t) [when meta (rep established (disconnect t)); writes o]; hold MConfig []].

(** Torrent.cpp:116-139 [save]. *)
Definition saveTorrent (t : Z) : prog := hold (MPieces t) [].

(** Torrent.cpp:308-351 [stop]; metadata: how its download stood; service: the threads waited for. *)
Definition stopTorrent (t : Z) (check : bool) (meta : option (bool * bool)) (started : bool) (ks : list (Z * bool)) (h : heard) (n : nat) (storage service : list Z) : prog :=
  hold (MState t) [when check (hold (MCheck t) []); match meta with Some (active, finished) => stopMeta t active finished ks h n | None => PEnd end;
                   when started (seqs [stopTransfer t ks h n storage; join poService t service]); saveTorrent t].

(** Files.cpp:346-396 [checkFiles] with Torrent.cpp:160-167 [prepareForChecking]. *)
Definition checkFiles (t : Z) (ks : list (Z * bool)) (h : heard) (n : nat) (storage : list Z) : prog :=
  hold (MCheck t) [stopTransfer t ks h n storage; hold (MPieces t) []].

(** Torrent.cpp:270-306 [start]: with files to check, or the transfer, or the metadata first. *)
Inductive starting := StRunning | StMeta (established : nat) (o : list (Z * nat)) | StCheck (ks : list (Z * bool)) (h : heard) (n : nat) (storage : list Z) | StTransfer (established : nat) (loads : nat) (o o2 : list (Z * nat)).

(** Downloader.cpp:421-478 [refreshSelection]. *)
Definition refreshSelection (t : Z) (loads : nat) (o : list (Z * nat)) : prog := seqs [hold (MDown t) []; hold (MDown t) [rep loads (hold (MPieces t) []); writes o]].

(** Torrent.cpp:270-306 [start], MetadataDownload.cpp:14-43, FileTransfer.cpp:19-42, Files.cpp:66-76. The lock of the
    metadata for its new timer is not nested in others. *)
Definition startTorrent (t : Z) (s : starting) : prog :=
  hold (MState t) [match s with
    | StRunning => PEnd
    | StMeta n o => seqs [startPeers t true n o; hold (MMeta t) []]
    | StCheck ks h n storage => checkFiles t ks h n storage
    | StTransfer n loads o o2 => seqs [hold (MStorage t) []; refreshSelection t loads o; startPeers t false n o2] end].

(** * What runs *)

(** What threads of the client do; the file and lines stand beside each in [actProg], e.g. UdpAsyncComm.cpp:222-267. *)
Inductive act :=
(* UDP: a received packet, one received by a client, a failure of a client or none, a timer *)
| AUdp (l : list (cb * bool))
| AUdpDirect (c : Z) (l : list (list (cb * bool)))
| AUdpWriter (c : Z) (failed : option (list cb))
| AUdpTimeout (over : option (list cb))
(* DHT *)
| ARespond (values token : bool)
| AFindPeers (q : Z) (known : bool) (n : nat)
| AStopFinding
| AFindNode (q : Z) (n : nat)
| APing
| ARefreshTable (q : Z) (n : nat)
| ADhtStop (qs : list (Z * nat)) (workers : list Z)
(* connections *)
| ATcpWrite (own : bool) (s : Z)
| ATcpOpened (own : bool) (s : Z)
| ATcpReceive (own : bool) (s t : Z) (l : list said)
| ATcpClosed (own : bool) (s t : Z) (again : bool) (h : heard) (punch : bool) (peers : list Z) (o : list (Z * nat)) (n : nat)
| AAccepted (s : Z)
| AFirstData (utp : bool) (s t : Z) (known : bool) (l : list said) (o : list (Z * nat))
| AFirstClosed (s : Z)
| AUtpPackets (streams : list (bool * Z * Z * bool * list said)) (fresh : list Z)
| AUtpRefresh (streams : list (Z * nat))
| AUtpConnect (s : Z)
| AUtpClosed (own : bool) (s t : Z) (again : bool) (h : heard) (punch : bool) (peers : list Z) (o : list (Z * nat)) (n : nat)
| ABandwidth (streams : list (bool * Z)) (torrents : list Z)
(* trackers *)
| ATrackersStart (t : Z) (l : list (Z * bool * bool * bool))
| AAnnounced (t k : Z) (fresh : bool) (n : nat)
| ATrackerFailed (t k : Z) (restart : option (bool * bool * bool))
| ATrackerTimer (t k : Z) (http : bool)
| AHttpTracker (s k : Z)
(* peers and transfer *)
| APeersTimer (t : Z) (find : option (Z * bool * nat)) (o : list (Z * nat))
| APeersLook (t : Z)
| AConnectNext (t : Z) (n : nat)
| AConnect (t : Z) (tcp : bool)
| ATransferTimer (t : Z) (o : list (Z * nat))
| AUpload (t : Z) (o : list (Z * nat)) (bw : bool)
| APieceChecked (t : Z) (dropped : nat)
| AFlush (t : Z)
| AFinish (t : Z) (storage : list Z)
| ASelect (t : Z) (loads : nat) (o : list (Z * nat))
| AProgress (t : Z)
(* metadata *)
| AMetaTimer (t : Z) (o : list (Z * nat))
| AMetaStop (t : Z) (finished : bool) (ks : list (Z * bool)) (h : heard) (n : nat)
| AMetaLook (t : Z)
(* the torrent *)
| AStart (t : Z) (s : starting)
| AStop (t : Z) (check : bool) (meta : option (bool * bool)) (started : bool) (ks : list (Z * bool)) (h : heard) (n : nat) (storage service : list Z)
| ACheck (t : Z) (ks : list (Z * bool)) (h : heard) (n : nat) (storage : list Z)
| AChecked (t : Z)
| ALookUp
| ARemove (t : Z) (check : bool) (meta : option (bool * bool)) (started : bool) (ks : list (Z * bool)) (h : heard) (n : nat) (storage service : list Z)
| AConfig (find : list (Z * bool * nat)).

(** The locks of each, with file and lines, e.g. TcpAsyncStream.cpp:377-420. *)
Definition actProg (a : act) : prog :=
  match a with
  | AUdp l => receive l                                                                    (* UdpAsyncComm.cpp:162-174, 222-267 *)
  | AUdpDirect c l => hold (MWriter c) (map receive l)                                     (* UdpAsyncWriter.cpp:306-349 *)
  | AUdpWriter c failed => hold (MWriter c) [match failed with Some l => hold MResponding [udpClose l] | None => PEnd end]   (* UdpAsyncWriter.cpp:96-193, UdpAsyncComm.cpp:141 *)
  | AUdpTimeout over => seqs [hold MResponses []; hold MResponding [match over with Some l => udpClose l | None => PEnd end]]   (* UdpAsyncComm.cpp:313-353 *)
  | ARespond values token => seqs [table; when values (hold MValues []); when token (hold MToken []); table]   (* Dht/Responder.cpp:14-93 *)
  | AFindPeers q known n => findPeers q known n
  | AStopFinding => hold MQueries []                                                       (* Communication.cpp:88-99, 129-139 *)
  | AFindNode q n => startQuery q n                                                        (* Communication.cpp:141-147 *)
  | APing => send                                                                          (* Communication.cpp:149-155 *)
  | ARefreshTable q n => hold (MTimer tiDht 0) [hold MToken []; table; hold (MRequests q) [rep n send]]   (* Communication.cpp:226-239 *)
  | ADhtStop qs workers => dhtStop qs workers
  | ATcpWrite own s => hold (MQueue own s) []                                              (* TcpAsyncStream.cpp:293-344 *)
  | ATcpOpened own s => seqs [hold (MQueue own s) []; hold MBandwidth []; hold (MCallback own s) []]   (* TcpAsyncStream.cpp:159-192 *)
  | ATcpReceive own s t l => hold (MReceive own s) [hold MBandwidth []; hold (MCallback own s) [seqs (map (saidProg t) l)]; hold MBandwidth []]   (* TcpAsyncStream.cpp:377-420 *)
  | ATcpClosed own s t again h punch peers o n => seqs [hold (MReceive own s) []; hold (MCallback own s) [streamClosed again (closed t h punch peers o n)]]   (* TcpAsyncStream.cpp:194-233 *)
  | AAccepted s => seqs [hold MBandwidth []; hold MListener []]                            (* IncomingPeersListener.cpp:119-143 *)
  | AFirstData utp s t known l o =>
      let first := seqs [hold MListener []; hold MHashes []; writes o; hold MListener [hold MTorrents []; when known (seqs [hold (MPeers t) []; seqs (map (saidProg t) l)])]] in
      if utp then hold MStreams [hold (MCallback false s) [first]] else hold (MReceive false s) [hold (MCallback false s) [first]; hold MBandwidth []]   (* IncomingPeersListener.cpp:175-253, Core.cpp:298-302, Peers.cpp:217-242 *)
  | AFirstClosed s => hold (MCallback false s) [hold MListener []]                         (* IncomingPeersListener.cpp:225-233 *)
  | AUtpPackets streams fresh =>
      hold MStreams [seqs (map (fun x => match x with (own, s, t, opened, l) => seqs [writes [(s, 1%nat)]; when opened (hold (MCallback own s) [writes [(s, 1%nat)]]); writes [(s, 1%nat)]; hold (MCallback own s) [seqs (map (saidProg t) l)]] end) streams);
                     seqs (map (fun s => seqs [hold MConnect [hold MListener []]; hold (MUtpWriter s) []]) fresh)]   (* UtpManager.cpp:90-173, 189-206, UtpStream.cpp:176-206, 465-524 *)
  | AUtpRefresh streams => hold (MTimer tiUtp 0) [hold MStreams [writes streams]]          (* UtpManager.cpp:33-37, 175-187, UtpStream.cpp:208-248 *)
  | AUtpConnect s => seqs [hold MStreams []; hold (MUtpWriter s) []]                       (* UtpManager.cpp:69-82 *)
  | AUtpClosed own s t again h punch peers o n => hold (MCallback own s) [streamClosed again (closed t h punch peers o n)]   (* UtpStream.cpp:281-301 *)
  | ABandwidth streams torrents =>
      hold (MTimer tiBandwidth 0) [hold MBandwidth []; seqs (map (fun x => hold (MReceive (fst x) (snd x)) [hold MBandwidth []]) streams); seqs (map (fun t => hold (MUp t) []) torrents)]   (* Core.cpp:321-325, Bandwidth.cpp:171-256, TcpAsyncStream.cpp:503-513, Uploader.cpp:53-63 *)
  | ATrackersStart t l => hold (MTrackers t) (map (fun x => match x with (k, http, old, oldHttp) => startTracker t k http old oldHttp end) l)   (* TrackerManager.cpp:12-23 *)
  | AAnnounced t k fresh n => hold (MTrackers t) [timer tiTracker k; knownPeers t fresh n]  (* TrackerManager.cpp:115-133, Peers.cpp:36-43 *)
  | ATrackerFailed t k restart => hold (MTrackers t) [match restart with Some (http, old, oldHttp) => startTracker t k http old oldHttp | None => timer tiTracker k end]   (* TrackerManager.cpp:135-178 *)
  | ATrackerTimer t k http => hold (MTimer tiTracker k) [announce t k http]                 (* TrackerManager.cpp:197, ScheduledTimer.cpp:42-52 *)
  | AHttpTracker s k => hold (MReceive true s) [hold MBandwidth []; hold (MCallback true s) [hold (MComm k) []]]   (* HttpTrackerComm.cpp:54-193 *)
  | APeersTimer t find o => hold (MTimer tiPeers t) [match find with Some (q, known, n) => findPeers q known n | None => PEnd end; hold (MPeers t) [hold (MPexLocal t) []; hold (MPexLocal t) []; writes o]]   (* Peers.cpp:45, 481-502, 570-591 *)
  | APeersLook t => hold (MPeers t) []                                                     (* Peers.cpp:355-377 *)
  | AConnectNext t n => connectNext t n
  | AConnect t tcp => hold (MPeers t) [when tcp (hold MBandwidth [])]                      (* Peers.cpp:179-215 *)
  | ATransferTimer t o => hold (MTimer tiTransfer t) [hold (MPeers t) []; hold (MPeers t) [hold (MDown t) []; writes o]; hold (MUp t) []]   (* FileTransfer.cpp:30-38, 143-290, Peers.cpp:264-275 *)
  | AUpload t o bw => hold (MUp t) [writes o; when bw (hold MBandwidth [])]                (* Uploader.cpp:87-131 *)
  | APieceChecked t dropped => seqs [hold (MBuffers t) []; hold (MCache t) []; hold (MBuffers t) []; hold (MDown t) [rep dropped (disconnect t)]]   (* DownloadStorage.cpp:29-63, Downloader.cpp:191-262 *)
  | AFlush t => hold (MCache t) []                                                         (* DownloadStorage.cpp:154-170 *)
  | AFinish t storage => seqs [hold (MDown t) []; stopStorage t storage]                    (* Downloader.cpp:176-189 *)
  | ASelect t loads o => refreshSelection t loads o
  | AProgress t => seqs [hold (MPieces t) []; hold (MDown t) []]                           (* Torrent.cpp:383-440 *)
  | AMetaTimer t o => hold (MTimer tiMeta t) [hold (MMeta t) [writes o]]                   (* MetadataDownload.cpp:27-40 *)
  | AMetaStop t finished ks h n => stopMeta t true finished ks h n
  | AMetaLook t => hold (MMeta t) []                                                       (* MetadataDownload.cpp:63-76 *)
  | AStart t s => startTorrent t s
  | AStop t check meta started ks h n storage service => stopTorrent t check meta started ks h n storage service
  | ACheck t ks h n storage => checkFiles t ks h n storage
  | AChecked t => seqs [hold (MCheck t) []; hold (MStorage t) []]                          (* Files.cpp:357-368; what follows is a start or a stop *)
  | ALookUp => hold MTorrents []                                                           (* Core.cpp:233-243 *)
  | ARemove t check meta started ks h n storage service => hold MTorrents [hold (MStorage t) []; stopTorrent t check meta started ks h n storage service; hold MHashes []]   (* Core.cpp:246-274 *)
  | AConfig find => hold MConfig [seqs (map (fun x => match x with (q, known, n) => findPeers q known n end) find)]   (* Configuration.cpp:59-72, Peers.cpp:558 *)
  end.

(** ServiceThreadpool.cpp:23-61: a thread is one of a pool, which others wait for, or any other: the user's, those of the network and of accepted
    connections. *)
Inductive place := Free | Worker (k t i : Z).

(** ServiceThreadpool.cpp:33-40: a thread of a pool runs what is posted to it until the end. *)
Definition threadProg (x : place * list act) : prog :=
  let body := seqs (map actProg (snd x)) in match fst x with Free => body | Worker k t i => PHold (MThread k t i) body end.
