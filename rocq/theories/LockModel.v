(** Threads and mutexes: who may go on and who waits. *)
From Verif Require Import Base.

(** The mutexes of the client, each with its header. Numbers tell objects of a kind apart: torrents, connections, queries, UDP clients, pools. *)
Inductive mtx :=
| MTorrents                   (* Core.h torrentsMtx *)
| MState (t : Z)              (* Torrent.h stateMutex *)
| MCheck (t : Z)              (* Files.h checkStateMutex *)
| MListener                   (* IncomingPeersListener.h peersMutex *)
| MHashes                     (* ProtocolEncryption.h mtx of ProtocolEncryptionListener *)
| MTrackers (t : Z)           (* TrackerManager.h trackersMutex *)
| MComm (k : Z)               (* HttpTrackerComm.h commMutex *)
| MMeta (t : Z)               (* MetadataDownload.h stateMutex *)
| MPeers (t : Z)              (* Peers.h peersMutex *)
| MDown (t : Z)               (* Downloader.h requestsMutex *)
| MUp (t : Z)                 (* Uploader.h requestsMutex *)
| MBuffers (t : Z)            (* DownloadStorage.h freeCheckBuffersMutex *)
| MCache (t : Z)              (* DownloadStorage.h cacheMutex *)
| MPieces (t : Z)             (* DownloadStorage.h mutex of UnfinishedPiecesState *)
| MStorage (t : Z)            (* Storage.h storageMutex *)
| MPexLocal (t : Z)           (* PexExtension.h dataMutex *)
| MPexRemote (s : Z)          (* PexExtension.h peersMutex *)
| MReceive (own : bool) (s : Z)   (* TcpAsyncStream.h receive_mutex; own: opened by this client, else accepted *)
| MCallback (own : bool) (s : Z)  (* callbackMutex of TcpAsyncStream.h and UtpStream.h *)
| MStreams                    (* UtpManager.h streamsMutex *)
| MConnect                    (* UtpManager.h callbackMutex *)
| MUtp (s : Z)                (* UtpStream.h state.mutex *)
| MWriter (c : Z)             (* UdpAsyncWriter.h stateMutex of a client of UdpAsyncComm *)
| MUtpWriter (s : Z)          (* UdpAsyncWriter.h stateMutex of the writer of a uTP stream *)
| MResponding                 (* UdpAsyncComm.h respondingMutex *)
| MResponses                  (* UdpAsyncComm.h responsesMutex *)
| MQueries                    (* Dht/Communication.h peersQueriesMutex *)
| MRequests (q : Z)           (* Dht/Query.h requestsMutex *)
| MNodes (q : Z)              (* Dht/Query.h nodesMutex *)
| MTable                      (* Dht/Table.h tableMutex *)
| MValues                     (* Dht/Responder.h valuesMutex *)
| MToken                      (* Dht/Responder.h tokenMutex *)
| MBandwidth                  (* Bandwidth.h requestMutex *)
| MConfig                     (* Configuration.cpp:55 cbMutex *)
| MTimer (k i : Z)            (* ScheduledTimer.h mtx; the kinds of timers are numbered below *)
| MQueue (own : bool) (s : Z)   (* TcpAsyncStream.h write_msgs_mutex *)
| MThread (k t i : Z).        (* a thread of a pool: held while it runs, waited for by join (ServiceThreadpool.cpp:47-61) *)

(** kinds of timers: TrackerManager.cpp:197, Peers.cpp:45, FileTransfer.cpp:30, MetadataDownload.cpp:27, Communication.cpp:58, Core.cpp:321, UtpManager.cpp:33 *)
Definition tiTracker := 1. Definition tiPeers := 2. Definition tiTransfer := 3. Definition tiMeta := 4. Definition tiDht := 5. Definition tiBandwidth := 6. Definition tiUtp := 7.

(** kinds of pools: Torrent.h service, DownloadStorage.h pool, Dht/Communication.h service, Core.h bwPool, UtpManager.h service *)
Definition poService := 1. Definition poStorage := 2. Definition poDht := 3. Definition poUtp := 4.

(** Two mutexes are the same. No code of its own: identity of objects. *)
Definition mtx_eq_dec (a b : mtx) : {a = b} + {a <> b}.
Proof. decide equality; try apply Z.eq_dec; apply Bool.bool_dec. Defined.

(** A piece of code as far as mutexes matter: nothing, one after the other, a scope with a std::lock_guard. All locks of the
    client are guards of a scope, e.g. UdpAsyncComm.cpp:63-68. *)
Inductive prog := PEnd | PSeq (a b : prog) | PHold (m : mtx) (a : prog).

(** Model only: several in a row; no code of its own *)
Definition seqs (l : list prog) : prog := fold_right PSeq PEnd l.
(** Model only: std::lock_guard over a few of them *)
Definition hold (m : mtx) (l : list prog) : prog := PHold m (seqs l).
(** Model only: a loop *)
Definition rep (n : nat) (p : prog) : prog := seqs (repeat p n).
(** Model only: an if *)
Definition when (b : bool) (p : prog) : prog := if b then p else PEnd.

(** Model only: what a thread does next *)
Inductive op := Acq (m : mtx) | Rel (m : mtx).

(** Model only: the constructor and the destructor of each guard, in order *)
Fixpoint ops (p : prog) : list op :=
  match p with PEnd => [] | PSeq a b => ops a ++ ops b | PHold m a => Acq m :: ops a ++ [Rel m] end.

(** Model only, a thread: the mutexes it holds, the last one first, and what is left to do. *)
Record thr := mkThr { tHeld : list mtx; tRest : list op }.

(** Model only: somebody holds it *)
Definition taken (m : mtx) (s : list thr) : bool := existsb (fun t => if in_dec mtx_eq_dec m (tHeld t) then true else false) s.

(** One step of thread i: a std::mutex is locked only if nobody holds it, not even the same thread; else the thread waits.
    std::mutex is not recursive; locking it twice, undefined in C++, waits forever here as it does in practice. *)
Definition lstep (s : list thr) (i : nat) : option (list thr) :=
  match nth_error s i with
  | None => None
  | Some t =>
    match tRest t with
    | [] => None
    | Acq m :: r => if taken m s then None else Some (firstn i s ++ mkThr (m :: tHeld t) r :: skipn (S i) s)
    | Rel m :: r => Some (firstn i s ++ mkThr (remove mtx_eq_dec m (tHeld t)) r :: skipn (S i) s)
    end
  end.

(** Model only: threads that start with nothing held *)
Definition threads (l : list prog) : list thr := map (fun p => mkThr [] (ops p)) l.

(** Model only: the threads run in some order: which one goes on next is up to the system; one that waits stays where it is *)
Fixpoint lrun (s : list thr) (order : list nat) : list thr :=
  match order with [] => s | i :: o => lrun (match lstep s i with Some s' => s' | None => s end) o end.
