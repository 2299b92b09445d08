(** Announces over plain HTTP: Core/HttpTrackerComm over utils/TcpAsyncStream. Only what the tracker uses of the stream is here: its state, what
    it was posted, what it has to write and what it has read (TcpModel.v has the whole stream, HttpModel.v the reading of the response).
    An event is one handler of the io thread or one call of the owner. *)
From Verif Require Import Base HttpModel.

(** utils/TcpAsyncStream.h:63 *)
Inductive sstate := SClear | SConnecting | SConnected | SDisconnected.

(** Api/Interface.h:111, those the class uses *)
Inductive tstate := TInitialized | TOffline | TAlive | TAnnouncing | TAnnounced.

(** What is posted to the io thread: utils/TcpAsyncStream.cpp:64, 69, 74 *)
Inductive task := KWrite (d : list Z) | KClose.

(** HttpTrackerComm.cpp:145-193 as onTcpReceived uses it: 0; -1; a response and its size; [PLost] when there is no value (C45, C69) *)
Inductive parsed := PMore | PBad | PDone (n : nat) (r : announceResp) | PLost.

(** HttpTrackerComm.cpp:145-193 *)
Definition parseResponse (fuel : nat) (m b : list Z) : parsed :=
  match readAnnounceResponse fuel m b with
  | HVal None => PBad
  | HVal (Some (n, r)) => if n =? 0 then PMore else PDone (Z.to_nat n) r
  | _ => PLost
  end.

(** Model only: a request is sent over a stream, the owner is told (onFail, onAnnounceResult), [PLost] *)
Inductive effect := ESent (d : list Z) | EFail | EResult (r : announceResp) | ELost.

(** utils/TcpAsyncStream.h:57-130: [cbs], the three callbacks are set; [posted], tasks not yet run; [queue], write_msgs; [rbuf], readBuffer *)
Record stream := { st : sstate; cbs : bool; posted : list task; queue : list (list Z); rbuf : list Z }.

(** HttpTrackerComm.h:29-53, Api/Interface.h:113-127: all streams ever made; [cur], the one in tcpComm; [last], lastAnnounce is not zero *)
Record comm := { streams : list stream; cur : option nat; ts : tstate; last : bool; log : list effect }.

(** HttpTrackerComm.cpp:34-42 [init] *)
Definition init : comm := {| streams := []; cur := None; ts := TInitialized; last := false; log := [] |}.

(** Model only: setter for the stream *)
Definition put (i : nat) (x : stream) (s : comm) : comm := {| streams := upd i x (streams s); cur := cur s; ts := ts s; last := last s; log := log s |}.
(** Model only: setter for tcpComm *)
Definition withCur (c : option nat) (s : comm) : comm := {| streams := streams s; cur := c; ts := ts s; last := last s; log := log s |}.
(** Model only: setter for the state of the tracker *)
Definition withTs (t : tstate) (l : bool) (s : comm) : comm := {| streams := streams s; cur := cur s; ts := t; last := l; log := log s |}.
(** Model only: one more effect *)
Definition say (e : effect) (s : comm) : comm := {| streams := streams s; cur := cur s; ts := ts s; last := last s; log := log s ++ [e] |}.

(** HttpTrackerComm.cpp:44-52 [initializeStream], utils/TcpAsyncStream.cpp:46-50. Simplified: the host is not empty. *)
Definition newStream : stream := {| st := SClear; cbs := true; posted := []; queue := []; rbuf := [] |}.

(** HttpTrackerComm.cpp:54-71 [fail] *)
Definition fail (s : comm) : comm :=
  let s := withCur None s in
  match ts s with TAnnouncing => say EFail (withTs (if last s then TAlive else TOffline) (last s) s) | _ => s end.

(** HttpTrackerComm.cpp:73-77 *)
Definition onTcpClosed (s : comm) : comm := match ts s with TAnnounced => s | _ => fail s end.

(** HttpTrackerComm.cpp:79-82 *)
Definition onTcpConnected (s : comm) : comm := match ts s with TInitialized | TOffline => withTs TAlive (last s) s | _ => s end.

(** HttpTrackerComm.cpp:84-113; the number is that of the bytes consumed. CurrentTimestamp is not zero. *)
Definition onTcpReceived (parse : list Z -> parsed) (d : list Z) (s : comm) : comm * nat :=
  match ts s with
  | TAnnouncing => match parse d with
                   | PMore => (s, O)
                   | PBad => (fail s, length d)
                   | PDone n r => (say (EResult r) (withTs TAnnounced true s), n)
                   | PLost => (say ELost s, O)
                   end
  | _ => (s, O)
  end.

(** utils/TcpAsyncStream.cpp:67-75 [write]: the task is posted *)
Definition post (k : task) (x : stream) : stream := {| st := st x; cbs := cbs x; posted := posted x ++ [k]; queue := queue x; rbuf := rbuf x |}.

(** HttpTrackerComm.cpp:195-210 [announce] *)
Definition announce (req : list Z) (s : comm) : comm :=
  let s := match cur s with
           | Some _ => s
           | None => {| streams := streams s ++ [newStream]; cur := Some (length (streams s)); ts := ts s; last := last s; log := log s |}
           end in
  let s := withTs TAnnouncing (last s) s in
  match cur s with
  | Some i => match nth_error (streams s) i with Some x => put i (post (KWrite req) x) s | None => s end
  | None => s
  end.

(** utils/TcpAsyncStream.cpp:52-65 [close] with immediate *)
Definition closeNow (x : stream) : stream :=
  let x := {| st := st x; cbs := false; posted := posted x; queue := queue x; rbuf := rbuf x |} in
  match st x with SDisconnected => x | _ => post KClose x end.

(** HttpTrackerComm.cpp:24-32 [deinit] *)
Definition deinit (s : comm) : comm :=
  match cur s with
  | Some i => withCur None (match nth_error (streams s) i with Some x => put i (closeNow x) s | None => s end)
  | None => s
  end.

(** utils/TcpAsyncStream.cpp:194-233 [postFail]: the callback, then there are none *)
Definition postFail (i : nat) (x : stream) (s : comm) : comm :=
  match st x with
  | SDisconnected => s
  | _ => put i {| st := SDisconnected; cbs := false; posted := posted x; queue := queue x; rbuf := rbuf x |} (if cbs x then onTcpClosed s else s)
  end.

(** utils/TcpAsyncStream.cpp:293-322 [do_write]; a write under way is the front of the queue of a connected stream *)
Definition doWrite (d : list Z) (x : stream) : stream :=
  {| st := match st x with SClear => SConnecting | y => y end; cbs := cbs x; posted := posted x; queue := queue x ++ [d]; rbuf := rbuf x |}.

(** Model only: the first posted task is gone *)
Definition unpost (x : stream) : stream := {| st := st x; cbs := cbs x; posted := tl (posted x); queue := queue x; rbuf := rbuf x |}.

(** utils/TcpAsyncStream.cpp:67-75 and 64: the posted task runs *)
Definition runTask (i : nat) (x : stream) (s : comm) : comm :=
  match posted x with
  | [] => s
  | KWrite d :: _ => put i (doWrite d (unpost x)) s
  | KClose :: _ => postFail i (unpost x) (put i (unpost x) s)
  end.

(** utils/TcpAsyncStream.cpp:235-246 [handle_connect], 159-192 without an error *)
Definition opened (i : nat) (x : stream) (s : comm) : comm :=
  match st x with
  | SConnecting => let s := put i {| st := SConnected; cbs := cbs x; posted := posted x; queue := queue x; rbuf := rbuf x |} s in
                   if cbs x then onTcpConnected s else s
  | _ => s
  end.

(** utils/TcpAsyncStream.cpp:324-344 [handle_write] without an error *)
Definition written (i : nat) (x : stream) (s : comm) : comm :=
  match queue x with
  | [] => s
  | d :: q => say (ESent d) (put i {| st := st x; cbs := cbs x; posted := posted x; queue := q; rbuf := rbuf x |} s)
  end.

(** utils/TcpAsyncStream.cpp:377-420 [handle_receive] without an error, 524-536 [consume] *)
Definition received (parse : list Z -> parsed) (i : nat) (d : list Z) (x : stream) (s : comm) : comm :=
  let b := rbuf x ++ d in
  let '(s1, n) := if cbs x then onTcpReceived parse b s else (s, O) in
  put i {| st := st x; cbs := cbs x; posted := posted x; queue := queue x; rbuf := skipn n b |} s1.

(** Model only: what happens; the number is that of the stream. [EEnd]: the stream fails, times out or is closed by the tracker. *)
Inductive event := EAnnounce (req : list Z) | EStop | ERun (i : nat) | EOpen (i : nat) | EWritten (i : nat) | EData (i : nat) (d : list Z) | EEnd (i : nat).

(** Model only: a function of a stream, when there is one *)
Definition on (i : nat) (f : stream -> comm -> comm) (s : comm) : comm := match nth_error (streams s) i with Some x => f x s | None => s end.

(** HttpTrackerComm.cpp and utils/TcpAsyncStream.cpp: the functions above *)
Definition step (parse : list Z -> parsed) (e : event) (s : comm) : comm :=
  match e with
  | EAnnounce req => announce req s
  | EStop => deinit s
  | ERun i => on i (runTask i) s
  | EOpen i => on i (opened i) s
  | EWritten i => on i (written i) s
  | EData i d => on i (received parse i d) s
  | EEnd i => on i (postFail i) s
  end.
