(** Announces over HTTPS: utils/SslAsyncStream and Core/HttpsTrackerComm. The sockets, TLS and the resolver are the environment: an operation
    is begun here and ends in an event. HttpModel.v has the reading of the response. *)
From Verif Require Import Base HttpModel.

(** SslAsyncStream.h:38; Handshake is used nowhere *)
Inductive sstate := SDisconnected | SConnecting | SConnected.

(** Api/Interface.h:111, those the class uses *)
Inductive tstate := TInitialized | TOffline | TAlive | TAnnouncing | TAnnounced.

(** The operations that are begun: SslAsyncStream.cpp:56, 65 and 92, 110, 135, 157 and 176 *)
Inductive op := OResolve | OConnect | OHandshake | OWrite (d : list Z) | ORead.

(** HttpTrackerComm.cpp:145-193 as HttpsTrackerComm.cpp:62-86 uses it: 0; -1; a response; [PLost] when there is no value (C45, C69) *)
Inductive parsed := PMore | PBad | PDone (r : announceResp) | PLost.

(** HttpTrackerComm.cpp:145-193 *)
Definition parseResponse (fuel : nat) (m b : list Z) : parsed :=
  match readAnnounceResponse fuel m b with
  | HVal None => PBad
  | HVal (Some (n, r)) => if n =? 0 then PMore else PDone r
  | _ => PLost
  end.

(** Model only: what reaches the tracker, and what the owner is told: onFail, onAnnounceResult; [ELost] for [PLost] *)
Inductive effect := ESent (d : list Z) | EFail | EResult (r : announceResp) | ELost.

(** SslAsyncStream.h:38-66, HttpsTrackerComm.h:29-30, Api/Interface.h:113-127. [conn]: the TCP socket is connected. [known]: endpointInitialized.
    [cb]: onReceiveCallback is set. [last]: lastAnnounce is not zero. *)
Record https := { st : sstate; conn : bool; known : bool; cb : bool; wbuf : list Z; rbuf : list Z; ops : list op; ts : tstate; last : bool; log : list effect }.

(** HttpsTrackerComm.cpp:31-42 [init], SslAsyncStream.cpp:7-24. Simplified: the host is not empty. *)
Definition init : https := {| st := SDisconnected; conn := false; known := false; cb := false; wbuf := []; rbuf := []; ops := []; ts := TInitialized; last := false; log := [] |}.

(** HttpsTrackerComm.cpp:41, SslAsyncStream.cpp:18-21, 56: host and service that are resolved for a tracker's host and port *)
Definition target (host port : list Z) : list Z * list Z := (host, [104; 116; 116; 112; 115]).

(** Model only: setter for the state of the stream *)
Definition withSt (x : sstate) (s : https) : https :=
  {| st := x; conn := conn s; known := known s; cb := cb s; wbuf := wbuf s; rbuf := rbuf s; ops := ops s; ts := ts s; last := last s; log := log s |}.
(** Model only: setter for the callback and the buffer to write *)
Definition withCb (c : bool) (w : list Z) (s : https) : https :=
  {| st := st s; conn := conn s; known := known s; cb := c; wbuf := w; rbuf := rbuf s; ops := ops s; ts := ts s; last := last s; log := log s |}.
(** Model only: setter for the socket *)
Definition withConn (c k : bool) (s : https) : https :=
  {| st := st s; conn := c; known := k; cb := cb s; wbuf := wbuf s; rbuf := rbuf s; ops := ops s; ts := ts s; last := last s; log := log s |}.
(** Model only: setter for what was read *)
Definition withRead (r : list Z) (s : https) : https :=
  {| st := st s; conn := conn s; known := known s; cb := cb s; wbuf := wbuf s; rbuf := r; ops := ops s; ts := ts s; last := last s; log := log s |}.
(** Model only: setter for the operations *)
Definition withOps (o : list op) (s : https) : https :=
  {| st := st s; conn := conn s; known := known s; cb := cb s; wbuf := wbuf s; rbuf := rbuf s; ops := o; ts := ts s; last := last s; log := log s |}.
(** Model only: setter for the state of the tracker *)
Definition withTs (t : tstate) (l : bool) (s : https) : https :=
  {| st := st s; conn := conn s; known := known s; cb := cb s; wbuf := wbuf s; rbuf := rbuf s; ops := ops s; ts := t; last := l; log := log s |}.
(** Model only: one more effect *)
Definition say (e : effect) (s : https) : https :=
  {| st := st s; conn := conn s; known := known s; cb := cb s; wbuf := wbuf s; rbuf := rbuf s; ops := ops s; ts := ts s; last := last s; log := log s ++ [e] |}.
(** Model only: an operation is begun *)
Definition begin (o : op) (s : https) : https := withOps (ops s ++ [o]) s.

(** HttpsTrackerComm.cpp:44-56 [fail] *)
Definition fail (s : https) : https :=
  match ts s with TAnnouncing => say EFail (withTs (if last s then TAlive else TOffline) (last s) s) | _ => s end.

(** HttpsTrackerComm.cpp:58-88 [onTcpReceived]; CurrentTimestamp is not zero *)
Definition onTcpReceived (parse : list Z -> parsed) (d : list Z) (s : https) : https :=
  match ts s with
  | TAnnouncing => match parse d with
                   | PMore => s
                   | PBad => fail s
                   | PDone r => say (EResult r) (withTs TAnnounced true s)
                   | PLost => say ELost s
                   end
  | _ => s
  end.

(** HttpsTrackerComm.cpp:101-107: the callback of [announce] *)
Definition onResponse (parse : list Z -> parsed) (d : list Z) (s : https) : https :=
  match d with [] => fail s | _ => onTcpReceived parse d s end.

(** SslAsyncStream.cpp:68-84 [postFail]; the socket is not closed *)
Definition postFail (parse : list Z -> parsed) (s : https) : https :=
  match st s with
  | SDisconnected => s
  | _ => let s1 := withSt SDisconnected s in
         let s2 := if cb s1 then onResponse parse [] s1 else s1 in
         withCb false (wbuf s2) s2
  end.

(** SslAsyncStream.cpp:130-148 [do_write], 49-66 *)
Definition doWrite (s : https) : https :=
  match st s with
  | SConnected => begin (OWrite (wbuf s)) s
  | SConnecting => s
  | SDisconnected => begin (if known s then OConnect else OResolve) (withSt SConnecting s)
  end.

(** HttpsTrackerComm.cpp:90-108 [announce], SslAsyncStream.cpp:26-32 [write] *)
Definition announce (req : list Z) (s : https) : https := doWrite (withCb true req (withTs TAnnouncing (last s) s)).

(** HttpsTrackerComm.cpp:24-29 [deinit], SslAsyncStream.cpp:34-47 [stop] *)
Definition stop (s : https) : https := withSt SDisconnected (withConn false (known s) (withCb false [] s)).

(** SslAsyncStream.cpp:86-98 [handle_resolve] *)
Definition handleResolve (parse : list Z -> parsed) (ok : bool) (s : https) : https := if ok then begin OConnect s else postFail parse s.

(** SslAsyncStream.cpp:100-116 [handle_connect] *)
Definition handleConnect (parse : list Z -> parsed) (ok : bool) (s : https) : https :=
  if ok then begin OHandshake (withConn true true (withSt SConnected s)) else postFail parse s.

(** SslAsyncStream.cpp:118-128 [handle_handshake] *)
Definition handleHandshake (parse : list Z -> parsed) (ok : bool) (s : https) : https := if ok then doWrite s else postFail parse s.

(** SslAsyncStream.cpp:150-159 [handle_write]; [n] of the bytes [d] were written. The number is not looked at. *)
Definition handleWrite (parse : list Z -> parsed) (d : list Z) (r : option nat) (s : https) : https :=
  match r with None => postFail parse s | Some n => begin ORead (say (ESent (firstn n d)) s) end.

(** SslAsyncStream.cpp:154: the bytes of one read *)
Definition readSize : nat := 512.

(** SslAsyncStream.cpp:161-183 [handle_receive] *)
Definition handleReceive (parse : list Z -> parsed) (r : option (list Z)) (s : https) : https :=
  match r with
  | None => postFail parse s
  | Some d =>
    let s1 := withRead (rbuf s ++ d) s in
    if (length d =? readSize)%nat then begin ORead s1
    else match rbuf s1 with
         | [] => s1
         | _ => if cb s1 then onResponse parse (rbuf s1) (withRead [] s1) else s1
         end
  end.

(** Model only: what happens; an operation that ends is one of those begun, [None] and [false] are errors *)
Inductive event := EAnnounce (req : list Z) | EStop | EEnd (o : op) (ok : bool) | EWritten (d : list Z) (r : option nat) | ERead (r : option (list Z)).

(** Model only: operations are equal *)
Definition op_eqb (a b : op) : bool :=
  match a, b with OResolve, OResolve | OConnect, OConnect | OHandshake, OHandshake | ORead, ORead => true | OWrite x, OWrite y => list_eqb x y | _, _ => false end.

(** Model only: an operation is no longer pending *)
Fixpoint without (o : op) (l : list op) : list op :=
  match l with [] => [] | x :: l' => if op_eqb o x then l' else x :: without o l' end.

(** Model only: an operation ends *)
Definition ended (o : op) (s : https) : https := withOps (without o (ops s)) s.

(** SslAsyncStream.cpp and HttpsTrackerComm.cpp: the functions above *)
Definition step (parse : list Z -> parsed) (e : event) (s : https) : https :=
  match e with
  | EAnnounce req => announce req s
  | EStop => stop s
  | EEnd OResolve ok => handleResolve parse ok (ended OResolve s)
  | EEnd OConnect ok => handleConnect parse ok (ended OConnect s)
  | EEnd OHandshake ok => handleHandshake parse ok (ended OHandshake s)
  | EEnd _ _ => s
  | EWritten d r => handleWrite parse d r (ended (OWrite d) s)
  | ERead r => handleReceive parse r (ended ORead s)
  end.
