(** Model of mtTorrent/utils/TcpAsyncStream.cpp as a machine of handlers. One step is one handler of the io thread or one call of the
    owner; a step is not interrupted, only the two halves of a finished connect (235-240) can also be taken one by one. Answers of the
    socket, of the resolver and of the bandwidth manager are in the events. The bytes of the read buffer are in PeerMsgModel.v; here
    they are counted. On a closed socket every call fails. Logs, host names for display and the remote address are left out. *)
From Verif Require Import Base.

(** TcpAsyncStream.h:63 *)
Inductive tstate := Clear | Connecting | Connected | Disconnected.

(** What the stream does: it asks the system (resolve, connect, write, receive) or calls its owner. *)
Inductive effect := OResolve (host : list Z) | OConnect (addr : Z) | OWrite (data : list Z) | OReceive (size : Z)
| COpened | CReceived | CClosed (code : Z).

(** TcpAsyncStream.h:57-130. [address] is info.address when it is resolved; [writing] counts the writes under way, [receiving] is the
    size of the receive under way (waiting_for_data), [timer] the time at which the timer fires, [None] when it is gone and [Some None]
    when it is not set, [opened] whether the socket is open. Model only: [granted], all the quota ever given, and [log]. *)
Record tcp := { tst : tstate; address : option Z; host : list Z; opened : bool; queue : list (list Z); writing : Z;
  onConnect : bool; onReceive : bool; onClose : bool; quota : Z; waitBw : bool; receiving : option Z; timer : option (option Z); speed : Z;
  expecting : Z; channels : bool; counter : Z; granted : Z; log : list effect }.

(** Model only: changes of a record. *)
Definition withState (x : tstate) (o : bool) (s : tcp) : tcp :=
  {| tst := x; address := address s; host := host s; opened := o; queue := queue s; writing := writing s; onConnect := onConnect s; onReceive := onReceive s;
     onClose := onClose s; quota := quota s; waitBw := waitBw s; receiving := receiving s; timer := timer s; speed := speed s; expecting := expecting s;
     channels := channels s; counter := counter s; granted := granted s; log := log s |}.
(** Model only. *)
Definition withTimer (x : option (option Z)) (s : tcp) : tcp :=
  {| tst := tst s; address := address s; host := host s; opened := opened s; queue := queue s; writing := writing s; onConnect := onConnect s; onReceive := onReceive s;
     onClose := onClose s; quota := quota s; waitBw := waitBw s; receiving := receiving s; timer := x; speed := speed s; expecting := expecting s;
     channels := channels s; counter := counter s; granted := granted s; log := log s |}.
(** Model only. *)
Definition withInfo (a : option Z) (h : list Z) (s : tcp) : tcp :=
  {| tst := tst s; address := a; host := h; opened := opened s; queue := queue s; writing := writing s; onConnect := onConnect s; onReceive := onReceive s;
     onClose := onClose s; quota := quota s; waitBw := waitBw s; receiving := receiving s; timer := timer s; speed := speed s; expecting := expecting s;
     channels := channels s; counter := counter s; granted := granted s; log := log s |}.
(** Model only. *)
Definition withWrites (q : list (list Z)) (w : Z) (s : tcp) : tcp :=
  {| tst := tst s; address := address s; host := host s; opened := opened s; queue := q; writing := w; onConnect := onConnect s; onReceive := onReceive s;
     onClose := onClose s; quota := quota s; waitBw := waitBw s; receiving := receiving s; timer := timer s; speed := speed s; expecting := expecting s;
     channels := channels s; counter := counter s; granted := granted s; log := log s |}.
(** Model only. *)
Definition noCallbacks (s : tcp) : tcp :=
  {| tst := tst s; address := address s; host := host s; opened := opened s; queue := queue s; writing := writing s; onConnect := false; onReceive := false;
     onClose := false; quota := quota s; waitBw := waitBw s; receiving := receiving s; timer := timer s; speed := speed s; expecting := expecting s;
     channels := channels s; counter := counter s; granted := granted s; log := log s |}.
(** Model only. *)
Definition withReceive (q : Z) (b : bool) (r : option Z) (g : Z) (s : tcp) : tcp :=
  {| tst := tst s; address := address s; host := host s; opened := opened s; queue := queue s; writing := writing s; onConnect := onConnect s; onReceive := onReceive s;
     onClose := onClose s; quota := q; waitBw := b; receiving := r; timer := timer s; speed := speed s; expecting := expecting s;
     channels := channels s; counter := counter s; granted := g; log := log s |}.
(** Model only. *)
Definition withCount (v q c : Z) (s : tcp) : tcp :=
  {| tst := tst s; address := address s; host := host s; opened := opened s; queue := queue s; writing := writing s; onConnect := onConnect s; onReceive := onReceive s;
     onClose := onClose s; quota := q; waitBw := waitBw s; receiving := receiving s; timer := timer s; speed := v; expecting := expecting s;
     channels := channels s; counter := c; granted := granted s; log := log s |}.
(** Model only. *)
Definition say (e : effect) (s : tcp) : tcp :=
  {| tst := tst s; address := address s; host := host s; opened := opened s; queue := queue s; writing := writing s; onConnect := onConnect s; onReceive := onReceive s;
     onClose := onClose s; quota := quota s; waitBw := waitBw s; receiving := receiving s; timer := timer s; speed := speed s; expecting := expecting s;
     channels := channels s; counter := counter s; granted := granted s; log := log s ++ [e] |}.

(** TcpAsyncStream.cpp:194-233; code 0 is no error *)
Definition postFail (code : Z) (s : tcp) : tcp :=
  match tst s with
  | Disconnected => s
  | _ => let s := withTimer None (withState Disconnected false s) in noCallbacks (if onClose s then say (CClosed code) s else s)
  end.

(** TcpAsyncStream.cpp:119-127 *)
Definition connectByHostname (s : tcp) : tcp := say (OResolve (host s)) (withState Connecting (opened s) s).

(** TcpAsyncStream.cpp:129-136; async_connect opens the socket *)
Definition connectByAddress (a : Z) (s : tcp) : tcp := say (OConnect a) (withState Connecting true s).

(** TcpAsyncStream.cpp:18-31; the call of startReceive in line 21 does nothing in this state *)
Definition connectPeer (a now : Z) (s : tcp) : tcp :=
  match tst s with
  | Clear => connectByAddress a (withTimer (Some (Some (now + 10))) (withInfo (Some a) [] s))
  | _ => s
  end.

(** TcpAsyncStream.cpp:46-50 *)
Definition init (h : list Z) (s : tcp) : tcp := withInfo (address s) h s.

(** Model only: the front of the queue is given to the socket, as in TcpAsyncStream.cpp:178-180, 307-309, 335-337 *)
Definition startWrite (d : list Z) (s : tcp) : tcp := say (OWrite d) (withWrites (queue s) (writing s + 1) s).

(** TcpAsyncStream.cpp:293-322 *)
Definition do_write (d : list Z) (s : tcp) : tcp :=
  let s := withWrites (queue s ++ [d]) (writing s) s in
  match tst s with
  | Connected => match queue s with [front] => startWrite front s | _ => s end
  | Clear => match address s with
             | Some a => connectByAddress a s
             | None => match host s with [] => s | _ => connectByHostname s end
             end
  | _ => s
  end.

(** TcpAsyncStream.cpp:324-344 *)
Definition handle_write (code : Z) (s : tcp) : res tcp :=
  let s := withWrites (queue s) (writing s - 1) s in
  if code =? 0
  then match queue s with
       | [] => UB
       | _ :: q => let s := withWrites q (writing s) s in Ok (match q with front :: _ => startWrite front s | [] => s end)
       end
  else Ok (postFail code s).

(** TcpAsyncStream.cpp:440-449 *)
Definition wantedTransfer (s : tcp) : Z := Z.min (Z.max (expecting s) (speed s)) 1048576.

(** TcpAsyncStream.cpp:451-472; [g] is whether the bandwidth manager gives what it is asked for at
    once (Bandwidth.cpp:145-169); otherwise it answers 0 *)
Definition requestBandwidth (bytes : Z) (g : bool) (s : tcp) : tcp :=
  if waitBw s then s
  else if quota s >=? bytes then s
  else let bytes := bytes - quota s in
    let ret := if channels s && negb g then 0 else bytes in
    if ret =? 0 then withReceive (quota s) true (receiving s) (granted s) s
    else withReceive (u32 (quota s + ret)) (waitBw s) (receiving s) (granted s + ret) s.

(** TcpAsyncStream.cpp:474-496; a timer which is gone is a null pointer *)
Definition startReceive (now : Z) (g : bool) (s : tcp) : res tcp :=
  match tst s with
  | Connected =>
    let s := requestBandwidth (wantedTransfer s) g s in
    match receiving s with
    | Some _ => Ok s
    | None =>
      if waitBw s then Ok s
      else match timer s with
           | None => UB
           | Some _ => Ok (say (OReceive (quota s)) (withTimer (Some (Some (now + 60))) (withReceive (quota s) (waitBw s) (Some (quota s)) (granted s) s)))
           end
    end
  | _ => Ok s
  end.

(** TcpAsyncStream.cpp:138-157; [code] is the error of remote_endpoint *)
Definition initializeInfo (code : Z) (s : tcp) : tcp :=
  if opened s && (code =? 0) then withState Connected true s else postFail (if code =? 0 then 1 else code) s.

(** TcpAsyncStream.cpp:159-192; [code] is the error of non_blocking *)
Definition setAsConnected (code now : Z) (g : bool) (s : tcp) : res tcp :=
  if opened s && (code =? 0)
  then
    let s := match queue s with front :: _ => startWrite front s | [] => s end in
    bind (startReceive now g s) (fun s => Ok (if onConnect s then say COpened s else s))
  else Ok (postFail (if code =? 0 then 1 else code) s).

(** TcpAsyncStream.cpp:235-246 *)
Definition handle_connect (code codeInfo codeBlock now : Z) (g : bool) (s : tcp) : res tcp :=
  if code =? 0 then setAsConnected codeBlock now g (initializeInfo codeInfo s) else Ok (postFail code s).

(** TcpAsyncServer.cpp:28-45, an accepted socket; the listener's callback writes nothing *)
Definition handle_accept (codeInfo codeBlock now : Z) (g : bool) (s : tcp) : res tcp :=
  setAsConnected codeBlock now g (initializeInfo codeInfo (withState (tst s) true s)).

(** TcpAsyncStream.cpp:248-260; async_connect opens the socket *)
Definition handle_resolve (code : Z) (results : list Z) (s : tcp) : tcp :=
  match results with
  | a :: _ => if code =? 0 then say (OConnect a) (withState (tst s) true s) else postFail code s
  | [] => postFail code s
  end.

(** TcpAsyncStream.cpp:262-286; past the last result is UB *)
Definition handle_resolver_connect (code : Z) (results : list Z) (n : Z) (codeInfo codeBlock now : Z) (g : bool) (s : tcp) : res tcp :=
  if negb (code =? 0) && (zlen results <? n)
  then match nth_error results (Z.to_nat n) with Some a => Ok (say (OConnect a) (withState (tst s) true s)) | None => UB end
  else handle_connect code codeInfo codeBlock now g s.

(** TcpAsyncStream.cpp:422-430; lastReceiveTime is never set, so it is 0; division by zero is UB *)
Definition appendData (size now : Z) (s : tcp) : res tcp :=
  let currentTimeDiff := u32 (u32 now - 0) in
  let d := u32 (currentTimeDiff * 1000) in
  if d =? 0 then UB
  else Ok (withCount (u32 size / d) (Z.min (u32 (quota s - u32 size)) 0) (counter s + size) s).

(** What the socket answers in TcpAsyncStream.cpp:346-375: the error and number of bytes of [available], the error and number of bytes of
    [read_some]; 2 stands for would_block and try_again. [read_some] reads at most what it
    is asked for. *)
Record avail := { aCode : Z; aSize : Z; rCode : Z; rSize : Z }.

(** TcpAsyncStream.cpp:346-375; the result is the error *)
Definition readAvailableData (a : avail) (now : Z) (g : bool) (s : tcp) : res (Z * tcp) :=
  if negb (aCode a =? 0) then Ok (aCode a, s)
  else
    let s := requestBandwidth (aSize a) g s in
    let size := if aSize a >? quota s then quota s else aSize a in
    if size >? 0
    then if negb (rCode a =? 0) || (rSize a =? 0)
         then Ok (if rCode a =? 2 then 0 else rCode a, s)
         else bind (appendData (Z.min (rSize a) size) now s) (fun s => Ok (0, s))
    else Ok (0, s).

(** TcpAsyncStream.cpp:377-420; the owner takes what it wants of the bytes, see PeerMsgModel.v *)
Definition handle_receive (code n requested : Z) (a : avail) (now : Z) (g1 g2 : bool) (s : tcp) : res tcp :=
  let s := withReceive (quota s) (waitBw s) None (granted s) s in
  match tst s with
  | Disconnected => Ok s
  | _ =>
    if code =? 0
    then
      bind (appendData n now s) (fun s =>
      bind (if n =? requested then readAvailableData a now g1 s else Ok (0, s)) (fun '(ec, s) =>
      if ec =? 0
      then startReceive now g2 (if onReceive s then say CReceived s else s)
      else Ok (postFail ec s)))
    else Ok (postFail code s)
  end.

(** TcpAsyncStream.cpp:503-513 *)
Definition assignBandwidth (amount now : Z) (g : bool) (s : tcp) : res tcp :=
  startReceive now g (withReceive (u32 (quota s + amount)) false (receiving s) (granted s + amount) s).

(** TcpAsyncStream.cpp:432-438, the timer fired *)
Definition checkTimeout (s : tcp) : tcp := postFail 0 s.

(** TcpAsyncStream.cpp:52-65: the call; what it posts is [postFail 0] (288-291) *)
Definition close (immediate : bool) (s : tcp) : tcp := if immediate then noCallbacks s else s.

(** The events: calls of the owner and handlers of the io thread. The last two are the halves of [EConnect] without error. *)
Inductive event :=
| EPeer (a now : Z)
| EInit (h : list Z)
| EWrite (d : list Z)
| EClose (immediate : bool)
| EDoClose
| EResolve (code : Z) (results : list Z)
| EResolverConnect (code : Z) (results : list Z) (n codeInfo codeBlock now : Z) (g : bool)
| EConnect (code codeInfo codeBlock now : Z) (g : bool)
| EAccept (codeInfo codeBlock now : Z) (g : bool)
| EWritten (code : Z)
| EReceive (code n : Z) (a : avail) (now : Z) (g1 g2 : bool)
| EAssign (amount now : Z) (g : bool)
| ETimeout (now : Z)
| EInfo (codeInfo : Z)
| EOpened (codeBlock now : Z) (g : bool).

(** One step: TcpAsyncStream.cpp:18-513, the handlers above *)
Definition step (e : event) (s : tcp) : res tcp :=
  match e with
  | EPeer a now => Ok (connectPeer a now s)
  | EInit h => Ok (init h s)
  | EWrite d => Ok (do_write d s)
  | EClose i => Ok (close i s)
  | EDoClose => Ok (postFail 0 s)
  | EResolve code r => Ok (handle_resolve code r s)
  | EResolverConnect code r n ci cb now g => handle_resolver_connect code r n ci cb now g s
  | EConnect code ci cb now g => handle_connect code ci cb now g s
  | EAccept ci cb now g => handle_accept ci cb now g s
  | EWritten code => handle_write code s
  | EReceive code n a now g1 g2 => match receiving s with Some r => handle_receive code n r a now g1 g2 s | None => Ok s end
  | EAssign amount now g => assignBandwidth amount now g s
  | ETimeout now => Ok (checkTimeout s)
  | EInfo ci => Ok (initializeInfo ci s)
  | EOpened cb now g => setAsConnected cb now g s
  end.

(** Model only: the steps one after the other. *)
Fixpoint run (es : list event) (s : tcp) : res tcp :=
  match es with [] => Ok s | e :: es' => bind (step e s) (run es') end.

(** TcpAsyncStream.cpp:6-12 and the initial values in the header; [cs] whether bandwidth channels are set, the flags which callbacks; the
    timer exists *)
Definition fresh (cs oc orc ocl : bool) : tcp :=
  {| tst := Clear; address := None; host := []; opened := false; queue := []; writing := 0; onConnect := oc; onReceive := orc; onClose := ocl; quota := 0;
     waitBw := false; receiving := None; timer := Some None; speed := 0; expecting := 100; channels := cs; counter := 0; granted := 0; log := [] |}.
