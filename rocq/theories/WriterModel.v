(** Datagrams that go out: utils/UdpAsyncWriter.cpp. The socket and the resolver are the environment; the definitions are the moments the posted
    calls of lines 58-71 and 79 run. The mutex is in LockModel.v; the address and port the socket is bound to are left out. *)
From Verif Require Import Base.

(** UdpAsyncWriter.h:50 [state] *)
Inductive wstate := Clear | Initialized | Connected.

(** Model only: what is done. [OSent to data]: send_to is called; [CResponse]: onResponse is called; [CClosed]: onCloseCallback is called;
    [OThrow]: an empty std::function is called. *)
Inductive effect := OSent (to : Z) (data : list Z) | CResponse (from : Z) (data : list Z) | CClosed | OThrow.

(** UdpAsyncWriter.h:43-83: [host] whether hostname is not empty, [opened] socket.is_open(), [target] is target_endpoint, [respond] and [tell] whether
    onResponse and onCloseCallback are set. [connects] and [receives]: the async_connect and async_receive whose handlers did not run yet. *)
Record writer := { st : wstate; host : bool; resolving : bool; message : list Z; opened : bool; broadcast : bool; target : Z;
  respond : bool; tell : bool; connects : nat; receives : nat; out : list effect }.

(** Model only: a new object with the callbacks its maker sets *)
Definition newWriter (b : bool) : writer :=
  {| st := Clear; host := false; resolving := false; message := []; opened := false; broadcast := b; target := 0; respond := true; tell := true;
     connects := 0; receives := 0; out := [] |}.

(** Model only: setter *)
Definition withSt (x : wstate) (s : writer) : writer := {| st := x; host := host s; resolving := resolving s; message := message s; opened := opened s;
  broadcast := broadcast s; target := target s; respond := respond s; tell := tell s; connects := connects s; receives := receives s; out := out s |}.
(** Model only: setter *)
Definition withHost (h r : bool) (s : writer) : writer := {| st := st s; host := h; resolving := r; message := message s; opened := opened s;
  broadcast := broadcast s; target := target s; respond := respond s; tell := tell s; connects := connects s; receives := receives s; out := out s |}.
(** Model only: setter *)
Definition withMessage (m : list Z) (s : writer) : writer := {| st := st s; host := host s; resolving := resolving s; message := m; opened := opened s;
  broadcast := broadcast s; target := target s; respond := respond s; tell := tell s; connects := connects s; receives := receives s; out := out s |}.
(** Model only: setter *)
Definition withTarget (t : Z) (s : writer) : writer := {| st := st s; host := host s; resolving := resolving s; message := message s; opened := opened s;
  broadcast := broadcast s; target := t; respond := respond s; tell := tell s; connects := connects s; receives := receives s; out := out s |}.
(** Model only: setter *)
Definition withSocket (o : bool) (c r : nat) (s : writer) : writer := {| st := st s; host := host s; resolving := resolving s; message := message s; opened := o;
  broadcast := broadcast s; target := target s; respond := respond s; tell := tell s; connects := c; receives := r; out := out s |}.
(** Model only: setter *)
Definition withCallbacks (r t : bool) (s : writer) : writer := {| st := st s; host := host s; resolving := resolving s; message := message s; opened := opened s;
  broadcast := broadcast s; target := target s; respond := r; tell := t; connects := connects s; receives := receives s; out := out s |}.
(** Model only: one more effect *)
Definition say (e : effect) (s : writer) : writer := {| st := st s; host := host s; resolving := resolving s; message := message s; opened := opened s;
  broadcast := broadcast s; target := target s; respond := respond s; tell := tell s; connects := connects s; receives := receives s; out := out s ++ [e] |}.

(** UdpAsyncWriter.cpp:118-128 [postFail] *)
Definition postFail (s : writer) : writer :=
  let s1 := match st s with Connected => withSt Initialized s | _ => s end in if tell s1 then say CClosed s1 else s1.

(** UdpAsyncWriter.cpp:283-294 [send_message]; [ok] whether send_to succeeds *)
Definition sendNow (ok : bool) (data : list Z) (s : writer) : writer :=
  let s1 := say (OSent (target s) data) s in if ok then s1 else postFail s1.

(** UdpAsyncWriter.cpp:232-238: the message is sent when there is one *)
Definition sendKept (ok : bool) (s : writer) : writer := match message s with [] => s | m => sendNow ok m s end.

(** UdpAsyncWriter.cpp:146-157 [setConnected] *)
Definition setConnected (ok : bool) (s : writer) : writer :=
  let s1 := match respond s, st s with true, Connected => s | true, _ => withSocket (opened s) (connects s) (S (receives s)) s | false, _ => s end in
  sendKept ok (withSt Connected s1).

(** UdpAsyncWriter.cpp:201-239 [send_message] *)
Definition sendMessage (ok : bool) (s : writer) : writer :=
  match st s with
  | Clear => s
  | Connected => sendKept ok s
  | Initialized =>
    let s1 := withSocket true (connects s) (receives s) s in
    if broadcast s then setConnected ok s1 else withSocket true (S (connects s)) (receives s) s1
  end.

(** UdpAsyncWriter.cpp:83-94 [resolveHostname] *)
Definition resolveHostname (s : writer) : writer := if resolving s || negb (host s) then s else withHost (host s) true s.

(** UdpAsyncWriter.cpp:14-30 [setAddress] with an address *)
Definition setAddress (a : Z) (s : writer) : writer := withSt Initialized (withHost true (resolving s) (withTarget a s)).

(** UdpAsyncWriter.cpp:32-41 [setAddress] with a name; [named] when it is not empty *)
Definition setName (named : bool) (s : writer) : writer := resolveHostname (withHost named (resolving s) s).

(** UdpAsyncWriter.cpp:185-199 [do_write] *)
Definition doWrite (ok : bool) (data : list Z) (s : writer) : writer :=
  let s1 := withMessage data s in
  match st s1 with Clear => if host s1 then resolveHostname s1 else s1 | _ => sendMessage ok s1 end.

(** UdpAsyncWriter.cpp:177-183 [do_rewrite] *)
Definition doRewrite (ok : bool) (s : writer) : writer := match st s with Clear => s | _ => sendMessage ok s end.

(** UdpAsyncWriter.cpp:73-81 [write] of a view, 264-281; posted and run at once when it is not connected *)
Definition writeView (ok : bool) (data : list Z) (s : writer) : writer := match st s with Connected => sendNow ok data s | _ => doWrite ok data s end.

(** UdpAsyncWriter.cpp:159-175 [do_close]. Simplification: a receive that waits is over at once, its handler does nothing on an error (310-311). *)
Definition doClose (s : writer) : writer :=
  let s1 := withCallbacks false false s in
  let s2 := match st s1 with Connected => withSt Initialized s1 | _ => s1 end in
  if opened s2 then withSocket false (connects s2) 0 s2 else s2.

(** UdpAsyncWriter.cpp:96-116 [handle_resolve]; the first address found, if any *)
Definition handleResolve (r : option Z) (ok : bool) (s : writer) : writer :=
  let s1 := match r with
            | Some a => let s2 := withSt Initialized (withTarget a s) in match message s2 with [] => s2 | _ => sendMessage ok s2 end
            | None => postFail s
            end in withHost (host s1) false s1.

(** UdpAsyncWriter.cpp:130-144 [handle_connect] *)
Definition handleConnect (success ok : bool) (s : writer) : writer :=
  let s1 := withSocket (opened s) (pred (connects s)) (receives s) s in if success then setConnected ok s1 else postFail s1.

(** What waits at the socket: a datagram with its sender, or receive_from is interrupted once *)
Inductive recv := RGot (from : Z) (data : list Z) | RInterrupted.

(** The loop of UdpAsyncWriter.cpp:324-351, at most [n] rounds. available() is the size of the datagram that is next, as on Linux, and no less than
    the datagram. *)
Fixpoint readLoop (n : nat) (rs : list recv) (s : writer) : list recv * writer :=
  match n, rs with
  | O, _ => (rs, s)
  | _, [] => ([], s)
  | S n', RInterrupted :: rs' => readLoop n' rs' s
  | S n', RGot f [] :: rs' => (rs, s)
  | S n', RGot f d :: rs' =>
    let s1 := withTarget f s in readLoop n' rs' (if respond s1 then say (CResponse f d) s1 else say OThrow s1)
  end.

(** UdpAsyncWriter.cpp:306-319 [handle_receive]; what is left at the socket *)
Definition handleReceive (error : bool) (rs : list recv) (s : writer) : list recv * writer :=
  if error then (rs, withSocket (opened s) (connects s) (pred (receives s)) s)
  else match st s with Connected => readLoop 30 rs s | _ => (rs, withSocket (opened s) (connects s) (pred (receives s)) s) end.

(** Model only: the calls of the owner and the handlers. A handler only runs when it was begun. *)
Inductive event := EAddress (a : Z) | EName (named : bool) | EWrite (data : list Z) (ok : bool) | ERewrite (ok : bool) | EView (data : list Z) (ok : bool) | EClose |
  EResolved (r : option Z) (ok : bool) | EConnected (success ok : bool) | EReceive (error : bool) (rs : list recv).

(** Model only: one of those *)
Definition step (e : event) (s : writer) : writer :=
  match e with
  | EAddress a => setAddress a s
  | EName named => setName named s
  | EWrite d ok => doWrite ok d s
  | ERewrite ok => doRewrite ok s
  | EView d ok => writeView ok d s
  | EClose => doClose s
  | EResolved r ok => if resolving s then handleResolve r ok s else s
  | EConnected success ok => match connects s with O => s | _ => handleConnect success ok s end
  | EReceive error rs => match receives s with O => s | _ => snd (handleReceive error rs s) end
  end.

(** Model only: any history of those *)
Definition run (es : list event) (s : writer) : writer := fold_left (fun s e => step e s) es s.
