(** The timeouts of a uTP stream: Core/Utp/UtpStream.cpp, refresh, close, connect, connectRemote and packetTimeout, with what the rest of the stream
    (UtpModel.v) does to the same members. Times are in milliseconds. What is sent and not acknowledged is only its size, which writes and packets set. *)
From Verif Require Import Base.

(** UtpStream.h:70; CLEAN is left out, as init comes first *)
Inductive stepType := SYN_SEND | SYN_RECV | CONNECTED | CLOSING | CLOSED.

(** Model only: what is sent, by sendSyn, sendState and resendPackets, and the owner's callbacks *)
Inductive effect := OSyn | OState | OResend | CConnected | CClosed.

(** UtpStream.h:71-104 and 131; [posted]: how many closes are posted and were not run yet; [tell]: onCloseCallback is set *)
Record timer := { step : stepType; lastReceive : Z; nextTimeout : Z; timeoutCount : Z; unacked : Z; posted : nat; tell : bool; out : list effect }.

(** Helper of [packetTimeout]: state.step < StateType::CONNECTED *)
Definition handshaking (sp : stepType) : bool := match sp with SYN_SEND | SYN_RECV => true | _ => false end.

(** UtpStream.cpp:12 *)
Definition MaxStreamTimeout : Z := 30000.

(** UtpStream.cpp:608-624; [UB] where the shift or the product of ints overflows *)
Definition packetTimeout (sp : stepType) (count : Z) : res Z :=
  if handshaking sp then Ok 3000
  else if 0 <? count
  then (if (32 <=? count - 1) || (2147483647 <? Z.shiftl 1 (count - 1) * 1000) then UB
        else let t := 500 + Z.shiftl 1 (count - 1) * 1000 in Ok (if MaxStreamTimeout <? t then MaxStreamTimeout else t))
  else Ok 500.

(** Model only: setter *)
Definition withTimes (last next count : Z) (s : timer) : timer :=
  {| step := step s; lastReceive := last; nextTimeout := next; timeoutCount := count; unacked := unacked s; posted := posted s; tell := tell s; out := out s |}.
(** Model only: setter *)
Definition withStep (sp : stepType) (u : Z) (s : timer) : timer :=
  {| step := sp; lastReceive := lastReceive s; nextTimeout := nextTimeout s; timeoutCount := timeoutCount s; unacked := u; posted := posted s; tell := tell s; out := out s |}.
(** Model only: setter *)
Definition withPosted (n : nat) (t : bool) (s : timer) : timer :=
  {| step := step s; lastReceive := lastReceive s; nextTimeout := nextTimeout s; timeoutCount := timeoutCount s; unacked := unacked s; posted := n; tell := t; out := out s |}.
(** Model only: something happens *)
Definition say (e : effect) (s : timer) : timer :=
  {| step := step s; lastReceive := lastReceive s; nextTimeout := nextTimeout s; timeoutCount := timeoutCount s; unacked := unacked s; posted := posted s; tell := tell s; out := out s ++ [e] |}.

(** UtpStream.cpp:281-301 [close]: it is only posted *)
Definition close (s : timer) : timer := match step s with CLOSED => s | _ => withPosted (S (posted s)) (tell s) s end.
(** UtpStream.cpp:289-300: what is posted *)
Definition runClose (s : timer) : timer :=
  let s1 := withStep CLOSED (unacked s) s in withPosted (pred (posted s)) false (if tell s then say CClosed s1 else s1).

(** UtpStream.cpp:79-99 [init] and [connect] *)
Definition connect (now : Z) : timer :=
  {| step := SYN_SEND; lastReceive := now; nextTimeout := now + 3000; timeoutCount := 0; unacked := 0; posted := 0; tell := true; out := [OSyn] |}.
(** UtpStream.cpp:79-92 and 101-112 [init] and [connectRemote] *)
Definition connectRemote (now : Z) : timer :=
  {| step := SYN_RECV; lastReceive := now; nextTimeout := now + 3000; timeoutCount := 0; unacked := 0; posted := 0; tell := true; out := [OState] |}.

(** UtpStream.cpp:208-248 [refresh] *)
Definition refresh (now : Z) (s : timer) : res timer :=
  match step s with
  | CLOSED => Ok s
  | _ =>
    if nextTimeout s <? now then
      let s1 := if (lastReceive s + MaxStreamTimeout <? now) || match step s with CLOSING => true | _ => false end then close s
                else if 0 <? unacked s then say OResend s
                else match step s with
                     | SYN_SEND => if 0 <? timeoutCount s then close s else say OSyn s
                     | SYN_RECV => if 0 <? timeoutCount s then close s else say OState s
                     | _ => s
                     end in
      bind (packetTimeout (step s1) (timeoutCount s1 + 1)) (fun t => Ok (withTimes (lastReceive s1) (now + t) (timeoutCount s1 + 1) s1))
    else Ok s
  end.

(** UtpStream.cpp:475-524 of [updateState], for a packet which is not old; [u] what is then not acknowledged *)
Definition packet (now u : Z) (s : timer) : res timer :=
  let s1 := if handshaking (step s) then withStep CONNECTED u s else withStep (step s) u s in
  bind (packetTimeout (step s1) (timeoutCount s1)) (fun t =>
  let s2 := withTimes now (now + t) (timeoutCount s1) s1 in Ok (if handshaking (step s) then say CConnected s2 else s2)).

(** UtpStream.cpp:556-570 [handleFinMessage]; [eof]: all data before it is there (810-817) *)
Definition fin (eof : bool) (s : timer) : timer :=
  let s1 := match step s with CLOSED => s | _ => withStep CLOSING 0 s end in if eof then close s1 else s1.
(** UtpStream.cpp:572-580 [handleResetMessage] *)
Definition reset (s : timer) : timer := close (withStep (step s) 0 s).
(** UtpStream.cpp:114-148 [write]: what is then not acknowledged *)
Definition write (u : Z) (s : timer) : timer := match step s with CLOSED => s | _ => withStep (step s) u s end.

(** Model only: what may happen, with the time where it is asked for; [EOwner]: the owner closes *)
Inductive event := ERefresh (now : Z) | EPacket (now u : Z) | EFin (eof : bool) | EReset | EWrite (u : Z) | EOwner | EPosted.

(** Model only: one of those *)
Definition step1 (e : event) (s : timer) : res timer :=
  match e with
  | ERefresh now => refresh now s
  | EPacket now u => packet now u s
  | EFin eof => Ok (fin eof s)
  | EReset => Ok (reset s)
  | EWrite u => Ok (write u s)
  | EOwner => Ok (close s)
  | EPosted => match posted s with O => Ok s | _ => Ok (runClose s) end
  end.

(** Model only: any history of those *)
Fixpoint run (es : list event) (s : timer) : res timer := match es with [] => Ok s | e :: es' => bind (step1 e s) (run es') end.
