(** utils/UdpAsyncComm.cpp: requests sent over UDP which wait for an answer. What other threads may do in between is an
    event of its own; the two mutexes decide which events are possible when. *)
From Verif Require Import Base Assoc.

(** What is called and sent: a request is sent first (95-119), sent again (342), its callback is called with an answer and
    says whether that was it (188, 245), called without one (291), or the request is given up (113-128, 61-71).
    UdpAsyncComm.cpp:61-71, 95-128, 188, 245, 291, 342 *)
Inductive ucall := USent (i : Z) | UAgain (i : Z) | UAnswer (i : Z) (ok : bool) | UNone (i : Z) | UGiven (i : Z).

(** UdpAsyncComm.h:40-56. A [ResponseRetryInfo] is named by a number; [uPend] has it with its client. [uRetries] is
    [retries], [uArmed] the timers running, [uLooked] the checks of a timer between the two locks, [uBusy] what
    [foundPendingResponses] holds while answers are handled under [respondingMutex]. [uLog]: what was called and sent. *)
Record ucomm := { uNext : Z; uPend : list (Z * Z); uRetries : list (Z * Z); uArmed : list (Z * Z); uLooked : list (option (Z * Z));
                  uBusy : option (list (Z * Z)); uLog : list ucall }.

(** UdpAsyncComm.h:50-56: nothing sent yet *)
Definition startComm : ucomm := {| uNext := 0; uPend := []; uRetries := []; uArmed := []; uLooked := []; uBusy := None; uLog := [] |}.

(** Model only: setters, UdpAsyncComm.h:40-56 *)
Definition withPend (l : list (Z * Z)) (s : ucomm) : ucomm :=
  {| uNext := uNext s; uPend := l; uRetries := uRetries s; uArmed := uArmed s; uLooked := uLooked s; uBusy := uBusy s; uLog := uLog s |}.
(** Model only: UdpAsyncComm.h:40-56 *)
Definition withLooked (l : list (option (Z * Z))) (s : ucomm) : ucomm :=
  {| uNext := uNext s; uPend := uPend s; uRetries := uRetries s; uArmed := uArmed s; uLooked := l; uBusy := uBusy s; uLog := uLog s |}.
(** Model only: UdpAsyncComm.h:40-56 *)
Definition withBusy (b : option (list (Z * Z))) (s : ucomm) : ucomm :=
  {| uNext := uNext s; uPend := uPend s; uRetries := uRetries s; uArmed := uArmed s; uLooked := uLooked s; uBusy := b; uLog := uLog s |}.
(** Model only: UdpAsyncComm.h:40-56 *)
Definition withLog (c : ucall) (s : ucomm) : ucomm :=
  {| uNext := uNext s; uPend := uPend s; uRetries := uRetries s; uArmed := uArmed s; uLooked := uLooked s; uBusy := uBusy s; uLog := uLog s ++ [c] |}.

(** UdpAsyncComm.h:44 *)
Definition retriesOf (s : ucomm) (i : Z) : Z := match aget i (uRetries s) with Some n => n | None => 0 end.

(** UdpAsyncComm.cpp:130-146, and 82-119: a request over the client [c], with its timer *)
Definition usend (c : Z) (s : ucomm) : ucomm :=
  {| uNext := uNext s + 1; uPend := uPend s ++ [(uNext s, c)]; uRetries := uRetries s; uArmed := uArmed s ++ [(uNext s, c)];
     uLooked := uLooked s; uBusy := uBusy s; uLog := uLog s ++ [USent (uNext s)] |}.

(** Helper: the timer of [i] no longer runs, UdpAsyncComm.cpp:361-366 *)
Definition disarm (i : Z) (l : list (Z * Z)) : list (Z * Z) := filter (fun t => negb (fst t =? i)) l.

(** UdpAsyncComm.cpp:361-366 [reset] *)
Definition ureset (i : Z) (s : ucomm) : ucomm :=
  {| uNext := uNext s; uPend := uPend s; uRetries := aset i 255 (uRetries s); uArmed := disarm i (uArmed s);
     uLooked := uLooked s; uBusy := uBusy s; uLog := uLog s |}.

(** The destructor of the last reference ends the timer, UdpAsyncComm.cpp:355-359; one more reference in a check that is
    under way is left out. *)
Definition ugive (i : Z) (s : ucomm) : ucomm :=
  {| uNext := uNext s; uPend := uPend s; uRetries := uRetries s; uArmed := disarm i (uArmed s);
     uLooked := uLooked s; uBusy := uBusy s; uLog := uLog s ++ [UGiven i] |}.

(** UdpAsyncComm.cpp:204-219, 243-262: the callback of [i] gives [cb i], whether that was its answer and the clients it sends
    new requests over. The result says whether anyone took the answer. *)
Fixpoint answers (cb : Z -> bool * list Z) (found : list (Z * Z)) (handled : bool) (s : ucomm) : ucomm * bool :=
  match found with
  | [] => (s, handled)
  | (i, c) :: l =>
    if handled then answers cb l true (withPend (uPend s ++ [(i, c)]) s)
    else
      let s1 := fold_left (fun s c => usend c s) (snd (cb i)) (withLog (UAnswer i (fst (cb i))) s) in
      if fst (cb i) then answers cb l true (ureset i s1)
      else answers cb l false (withPend (uPend s1 ++ [(i, c)]) s1)
  end.

(** UdpAsyncComm.cpp:288-292 *)
Fixpoint noAnswers (cb : Z -> bool * list Z) (found : list (Z * Z)) (s : ucomm) : ucomm :=
  match found with
  | [] => s
  | (i, c) :: l => noAnswers cb l (fold_left (fun s c => usend c s) (snd (cb i)) (withLog (UNone i) (ureset i s)))
  end.

(** UdpAsyncComm.cpp:269-295 [onUdpClose] *)
Definition uclose (cb : Z -> bool * list Z) (c : Z) (s : ucomm) : ucomm :=
  noAnswers cb (filter (fun p => snd p =? c) (uPend s)) (withPend (filter (fun p => negb (snd p =? c)) (uPend s)) s).

(** UdpAsyncComm.cpp:325-332: the first one waiting for this client *)
Definition firstOf (c : Z) (l : list (Z * Z)) : option (Z * Z) := find (fun p => snd p =? c) l.

(** UdpAsyncComm.cpp:119-125: the first request of the client *)
Fixpoint removeFirst (c : Z) (l : list (Z * Z)) : option Z * list (Z * Z) :=
  match l with
  | [] => (None, [])
  | (i, d) :: r => if d =? c then (Some i, r) else let (o, r') := removeFirst c r in (o, (i, d) :: r')
  end.

(** What happens: a request is sent; an answer comes from an address which the clients [hits] have (173-192, 222-241), or
    over the client itself; its callbacks are called; a client fails (269-295); the timer of [i] expires and looks for the
    request (313-333); the [k]-th check goes on (335-352); a client is given up (113-128); all are (61-71).
    UdpAsyncComm.cpp:61-71, 95-128, 173-295, 313-353 *)
Inductive uev := ESend (c : Z) | ETake (hits : Z -> bool) | EDone (cb : Z -> bool * list Z) | EClose (c : Z) (cb : Z -> bool * list Z)
  | EFire (i : Z) | ELook (k : nat) (cb : Z -> bool * list Z) | ERemove (c : Z) | EClear.

(** Helper: the list without its [k]-th, for the checks of UdpAsyncComm.cpp:313-353 *)
Definition without {A} (k : nat) (l : list A) : list A := firstn k l ++ skipn (S k) l.

(** UdpAsyncComm.cpp:335-352 for the request [p] found; if it was given up meanwhile, its timer ends with the function *)
Definition checkFound (cb : Z -> bool * list Z) (p : Z * Z) (s : ucomm) : ucomm :=
  let n := retriesOf s (fst p) in
  if n =? 255 then s
  else if 0 <? n then uclose cb (snd p) s
  else {| uNext := uNext s; uPend := uPend s; uRetries := aset (fst p) (n + 1) (uRetries s); uArmed := disarm (fst p) (uArmed s) ++ (if existsb (fun q => fst q =? fst p) (uPend s) then [p] else []);
          uLooked := uLooked s; uBusy := uBusy s; uLog := uLog s ++ [UAgain (fst p)] |}.

(** One event. While answers are handled ([uBusy]), what needs [respondingMutex] waits: it changes nothing here.
    UdpAsyncComm.cpp:61-71, 95-128, 173-295, 313-353 *)
Definition ustep (s : ucomm) (e : uev) : ucomm :=
  match e, uBusy s with
  | ESend c, _ => usend c s
  | EFire i, _ =>
    match find (fun t => fst t =? i) (uArmed s) with
    | None => s
    | Some t => let s1 := {| uNext := uNext s; uPend := uPend s; uRetries := uRetries s; uArmed := disarm i (uArmed s);
                             uLooked := uLooked s ++ [firstOf (snd t) (uPend s)]; uBusy := uBusy s; uLog := uLog s |} in s1
    end
  | EDone cb, Some found => fst (answers cb found false (withBusy None s))
  | ETake hits, None => withBusy (Some (filter (fun p => hits (snd p)) (uPend s))) (withPend (filter (fun p => negb (hits (snd p))) (uPend s)) s)
  | EClose c cb, None => uclose cb c s
  | ELook k cb, None =>
    match nth_error (uLooked s) k with
    | None => s
    | Some None => withLooked (without k (uLooked s)) s
    | Some (Some p) => checkFound cb p (withLooked (without k (uLooked s)) s)
    end
  | ERemove c, None => let (o, l) := removeFirst c (uPend s) in match o with None => s | Some i => ugive i (withPend l s) end
  | EClear, None => fold_left (fun s p => ugive (fst p) s) (uPend s) (withPend [] s)
  | _, _ => s
  end.

(** Model only: a run from the start, UdpAsyncComm.cpp:61-353 *)
Definition urun (l : list uev) : ucomm := fold_left ustep l startComm.
