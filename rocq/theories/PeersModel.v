(** Model of mtTorrent/Core/Peers.cpp: the known peers and the live connections. Addresses and
    their comparison are parameters (Addr::operator== is not symmetric, see AddrModel).
    Numbers of peers stay below 2^32; threads and their mutex are left out: every event runs to
    its end; trackers, DHT, extensions and the listener are left out. *)
From Verif Require Import Base.

(** Helper of [known], Peers.h:44-59. *)
Inductive pstate := PDisconnected | PConnecting | PConnected.
(** Helper of [known], Peers.h:44-59. *)
Inductive psource := SrcTracker | SrcPex | SrcDht | SrcManual | SrcRemote.

Section Peers.
Variable A : Type.
(** [addrEq x y]: x.operator==(y). *)
Variable addrEq : A -> A -> bool.
(** Addr() *)
Variable noAddr : A.
(** enableTcpOut, enableUtpOut, preferUtp *)
Variables tcpOut utpOut preferUtp : bool.

(** Peers.h:44-59 *)
Record known := { kaddr : A; ksource : psource; kflags : Z; kunwanted : bool; kst : pstate; ktime : Z; ktries : Z }.

(** Peers.h:71-75; the communication object is a number given out in order, [aaddr] what
    getStream()->getAddress() returns for it. *)
Record active := { acomm : Z; aidx : nat; aaddr : A }.

(** [pmax]: maxTorrentConnections; [prunning]: refreshTimer is set. For [openTo], Peers.cpp:468-479. *)
Record peers := { pknown : list known; pactive : list active; pcur : nat; pconnecting : bool; prunning : bool; pmax : Z; pnext : Z }.

(** Peers.h, the initial values of the members. *)
Definition newPeers (m : Z) : peers :=
  {| pknown := []; pactive := []; pcur := 0; pconnecting := false; prunning := false; pmax := m; pnext := 0 |}.

(** Helper of [connectLoop], Peers.cpp:129-150. *)
Definition setK (s : peers) (k : list known) : peers :=
  {| pknown := k; pactive := pactive s; pcur := pcur s; pconnecting := pconnecting s; prunning := prunning s; pmax := pmax s; pnext := pnext s |}.
(** Helper of [removePeer], Peers.cpp:155-177. *)
Definition setA (s : peers) (a : list active) : peers :=
  {| pknown := pknown s; pactive := a; pcur := pcur s; pconnecting := pconnecting s; prunning := prunning s; pmax := pmax s; pnext := pnext s |}.
(** Helper of [connectLoop], Peers.cpp:129-150. *)
Definition setCur (s : peers) (c : nat) : peers :=
  {| pknown := pknown s; pactive := pactive s; pcur := c; pconnecting := pconnecting s; prunning := prunning s; pmax := pmax s; pnext := pnext s |}.
(** Helper of [stopPeers], Peers.cpp:57-96. *)
Definition setRun (s : peers) (c r : bool) : peers :=
  {| pknown := pknown s; pactive := pactive s; pcur := pcur s; pconnecting := c; prunning := r; pmax := pmax s; pnext := pnext s |}.

(** KnownPeer's initialisers. For [connectAddr], Peers.cpp:179-215. *)
Definition newKnown (a : A) (src : psource) (fl : Z) : known :=
  {| kaddr := a; ksource := src; kflags := fl; kunwanted := false; kst := PDisconnected; ktime := 0; ktries := 0 |}.

(** Helper of [addRemote], Peers.cpp:217-242. *)
Definition setSt (k : known) (st : pstate) : known :=
  {| kaddr := kaddr k; ksource := ksource k; kflags := kflags k; kunwanted := kunwanted k; kst := st; ktime := ktime k; ktries := ktries k |}.

(** Peers.cpp:139-141 and 208-210 *)
Definition trying (k : known) (t : Z) : known :=
  {| kaddr := kaddr k; ksource := ksource k; kflags := kflags k; kunwanted := kunwanted k; kst := PConnecting; ktime := t; ktries := u32 (ktries k + 1) |}.

(** PeerStream.cpp:41-58 and 100-108: without a stream the address is Addr(). *)
Definition streamAddr (hp : bool) (a : A) : A :=
  if utpOut && (hp || preferUtp || negb tcpOut) then a else if tcpOut && negb hp then a else noAddr.

(** Peers.cpp:468-479 *)
Definition openTo (s : peers) (a : A) (idx : nat) (hp : bool) : peers :=
  {| pknown := pknown s; pactive := pactive s ++ [{| acomm := pnext s; aidx := idx; aaddr := streamAddr hp a |}]; pcur := pcur s;
     pconnecting := pconnecting s; prunning := prunning s; pmax := pmax s; pnext := pnext s + 1 |}.

(** Peers.cpp:137 *)
Definition eligible (k : known) (t : Z) : bool :=
  match kst k with PDisconnected => true | _ => false end && negb (kunwanted k) && ((ktime k =? 0) || (ktime k + 30 <? t)).

(** Peers.cpp:129-150; [UB] where knownPeers[idx] does not exist. *)
Fixpoint connectLoop (n : nat) (s : peers) (count : Z) (t : Z) : res (peers * Z) :=
  match n with
  | O => Ok (s, count)
  | S n' =>
    if count =? 0 then Ok (s, count)
    else match nth_error (pknown s) (pcur s) with
         | None => UB
         | Some k =>
           let '(s1, count1) :=
             if eligible k t then (openTo (setK s (upd (pcur s) (trying k t) (pknown s))) (kaddr k) (pcur s) false, count - 1) else (s, count) in
           let c := S (pcur s1) in
           connectLoop n' (setCur s1 (if Nat.eqb c (length (pknown s1)) then O else c)) count1 t
         end
  end.

(** Peers.cpp:114-153 *)
Definition connectNext (s : peers) (t : Z) : res peers :=
  if negb (pconnecting s) || negb (prunning s) || (pmax s <=? zlen (pactive s)) then Ok s
  else bind (connectLoop (length (pknown s)) s (pmax s - zlen (pactive s)) t) (fun r => Ok (fst r)).

(** Helper of [connectAddr], Peers.cpp:179-215. *)
Fixpoint findKnown (a : A) (l : list known) : option nat :=
  match l with
  | [] => None
  | k :: l' => if addrEq (kaddr k) a then Some O else match findKnown a l' with Some i => Some (S i) | None => None end
  end.

(** Peers.cpp:509-518 *)
Definition activeTo (s : peers) (a : A) : bool := existsb (fun x => addrEq (aaddr x) a) (pactive s).

(** Peers.cpp:204-211 *)
Definition connectIdx (s : peers) (a : A) (i : nat) (hp : bool) (t : Z) : res peers :=
  match nth_error (pknown s) i with
  | None => UB
  | Some k => if kunwanted k then Ok s else Ok (openTo (setK s (upd i (trying k t) (pknown s))) a i hp)
  end.

(** Peers.cpp:179-215, for a valid address. *)
Definition connectAddr (s : peers) (a : A) (hp : bool) (t : Z) : res peers :=
  if negb (prunning s) then Ok s
  else if activeTo s a then Ok s
  else match findKnown a (pknown s) with
       | None => connectIdx (setK s (pknown s ++ [newKnown a SrcManual 0])) a (length (pknown s)) hp t
       | Some i => connectIdx s a i hp t
       end.

(** Peers.cpp:217-242 of an active torrent; the stream is the remote peer's. *)
Definition addRemote (s : peers) (a : A) : peers :=
  {| pknown := pknown s ++ [setSt (newKnown a SrcRemote 0) PConnected];
     pactive := pactive s ++ [{| acomm := pnext s; aidx := length (pknown s); aaddr := a |}]; pcur := pcur s;
     pconnecting := pconnecting s; prunning := prunning s; pmax := pmax s; pnext := pnext s + 1 |}.

(** Peers.cpp:520-529 *)
Fixpoint findActive (c : Z) (l : list active) : option nat :=
  match l with
  | [] => None
  | x :: l' => if acomm x =? c then Some O else match findActive c l' with Some i => Some (S i) | None => None end
  end.

(** Helper of [removePeer], Peers.cpp:155-177. *)
Definition remove {B} (i : nat) (l : list B) : list B := firstn i l ++ skipn (S i) l.

(** A change of the known peer of a live connection. For [removePeer], Peers.cpp:155-177. *)
Definition onKnown (s : peers) (c : Z) (f : known -> known) : res peers :=
  match findActive c (pactive s) with
  | None => Ok s
  | Some j =>
    match nth_error (pactive s) j with
    | None => UB
    | Some x => match nth_error (pknown s) (aidx x) with
                | None => UB
                | Some k => Ok (setK s (upd (aidx x) (f k) (pknown s)))
                end
    end
  end.

(** Peers.cpp:155-177 *)
Definition removePeer (s : peers) (c : Z) (t : Z) : res peers :=
  match findActive c (pactive s) with
  | None => Ok s
  | Some j =>
    bind (onKnown s c (fun k => {| kaddr := kaddr k; ksource := ksource k; kflags := kflags k; kunwanted := kunwanted k; kst := PDisconnected; ktime := t; ktries := ktries k |}))
         (fun s1 => Ok (setA s1 (remove j (pactive s1))))
  end.

(** Peers.cpp:618-629 (the hole punching it may ask for is left out) *)
Definition connectionClosed (s : peers) (c : Z) (t : Z) : res peers :=
  bind (removePeer s c t) (fun s1 => connectNext s1 t).

(** Peers.cpp:607-616 *)
Definition handshakeFinished (s : peers) (c : Z) : res peers := onKnown s c (fun k => setSt k PConnected).

(** Peers.cpp:244-262: the connection is closed later, by [connectionClosed]. *)
Definition disconnectPeer (s : peers) (c : Z) (unwanted : bool) : res peers :=
  onKnown s c (fun k => if unwanted then {| kaddr := kaddr k; ksource := ksource k; kflags := kflags k; kunwanted := true; kst := kst k; ktime := ktime k; ktries := ktries k |} else k).

(** Peers.cpp:404-417: what is new, and the flags of the others; [UB] reads flags past their end. *)
Fixpoint scan (ps : list A) (i : nat) (fl : option (list Z)) (k : list known) (news : list nat) : res (list known * list nat) :=
  match ps with
  | [] => Ok (k, news)
  | a :: ps' =>
    match findKnown a k with
    | None => scan ps' (S i) fl k (news ++ [i])
    | Some j =>
      match fl with
      | None => scan ps' (S i) fl k news
      | Some f =>
        match nth_error f i, nth_error k j with
        | Some b, Some q =>
          scan ps' (S i) fl (upd j {| kaddr := kaddr q; ksource := ksource q; kflags := Z.lor (kflags q) b; kunwanted := kunwanted q; kst := kst q; ktime := ktime q; ktries := ktries q |} k) news
        | _, _ => UB
        end
      end
    end
  end.

(** Peers.cpp:444-452 *)
Fixpoint fresh (ps : list A) (src : psource) (fl : option (list Z)) (news : list nat) : res (list known) :=
  match news with
  | [] => Ok []
  | i :: r =>
    match nth_error ps i, match fl with None => Some 0 | Some f => nth_error f i end with
    | Some a, Some b => bind (fresh ps src fl r) (fun l => Ok (newKnown a src b :: l))
    | _, _ => UB
    end
  end.

(** Peers.cpp:392-458; the count returned is left out. *)
Definition updateKnown (s : peers) (ps : list A) (src : psource) (fl : option (list Z)) (t : Z) : res peers :=
  match ps with
  | [] => Ok s
  | _ =>
    bind (scan ps 0 fl (pknown s) []) (fun '(k, news) =>
    let s1 := setK s k in
    match news with
    | [] => Ok s1
    | _ =>
      bind (fresh ps src fl news) (fun l =>
      let s2 :=
        if match src with SrcPex | SrcDht => true | _ => false end && negb (Nat.eqb (pcur s) 0) then
          if Nat.ltb (length k) (pcur s) then UB
          else Ok (setA (setK s1 (firstn (pcur s) k ++ l ++ skipn (pcur s) k))
                        (map (fun x => if Nat.leb (pcur s) (aidx x) then {| acomm := acomm x; aidx := (aidx x + length news)%nat; aaddr := aaddr x |} else x) (pactive s)))
        else Ok (setCur (setK s1 (k ++ l)) (if Nat.eqb (pcur s) 0 then length k else pcur s)) in
      bind s2 (fun s3 => connectNext s3 t))
    end)
  end.

(** Peers.cpp:57-96 *)
Definition stopPeers (s : peers) : res peers :=
  bind (fold_left (fun r x => bind r (fun k => match nth_error k (aidx x) with None => UB | Some q => Ok (upd (aidx x) (setSt q PDisconnected) k) end)) (pactive s) (Ok (pknown s)))
       (fun k => Ok (setRun (setA (setK s k) []) false false)).

(** Helper of [pstep], Peers.cpp:31-55, 98-112. *)
Inductive pevent :=
| PStart (t : Z) | PStop | PStartConnecting (t : Z) | PStopConnecting | PConnectNext (t : Z) | PMax (m : Z)
| PConnect (a : A) (hp : bool) (t : Z) | PRemote (a : A) | PDisconnect (c : Z) (unwanted : bool) | PHandshake (c : Z) | PClosed (c t : Z)
| PFound (ps : list A) (src : psource) (fl : option (list Z)) (t : Z).

(** Peers.cpp:31-55 and 98-112 for start and stop of connecting; the posted call of connectNext runs at
    once, later ones are [PConnectNext]. *)
Definition pstep (s : peers) (e : pevent) : res peers :=
  match e with
  | PStart t => connectNext (setRun s (pconnecting s) true) t
  | PStop => stopPeers s
  | PStartConnecting t => if pconnecting s then Ok s else connectNext (setRun s true (prunning s)) t
  | PStopConnecting => Ok (setRun s false (prunning s))
  | PConnectNext t => connectNext s t
  | PMax m => Ok {| pknown := pknown s; pactive := pactive s; pcur := pcur s; pconnecting := pconnecting s; prunning := prunning s; pmax := m; pnext := pnext s |}
  | PConnect a hp t => connectAddr s a hp t
  | PRemote a => Ok (addRemote s a)
  | PDisconnect c u => disconnectPeer s c u
  | PHandshake c => handshakeFinished s c
  | PClosed c t => connectionClosed s c t
  | PFound ps src fl t => updateKnown s ps src fl t
  end.

(** Model only: the calls and events above, in any order, as the histories of the theorems. *)
Fixpoint prun (s : peers) (es : list pevent) : res peers :=
  match es with [] => Ok s | e :: es' => bind (pstep s e) (fun s' => prun s' es') end.
End Peers.
