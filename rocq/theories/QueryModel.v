(** Model of Core/Dht/Query.cpp: a GetPeers or FindNode lookup, with the part of
    utils/UdpAsyncComm.cpp that holds the callbacks of its requests.

    Simplifications.  A response is already parsed (C01, C02 are about the
    parser); the table's nodeResponded/nodeNotResponded calls, the announce
    tokens and the log are left out; what [listener->onFoundPeers] returns is
    part of the response event.  [createTransactionId] is a counter of this
    lookup, other lookups do not advance it.  Each call runs alone
    (respondingMutex). *)
From Verif Require Import Base NodeModel TableModel.

(** RequestInfo, Query.h 49-54, with the UDP request it was bound to: a handle
    for the object and the endpoint it was sent to. *)
Record pending := { p_handle : nat; p_node : nodeInfo; p_trans : Z; p_min : Z }.

(** UdpAsyncComm.cpp:148-160: requests are found by their endpoint. *)
Definition endpoint (p : pending) : list Z * Z := (addrBytes (p_node p), port (p_node p)).
(** Helper of [onResponse], Query.cpp 227-318. *)
Definition sameEndpoint (a b : pending) : bool :=
  list_eqb (addrBytes (p_node a)) (addrBytes (p_node b)) && (port (p_node a) =? port (p_node b)).

(** GetPeersResponse / FindNodeResponse, Query.h 11-40; [r_found] is what the
    listener makes of the values. *)
Record response := { r_trans : Z; r_id : list Z; r_nodes : list nodeInfo; r_found : Z }.

(** DhtQuery, Query.h 56-90, GetPeers 92-103, FindNode 105-120. *)
Record query := {
  q_peers : bool;               (* GetPeers, otherwise FindNode *)
  q_target : list Z;            (* targetId *)
  q_max : Z;                    (* MaxSimultaneousRequests *)
  q_requests : list pending;    (* requests *)
  q_received : list nodeInfo;   (* receivedNodes *)
  q_used : list nodeInfo;       (* usedNodes *)
  q_found : Z;                  (* foundCount *)
  q_next : nat;                 (* next handle *)
  q_trans : Z;                  (* createTransactionId's counter *)
  q_pending : list pending      (* UdpAsyncComm::pendingResponses of this lookup *)
}.

(** Helper of [onResponse], Query.cpp 227-318. *)
Definition MaxCachedNodes : Z := 32.
(** Helper of [onResponse], Query.cpp 227-318. *)
Definition MaxReturnedValues : Z := 50.

(** std::find with NodeInfo::operator==, Node.cpp 106-109. *)
Definition hasNode (l : list nodeInfo) (n : nodeInfo) : bool :=
  existsb (fun m => idEq (id m) (id n)) l.

(** The search for the node to replace, Query.cpp 41-57. *)
Fixpoint worst (target nd : list Z) (l : list nodeInfo) (i : nat) (best : option nat) (dist : Z)
  : option nat :=
  match l with
  | [] => best
  | m :: l' =>
    if negb (closerToNodeThan (id m) nd target) then
      let d := idLength (distance (id m) target) in
      if dist <? d then worst target nd l' (S i) (Some i) d
      else worst target nd l' (S i) best dist
    else worst target nd l' (S i) best dist
  end.

(** One round of mergeClosestNodes, Query.cpp 22-65. *)
Definition mergeOne (own : list Z) (blacklist : list nodeInfo) (maxSize minDistance : Z)
  (target : list Z) (to : list nodeInfo) (n : nodeInfo) : list nodeInfo :=
  if hasNode to n then to
  else if hasNode blacklist n then to
  else if negb (isValidNode own (id n)) then to
  else if (idLength (distance (id n) target) <=? minDistance) || (zlen blacklist <? 32) then
    if zlen to <? maxSize then to ++ [n]
    else match worst target (distance (id n) target) to 0 None 0 with
         | Some i => upd i n to
         | None => to
         end
  else to.

(** mergeClosestNodes, Query.cpp 20-66. *)
Definition mergeClosestNodes (own : list Z) (to from blacklist : list nodeInfo)
  (maxSize minDistance : Z) (target : list Z) : list nodeInfo :=
  fold_left (mergeOne own blacklist maxSize minDistance target) from to.

(** createTransactionId, Query.cpp 13-18. *)
Definition nextTrans (t : Z) : Z := u16 (t + 100).

(** sendRequest, Query.cpp 455-467, with UdpAsyncComm::sendMessage and
    addPendingResponse (UdpAsyncComm.cpp 84-96, 130-146). *)
Definition sendRequest (n : nodeInfo) (minDistance : Z) (q : query) : query :=
  let t := nextTrans (q_trans q) in
  let p := {| p_handle := q_next q; p_node := n; p_trans := t; p_min := minDistance |} in
  {| q_peers := q_peers q; q_target := q_target q; q_max := q_max q;
     q_requests := q_requests q ++ [p]; q_received := q_received q; q_used := q_used q;
     q_found := q_found q; q_next := S (q_next q); q_trans := t;
     q_pending := q_pending q ++ [p] |}.

(** DhtQuery::start, Query.cpp 92-117, with the nodes the table returned; the
    boolean tells whether findingPeersFinished was called. *)
Definition start (peers : bool) (target : list Z) (nodes : list nodeInfo) : query * bool :=
  let q0 := {| q_peers := peers; q_target := target; q_max := 5; q_requests := [];
               q_received := []; q_used := []; q_found := 0; q_next := 0; q_trans := 0;
               q_pending := [] |} in
  (fold_left (fun q n => sendRequest n 160 q) nodes q0,
   match nodes with [] => true | _ => false end).

(** The sending loop, Query.cpp 298-307 and 440-449; a round takes the first
    received node, so it runs at most as often as there are nodes. *)
Fixpoint sendLoop (fuel : nat) (q : query) : query * list nodeInfo :=
  match fuel with
  | O => (q, [])
  | S fuel' =>
    match q_received q with
    | [] => (q, [])
    | next :: rest =>
      if zlen (q_requests q) <? q_max q then
        let q1 := {| q_peers := q_peers q; q_target := q_target q; q_max := q_max q;
                     q_requests := q_requests q; q_received := rest;
                     q_used := q_used q ++ [next]; q_found := q_found q;
                     q_next := q_next q; q_trans := q_trans q; q_pending := q_pending q |} in
        let q2 := sendRequest next (idLength (distance (id next) (q_target q))) q1 in
        let '(q3, out) := sendLoop fuel' q2 in
        (q3, next :: out)
      else (q, [])
    end
  end.

(** Erase the first request that matches, Query.cpp 282-289 and 429-436. *)
Fixpoint eraseFirst (f : pending -> bool) (l : list pending) : list pending :=
  match l with
  | [] => []
  | x :: l' => if f x then l' else x :: eraseFirst f l'
  end.

(** Helper of [onResponse], Query.cpp 227-318. *)
Definition setReceived (q : query) (received : list nodeInfo) (found : Z) : query :=
  {| q_peers := q_peers q; q_target := q_target q; q_max := q_max q;
     q_requests := q_requests q; q_received := received; q_used := q_used q;
     q_found := found; q_next := q_next q; q_trans := q_trans q; q_pending := q_pending q |}.
(** Helper of [onResponse], Query.cpp 227-318. *)
Definition setRequests (q : query) (requests : list pending) : query :=
  {| q_peers := q_peers q; q_target := q_target q; q_max := q_max q;
     q_requests := requests; q_received := q_received q; q_used := q_used q;
     q_found := q_found q; q_next := q_next q; q_trans := q_trans q; q_pending := q_pending q |}.
(** Model only: record update. *)
Definition setPending (q : query) (ps : list pending) : query :=
  {| q_peers := q_peers q; q_target := q_target q; q_max := q_max q;
     q_requests := q_requests q; q_received := q_received q; q_used := q_used q;
     q_found := q_found q; q_next := q_next q; q_trans := q_trans q; q_pending := ps |}.

(** GetPeers::onResponse, Query.cpp 227-318, and FindNode::onResponse, 378-453.
    Result: the state, whether the response was accepted, the nodes queried,
    whether findingPeersFinished was called. *)
Definition onResponse (own : list Z) (q : query) (p : pending) (body : option response)
  : query * bool * list nodeInfo * bool :=
  let isResponse := match body with Some r => r_trans r =? p_trans p | None => false end in
  let q1 :=
    match body with
    | Some r =>
      if isResponse && idEq (id (p_node p)) (r_id r) then
        setReceived q
          (match r_nodes r with
           | [] => q_received q
           | _ => mergeClosestNodes own (q_received q) (r_nodes r) (q_used q) MaxCachedNodes
                    (p_min p) (q_target q)
           end)
          (if q_peers q then u32 (q_found q + r_found r) else q_found q)
      else q
    | None => q
    end in
  let q2 := setRequests q1
    (eraseFirst (fun x => if q_peers q then sameEndpoint x p else Nat.eqb (p_handle x) (p_handle p))
                (q_requests q1)) in
  let '(q3, out) :=
    if negb (q_peers q) || (q_found q2 <? MaxReturnedValues)
    then sendLoop (length (q_received q2)) q2 else (q2, []) in
  (q3, isResponse, out, q_peers q && match q_requests q3 with [] => true | _ => false end).

(** DhtQuery::stop, Query.cpp 119-129: the callbacks of the listed requests are
    removed (UdpAsyncComm::removeCallback, UdpAsyncComm.cpp 114-128). *)
Definition stop (q : query) : query :=
  {| q_peers := q_peers q; q_target := q_target q; q_max := 0;
     q_requests := []; q_received := q_received q; q_used := q_used q;
     q_found := q_found q; q_next := q_next q; q_trans := q_trans q;
     q_pending := filter (fun p => negb (existsb (fun r => Nat.eqb (p_handle r) (p_handle p)) (q_requests q)))
                         (q_pending q) |}.

(** A datagram from the endpoint of a pending request, or its time-out or
    closing: UdpAsyncComm.cpp:176-220 (onDirectUdpReceive), onUdpClose (269-296).
    The callback is taken out first and put back if it does not accept. *)
Inductive event := Reply (handle : nat) (body : option response) | Stop.

(** Model only: the calls and events above, in any order, as the histories of the theorems. *)
Definition step (own : list Z) (e : event) (q : query) : query * list nodeInfo * bool :=
  match e with
  | Stop => (stop q, [], false)
  | Reply h body =>
    match List.find (fun p => Nat.eqb (p_handle p) h) (q_pending q) with
    | None => (q, [], false)
    | Some p =>
      let q0 := setPending q (filter (fun x => negb (Nat.eqb (p_handle x) h)) (q_pending q)) in
      let '(q1, ok, out, fin) := onResponse own q0 p body in
      let q2 := match body with
                | Some _ => if ok then q1 else setPending q1 (q_pending q1 ++ [p])
                | None => q1
                end in
      (q2, out, fin)
    end
  end.

(** A history; the nodes queried and the number of end reports. Model only: the calls and events above, in any order, as the histories of the theorems. *)
Fixpoint run (own : list Z) (es : list event) (q : query) : query * list nodeInfo * Z :=
  match es with
  | [] => (q, [], 0)
  | e :: es' =>
    let '(q1, o1, f1) := step own e q in
    let '(q2, o2, f2) := run own es' q1 in
    (q2, o1 ++ o2, (if f1 then 1 else 0) + f2)
  end.

(** A whole lookup. Model only: the calls and events above, in any order, as the histories of the theorems. *)
Definition lookup (own : list Z) (peers : bool) (target : list Z) (nodes : list nodeInfo) (es : list event)
  : query * list nodeInfo * Z :=
  let '(q0, f0) := start peers target nodes in
  let '(q, out, f) := run own es q0 in
  (q, out, (if f0 then 1 else 0) + f).
