(** Model of the pings of DHT nodes in mtTorrent/Core/Dht/Query.cpp. *)
From Verif Require Import Base AddrModel NodeModel TableModel DhtMsgModel.
From Verif Require QueryModel.

(** Query.h:131-136 [PingInfo], with a number for the request *)
Record pinfo := { piH : nat; piTrans : Z; piNode : nodeInfo; piUnknown : bool }.

(** Query.h:115-146 [PingNodes] with the table, the last transaction number (Query.cpp:13-18) and, model only, the nodes pinged so far *)
Record pings := { pgPending : list pinfo; pgLeft : list nodeInfo; pgTable : table; pgTrans : Z; pgNext : nat; pgSent : list nodeInfo }.

(** Query.cpp:678-685 [sendRequest] *)
Definition sendPing (n : nodeInfo) (unknown : bool) (g : pings) : pings :=
  let tr := QueryModel.nextTrans (pgTrans g) in
  {| pgPending := pgPending g ++ [{| piH := pgNext g; piTrans := tr; piNode := n; piUnknown := unknown |}]; pgLeft := pgLeft g; pgTable := pgTable g; pgTrans := tr; pgNext := S (pgNext g); pgSent := pgSent g ++ [n] |}.

(** Query.cpp:543-560 [start] of a list of nodes; 5 is Query.h:128 *)
Definition startNodes (nodes : list nodeInfo) (t : table) (tr : Z) : pings :=
  let count := Nat.min 5 (length nodes) in
  fold_left (fun g n => sendPing n false g) (firstn count nodes)
    {| pgPending := []; pgLeft := skipn count nodes; pgTable := t; pgTrans := tr; pgNext := 0; pgSent := [] |}.

(** Query.cpp:562-568 [start] of an address; the id is not yet known *)
Definition startAddr (bytes : list Z) (port : Z) (v6 : bool) (t : table) (tr : Z) : pings :=
  sendPing {| id := repeat 0 20; addrBytes := bytes; TableModel.port := port; ipv6 := v6 |} true {| pgPending := []; pgLeft := []; pgTable := t; pgTrans := tr; pgNext := 0; pgSent := [] |}.

(** Query.cpp:592-614: what the answer to p does to the table; [None]: no answer came in time *)
Definition judge (own : list Z) (t : table) (p : pinfo) (body : option dresponse) (now : Z) : table :=
  match body with
  | Some r =>
    let i := match drId r with Some i => i | None => repeat 0 20 end in
    let n := if piUnknown p then {| id := i; addrBytes := addrBytes (piNode p); TableModel.port := TableModel.port (piNode p); ipv6 := ipv6 (piNode p) |} else piNode p in
    if (drTrans r =? piTrans p) && idEq (id n) i then nodeResponded own t n now else t
  | None => if piUnknown p then t else nodeNotResponded own t (piNode p) now
  end.

(** Query.cpp:590-633 [onResponse], which always returns true: the request is over *)
Definition onPing (own : list Z) (g : pings) (p : pinfo) (body : option dresponse) (now : Z) : pings :=
  let g1 := {| pgPending := filter (fun x => negb (Nat.eqb (piH x) (piH p))) (pgPending g); pgLeft := pgLeft g; pgTable := judge own (pgTable g) p body now; pgTrans := pgTrans g; pgNext := pgNext g; pgSent := pgSent g |} in
  match rev (pgLeft g) with
  | [] => g1
  | n :: _ => let g2 := sendPing n false g1 in
              {| pgPending := pgPending g2; pgLeft := removelast (pgLeft g); pgTable := pgTable g2; pgTrans := pgTrans g2; pgNext := pgNext g2; pgSent := pgSent g2 |}
  end.

(** Model only: an answer to request h, or none, at a time, as the history of the theorems; a request that is over gets no more of them (C84) *)
Inductive pevt := PAnswer (h : nat) (body : option dresponse) (now : Z).

(** Model only: one event *)
Definition pstep (own : list Z) (g : pings) (e : pevt) : pings :=
  match e with PAnswer h body now => match List.find (fun p => Nat.eqb (piH p) h) (pgPending g) with Some p => onPing own g p body now | None => g end end.

(** Model only: a history *)
Definition prun (own : list Z) (g : pings) (es : list pevt) : pings := fold_left (pstep own) es g.
