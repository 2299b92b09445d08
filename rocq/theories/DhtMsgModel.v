(** The messages of the DHT: Core/Dht/Query.cpp writes requests and reads answers, Core/Dht/Responder.cpp reads requests
    and writes answers. The parser is BencodeModel.v, the table TableModel.v, tokens and stored peers ResponderModel.v. *)
From Verif Require Import Base Dec PacketModel AddrModel BencodeModel StateModel NodeModel TableModel ResponderModel.
From Verif Require XmlModel QueryModel.
From Coq Require Import String. From Coq Require Import List. Import ListNotations.
Local Close Scope string_scope.

(** Model only: the bytes of a literal *)
Definition lit (s : string) : list Z := XmlModel.txt s.

(** ** Requests *)

(** Query.cpp:320-338 [GetPeers::createRequest]; [own] is the id of this client, MT_NAME_SHORT is Interface.h:11; the
    two bytes of the number are in memory order *)
Definition getPeersRequest (own hash : list Z) (both : bool) (tr : Z) : list Z :=
  lit "d1:ad2:id20:" ++ own ++ lit "9:info_hash20:" ++ hash ++ (if both then lit "4:wantl2:n42:n6e" else []) ++
  lit "e1:q9:get_peers1:v4:" ++ lit "mt09" ++ lit "1:t2:" ++ le 2 tr ++ lit "1:y1:qe".

(** Query.cpp:355-376 [FindNode::createRequest] *)
Definition findNodeRequest (own hash : list Z) (both : bool) (tr : Z) : list Z :=
  lit "d1:ad2:id20:" ++ own ++ lit "6:target20:" ++ hash ++ (if both then lit "4:wantl2:n42:n6e" else []) ++
  lit "e1:q9:find_node" ++ lit "1:t2:" ++ le 2 tr ++ lit "1:y1:qe".

(** Query.cpp:575-585 [PingNodes::createRequest] *)
Definition pingRequest (own : list Z) (tr : Z) : list Z :=
  lit "d1:ad2:id20:" ++ own ++ lit "e1:q4:ping1:t2:" ++ le 2 tr ++ lit "1:y1:qe".

(** Query.cpp:686-714 [AnnouncePeer]: the message sent *)
Definition announceRequest (own hash token : list Z) (tcpPort udpPort tr : Z) : list Z :=
  lit "d1:ad2:id20:" ++ own ++ (if tcpPort =? udpPort then lit "12:implied_porti1e" else []) ++
  lit "4:porti" ++ toString udpPort ++ [101] ++ lit "9:info_hash20:" ++ hash ++
  lit "5:token" ++ toString (zlen token) ++ [58] ++ token ++ lit "e1:q13:announce_peer1:t2:" ++ le 2 tr ++ lit "1:y1:qe".

(** ** Reading answers *)

(** Query.h:10-46: the three kinds of answer in one; [drId] is [None] while nothing was written to the array *)
Record dresponse := { drResult : Z; drTrans : Z; drId : option (list Z); drToken : list Z; drNodes : list nodeInfo; drValues : list addr }.
(** Query.h:10-46: a new answer; [PingMessage response = {}] (Query.cpp:637) clears the id too *)
Definition newResponse (i : option (list Z)) : dresponse :=
  {| drResult := 0; drTrans := 0; drId := i; drToken := []; drNodes := []; drValues := [] |}.

(** Helper of [nodesLoop], Query.cpp:166-173. Reading [n] bytes at [p]: undefined outside memory *)
Definition memAt (m : list Z) (p : Z) (n : nat) : out (list Z) :=
  if (0 <=? p) && (p + Z.of_nat n <=? zlen m) then Val (slice (Z.to_nat p) n m) else Undef.

(** Node.cpp:98-104 [NodeInfo::parse] of the 26 or 38 bytes [b]; the constructor cleared the address *)
Definition parseNode (b : list Z) (v6 : bool) : out nodeInfo :=
  match parseAddr (repeat 0 16) (skipn 20 b) v6 with
  | Ok (a, _) => Val {| id := firstn 20 b; addrBytes := AddrModel.addrBytes a; port := AddrModel.port a; ipv6 := AddrModel.ipv6 a |}
  | UB => Undef
  end.

(** Query.cpp:166-173, 180-187, 493-500, 507-514: [size] bytes are left from [p]; a node is read as long as there is one *)
Fixpoint nodesLoop (f : nat) (m : list Z) (p size : Z) (v6 : bool) (acc : list nodeInfo) : out (list nodeInfo) :=
  if 0 <? size then
    match f with
    | O => NoEnd
    | S f' =>
      let n := (22 + addrSize v6)%nat in
      obind (memAt m p n) (fun b =>
      obind (parseNode b v6) (fun i =>
      nodesLoop f' m (p + Z.of_nat n) (size - Z.of_nat n) v6 (if QueryModel.hasNode acc i then acc else acc ++ [i])))
    end
  else Val acc.

Section Read.
Variable fuel : nat.
Variable m : list Z.
Variable objs : list obj.
(** what was in memory where an address is made: the unused bytes of an IPv4 address keep it *)
Variable junk : list Z.

(** BencodeParser.cpp:240-254 [getTxtItem]. *)
Definition txtItem (i : nat) (name : list Z) : out (option obj) :=
  obind (getObject fuel m objs i name TText) (fun o => Val (option_map (fun j => nth j objs noObj) o)).

(** Query.cpp:149-153, 480-484, 646-650: whether the answer is read on; the byte is read even if the text is empty *)
Definition readType : out bool :=
  obind (txtItem 0 (lit "y")) (fun o => match o with
  | None => Val true
  | Some y => obind (memAt m (odata y) 1) (fun b => Val (nth 0 b 0 =? 114))
  end).

(** Query.cpp:155-159, 486-490, 652-656: two bytes are read if there is one *)
Definition readTrans : out Z :=
  obind (txtItem 0 (lit "t")) (fun o => match o with
  | None => Val 0
  | Some t => if osize t =? 0 then Val 0 else obind (memAt m (odata t) 2) (fun b => Val (unle b))
  end).

(** Query.cpp:163-189, 493-516 *)
Definition readNodes (i : nat) : out (list nodeInfo) :=
  obind (txtItem i (lit "nodes")) (fun o =>
  obind (match o with None => Val [] | Some t => nodesLoop (Z.to_nat (osize t)) m (odata t) (osize t) false [] end) (fun acc =>
  obind (txtItem i (lit "nodes6")) (fun o6 =>
  match o6 with None => Val acc | Some t => nodesLoop (Z.to_nat (osize t)) m (odata t) (osize t) true acc end))).

(** Query.cpp:196-197: an address of a text, whatever its size *)
Definition readValue (j : nat) : out (list addr) :=
  let o := nth j objs noObj in
  if typeEqb (otyp o) TText then
    obind (memAt m (odata o) (addrSize (18 <=? osize o) + 2)) (fun b =>
    match parseAddr junk b (18 <=? osize o) with Ok (a, _) => Val [a] | UB => Undef end)
  else Val [].

(** Query.cpp:191-201 *)
Definition readValues (i : nat) : out (list addr) :=
  obind (getObject fuel m objs i (lit "values") TList) (fun o => match o with
  | None => Val []
  | Some k => obind (itemsFrom objs fuel false (getFirstItem objs k)) (fun l => obind (omap readValue l) (fun vs => Val (concat vs)))
  end).

(** Query.cpp:203-206 *)
Definition readToken (i : nat) : out (list Z) := txtOf fuel m objs i (lit "token").

(** Query.cpp:208-214, 518-522, 660-664 *)
Definition readId (old : option (list Z)) (i : nat) : out (option (list Z)) :=
  obind (txtItem i (lit "id")) (fun o => match o with
  | None => Val old
  | Some t => if osize t =? 20 then obind (memAt m (odata t) 20) (fun b => Val (Some b)) else Val old
  end).

(** Query.cpp:217-221, 525-529, 667-671: the number of the first item, whatever it is; a list or dictionary has no text
    (a null pointer) *)
Definition readError : out Z :=
  obind (getObject fuel m objs 0 (lit "e") TList) (fun o => match o with
  | None => Val 0
  | Some k => match getFirstItem objs k with
              | None => Val 0
              | Some j => match otyp (nth j objs noObj) with
                          | TNumber | TText => itemInt m (nth j objs noObj)
                          | _ => Undef
                          end
              end
  end).

(** Which of the three functions: Query.cpp:138-225, 469-536, 635-676. *)
Inductive dkind := DGetPeers | DFindNode | DPing.

(** Query.cpp:161-215, 492-523, 658-665: the dictionary "r" *)
Definition readReply (k : dkind) (i : nat) (r : dresponse) : out dresponse :=
  match k with
  | DGetPeers =>
    obind (readNodes i) (fun ns => obind (readValues i) (fun vs => obind (readToken i) (fun t => obind (readId (drId r) i) (fun d =>
    Val {| drResult := drResult r; drTrans := drTrans r; drId := d; drToken := t; drNodes := ns; drValues := vs |}))))
  | DFindNode =>
    obind (readNodes i) (fun ns => obind (readId (drId r) i) (fun d =>
    Val {| drResult := drResult r; drTrans := drTrans r; drId := d; drToken := []; drNodes := ns; drValues := [] |}))
  | DPing =>
    obind (readId (drId r) i) (fun d =>
    Val {| drResult := drResult r; drTrans := drTrans r; drId := d; drToken := []; drNodes := []; drValues := [] |})
  end.

(** Query.cpp:146-222, 477-530, 643-672: a dictionary as root *)
Definition readResponse (k : dkind) (r0 : dresponse) : out dresponse :=
  obind readType (fun ty =>
  if ty : bool then
    obind readTrans (fun tr =>
    obind (getObject fuel m objs 0 (lit "r") TDict) (fun o =>
    let r1 := {| drResult := 0; drTrans := tr; drId := drId r0; drToken := []; drNodes := []; drValues := [] |} in
    obind (match o with None => Val r1 | Some i => readReply k i r1 end) (fun r2 =>
    obind readError (fun e =>
    Val {| drResult := e; drTrans := drTrans r2; drId := drId r2; drToken := drToken r2; drNodes := drNodes r2; drValues := drValues r2 |}))))
  else Val r0).

End Read.

(** Query.cpp:138-225 [parseGetPeersResponse], 469-536 [parseFindNodeResponse], 635-676 [PingNodes::parseResponse] of
    [len] bytes of the memory [m] *)
Definition parseResponse (fuel : nat) (m : list Z) (len : Z) (junk : list Z) (k : dkind) : out dresponse :=
  let r0 := newResponse (match k with DPing => Some (repeat 0 20) | _ => None end) in
  obind (parse fuel m len) (fun p =>
  if pok p && typeEqb (otyp (nth 0 (pobjs p) noObj)) TDict then readResponse fuel m (pobjs p) junk k r0 else Val r0).

(** ** Answering requests *)

(** Model only: where a request came from: the address, the text of it and the port *)
Record source := { srcBytes : list Z; srcText : list Z; srcPort : Z; srcV6 : bool }.

(** Responder.h:15-47 [Responder] with the table it uses *)
Record responder := { reTable : table; reSecrets : secrets; reValues : values }.

(** Responder.cpp:119-133: a node as written, with its family *)
Definition writeNode (n : nodeInfo) : list Z :=
  firstn 20 (id n) ++ firstn (addrSize (ipv6 n)) (addrBytes n) ++ le 2 (bswap 2 (port n)).

Section Answer.
Variable fuel : nat.
Variable m : list Z.
Variable objs : list obj.
Variable junk : list Z.

(** Responder.cpp:102-111: the items of "want" up to one that is no text *)
Fixpoint wantLoop (f : nat) (it : option nat) (v4 v6 : bool) : out (bool * bool) :=
  match it with
  | None => Val (v4, v6)
  | Some j =>
    match f with
    | O => NoEnd
    | S f' =>
      if typeEqb (otyp (nth j objs noObj)) TText then
        obind (itemEquals m (nth j objs noObj) (lit "n4")) (fun e4 =>
        obind (itemEquals m (nth j objs noObj) (lit "n6")) (fun e6 =>
        wantLoop f' (getNextSibling objs j) (v4 || e4) (v6 || (negb e4 && e6))))
      else Val (v4, v6)
    end
  end.

(** Responder.cpp:95-148 [writeNodes] for the nodes [found]: what is appended *)
Definition writeNodes (v6 : bool) (a : nat) (found : list nodeInfo) : out (list Z) :=
  obind (getObject fuel m objs a (lit "want") TList) (fun o =>
  obind (match o with None => Val (negb v6, v6) | Some k => wantLoop fuel (getFirstItem objs k) (negb v6) v6 end) (fun w =>
  match found with
  | [] => Val []
  | _ =>
    let ns := concat (map writeNode (filter (fun n => negb (ipv6 n) && fst w) found)) in
    let ns6 := concat (map writeNode (filter (fun n => ipv6 n && snd w) found)) in
    Val (lit "5:nodes" ++ toString (zlen ns + zlen ns6) ++ [58] ++ ns ++ ns6)
  end)).

(** Responder.cpp:150-185 [writeValues] for the peers of [answerPeers]: what is appended *)
Definition writeValues (v6 : bool) (ps : list addr) : list Z :=
  match ps with
  | [] => []
  | _ => lit "6:valuesl" ++
         concat (map (fun a => lit (if v6 then "18:" else "6:") ++ firstn (addrSize v6) (AddrModel.addrBytes a) ++ le 2 (bswap 2 (AddrModel.port a))) ps) ++ [101]
  end.

(** Responder.cpp:24-92: a dictionary as root. [maxResponse], [maxStored] are settings, [now] is the time. [None]: false is
    returned and nothing sent *)
Definition handleRoot (own : list Z) (maxResponse maxStored now : Z) (s : source) (re : responder) : out (option (list Z * responder)) :=
  obind (txtItem fuel m objs 0 (lit "y")) (fun oy =>
  match oy with None => Val None | Some y =>
  obind (itemEquals m y (lit "q")) (fun isq =>
  if isq : bool then
    obind (txtItem fuel m objs 0 (lit "t")) (fun ot =>
    obind (txtItem fuel m objs 0 (lit "q")) (fun oq =>
    obind (getObject fuel m objs 0 (lit "a") TDict) (fun oa =>
    match ot, oq, oa with
    | Some t, Some q, Some a =>
      obind (txtItem fuel m objs a (lit "id")) (fun oi =>
      match oi with None => Val None | Some i =>
      if osize i =? 20 then
        obind (itemText m t) (fun tt =>
        obind (itemText m i) (fun sid =>
        let head := lit "d1:t" ++ toString (zlen tt) ++ [58] ++ tt ++ lit "1:y1:r" ++ lit "1:rd2:id20:" ++ own in
        let node := {| id := sid; addrBytes := AddrModel.addrBytes (setAddr junk (srcBytes s) (srcPort s) (srcV6 s)); port := srcPort s; ipv6 := srcV6 s |} in
        let done (body : list Z) (vs : values) : out (option (list Z * responder)) :=
          Val (Some (head ++ body ++ lit "ee",
                     {| reTable := nodeResponded own (reTable re) node now; reSecrets := reSecrets re; reValues := vs |})) in
        obind (itemEquals m q (lit "find_node")) (fun isf =>
        if isf : bool then
          obind (txtItem fuel m objs a (lit "target")) (fun og =>
          match og with None => Val None | Some g =>
          if osize g =? 20 then
            obind (itemText m g) (fun target =>
            obind (writeNodes (srcV6 s) a (getClosestNodes own (reTable re) target)) (fun b => done b (reValues re)))
          else Val None end)
        else
        obind (itemEquals m q (lit "get_peers")) (fun isg =>
        if isg : bool then
          obind (txtItem fuel m objs a (lit "info_hash")) (fun og =>
          match og with None => Val None | Some g =>
          if osize g =? 20 then
            obind (itemText m g) (fun hash =>
            obind (writeNodes (srcV6 s) a (getClosestNodes own (reTable re) hash)) (fun b =>
            done (b ++ writeValues (srcV6 s) (answerPeers maxResponse (reValues re) hash (srcV6 s)) ++ lit "5:token4:" ++ le 4 (tokenFor (reSecrets re) (srcText s))) (reValues re)))
          else Val None end)
        else
        obind (itemEquals m q (lit "announce_peer")) (fun isa =>
        if isa : bool then
          obind (txtItem fuel m objs a (lit "info_hash")) (fun og =>
          obind (txtItem fuel m objs a (lit "token")) (fun ok =>
          match og, ok with
          | Some g, Some k =>
            if (osize g =? 20) && (osize k =? 4) then
              obind (itemText m k) (fun tok =>
              if isValidToken (reSecrets re) (unle tok) (srcText s) then
                obind (itemText m g) (fun hash =>
                obind (intOf fuel m objs a (lit "port")) (fun p =>
                obind (intOf fuel m objs a (lit "implied_port")) (fun ip =>
                let pt := if (ip =? 1) || (p =? 0) then srcPort s else u16 p in
                done [] (announcedPeer maxStored (reValues re) hash (setAddr junk (srcBytes s) pt (srcV6 s)) now))))
              else Val None)
            else Val None
          | _, _ => Val None
          end))
        else done [] (reValues re))))))
      else Val None
      end)
    | _, _, _ => Val None
    end)))
  else Val None)
  end).

End Answer.

(** Responder.cpp:14-93 [handlePacket] of [len] bytes of the memory [m]; [timestamp] and the table's time are one clock here.
    An address that is "unspecified" (Network.cpp:80-81) does not send packets and is left out. *)
Definition handlePacket (fuel : nat) (m : list Z) (len : Z) (junk own : list Z) (maxResponse maxStored now : Z) (s : source) (re : responder)
  : out (option (list Z * responder)) :=
  if len =? 0 then Val None else
  obind (parse fuel m len) (fun p =>
  if pok p && typeEqb (otyp (nth 0 (pobjs p) noObj)) TDict
  then handleRoot fuel m (pobjs p) junk own maxResponse maxStored now s re else Val None).
