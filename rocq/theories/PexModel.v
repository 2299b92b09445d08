(** Model of mtTorrent/Core/PexExtension.cpp. *)
From Verif Require Import Base Dec PacketModel AddrModel BencodeModel.

(** [std::set<Addr>] ordered by [addrLt], as an ascending list (Network.cpp:191-194 is a strict
    order within one family only; across families what the set does is not specified and this
    is only one possible behaviour). *)
Fixpoint asInsert (a : addr) (l : list addr) : list addr :=
  match l with
  | [] => [a]
  | b :: l' => if addrLt a b then a :: l else if addrLt b a then b :: asInsert a l' else l
  end.

(** [find] and [erase] together, lines PexExtension.cpp:111-114. *)
Fixpoint asErase (a : addr) (l : list addr) : list addr :=
  match l with
  | [] => []
  | b :: l' => if addrLt a b then l else if addrLt b a then b :: asErase a l' else l'
  end.

(** Helper of [wasConnected], PexExtension.cpp:239-243. *)
Fixpoint asFind (a : addr) (l : list addr) : bool :=
  match l with
  | [] => false
  | b :: l' => if addrLt a b then false else if addrLt b a then asFind a l' else true
  end.

(** PexExtension.h [LocalData]: the message, the offsets of its "dropped" part and the peers
    at the last update. Time is given in the events below. The [hash] of the message is
    modelled by comparing messages (BufferHash is 8 bytes of SHA-1; 0 for an empty buffer). *)
Record plocal := { plData : list Z; plTime : Z; plOff0 : Z; plOff1 : Z; plPeers : list addr }.
(** Also PexExtension.h. *)
Definition newPex (now : Z) : plocal := {| plData := []; plTime := now; plOff0 := 0; plOff1 := 0; plPeers := [] |}.

(** PexExtension.cpp:13-16 [setBufferSizeHeader]: four bytes are overwritten. *)
Definition setSizeHeader (d : list Z) : res (list Z) :=
  if zlen d <? 4 then UB else Ok (addN 4 [] (u32 (zlen d - 4)) ++ skipn 4 d).

(** BencodeWriter.cpp:94-98 and 106-112: a key given as text ("5:added"), then the bytes. *)
Definition rawItem (d key data : list Z) : list Z := addText (addRawData d key) data.

(** Helper of [createPex], PexExtension.cpp:23-67. *)
Definition kAdded : list Z := (* 5:added *) [53;58;97;100;100;101;100].
(** Helper of [createPex], PexExtension.cpp:23-67. *)
Definition kAddedF : list Z := (* 7:added.f *) [55;58;97;100;100;101;100;46;102].
(** Helper of [createPex], PexExtension.cpp:23-67. *)
Definition kDropped : list Z := (* 7:dropped *) [55;58;100;114;111;112;112;101;100].

(** Helper of [createPex], PexExtension.cpp:23-67. *)
Definition toDatas (l : list addr) : list Z := concat (map toData l).

(** PexExtension.cpp:23-67 [createPexMessage]: the message and the offsets; [off1] is the offset kept from
    before. The four bytes of the length are written at last. *)
Definition createPex (added : list addr) (flags : list Z) (dropped : list addr) (off1 : Z) : res (list Z * Z * Z) :=
  let d0 := startMap (repeat 0 4 ++ [20; 0]) in
  let d1 := match added with [] => d0 | _ =>
      let d := rawItem d0 kAdded (toDatas added) in
      if zlen flags =? zlen added then rawItem d kAddedF flags else d end in
  let '(d2, o0, o1) := match dropped with [] => (d1, 0, off1) | _ =>
      let d := rawItem d1 kDropped (toDatas dropped) in (d, u32 (zlen d1), u32 (zlen d)) end in
  bind (setSizeHeader (endMap d2)) (fun d => Ok (if zlen d =? 8 then [] else d, o0, o1)).

(** What is used of a connected peer: its address and its flags (lines PexExtension.cpp:95-103: 2 seed,
    1 encrypted, 4 uTP, 8 hole punching). *)
Record ppeer := { ppAddr : addr; ppSeed : bool; ppEnc : bool; ppUtp : bool; ppHole : bool }.
(** Also PexExtension.cpp:95-103, 8. *)
Definition ppFlags (p : ppeer) : Z :=
  (if ppSeed p then 2 else 0) + (if ppEnc p then 1 else 0) + (if ppUtp p then 4 else 0) + (if ppHole p then 8 else 0).

(** PexExtension.cpp:86-115: the loop. State: added peers, flags, [dataPeers], [oldPeers]. *)
Definition pexPeer (st : list addr * list Z * list addr * list addr) (p : ppeer) : list addr * list Z * list addr * list addr :=
  let '(added, flags, now, old) := st in
  let '(added, flags) := if (zlen flags <? 50) && negb (ipv6 (ppAddr p))
    then (added ++ [ppAddr p], flags ++ [ppFlags p]) else (added, flags) in
  (added, flags, asInsert (ppAddr p) now, asErase (ppAddr p) old).

(** PexExtension.cpp:69-128 [update]; [UpdateFreq] is 60. [dataPeers] is empty after the move (78). *)
Definition pexUpdate (s : plocal) (now : Z) (peers : list ppeer) : res plocal :=
  if now - 60 <? plTime s then Ok s
  else
    let '(added, flags, data, dropped) := fold_left pexPeer peers ([], [], [], plPeers s) in
    bind (createPex added flags dropped (plOff1 s)) (fun r => let '(d, o0, o1) := r in
    Ok {| plData := d; plTime := now; plOff0 := o0; plOff1 := o1; plPeers := data |}).

(** PexExtension.cpp:142-154 [createFirstPexData] *)
Definition firstPex (s : plocal) : res (list Z) :=
  if negb (zlen (plData s) =? 0) && (plOff1 s <? zlen (plData s)) then
    if plOff1 s <? plOff0 s then UB
    else setSizeHeader (firstn (Z.to_nat (plOff0 s)) (plData s) ++ skipn (Z.to_nat (plOff1 s)) (plData s))
  else Ok (plData s).

(** ** The remote side *)

(** PexExtension.h [Remote]: the message last sent (for [lastHash]), the time, the number of
    the extension and the peers the other side named. *)
Record premote := { prLast : list Z; prTime : Z; prMid : Z; prPeers : list addr }.

(** PexExtension.cpp:222-237 [update]: the bytes sent, if any. The peer pointer is set ([enabled]). *)
Definition pexSend (s : plocal) (r : premote) (now : Z) : res (premote * option (list Z)) :=
  if list_eqb (prLast r) (plData s) || (zlen (plData s) =? 0) then Ok (r, None)
  else if negb (prTime r =? 0) && (now - 60 <? prTime r) then Ok (r, None)
  else bind (if negb (prTime r =? 0) then Ok (plData s) else firstPex s) (fun d =>
       if zlen d <? 6 then UB
       else Ok ({| prLast := plData s; prTime := now; prMid := prMid r; prPeers := prPeers r |}, Some (upd 5 (u8 (prMid r)) d))).

(** The message read: added peers, their flags, added IPv6 peers, their flags, dropped peers. For [pexRead], PexExtension.cpp:156-220. *)
Record pexmsg := { pmAdded : list addr; pmFlags : list Z; pmAdded6 : list addr; pmFlags6 : list Z; pmDropped : list addr }.

(** PexExtension.cpp:173-178: while [n] bytes are left, an address is read ([old] is what is in the memory of
    the new address). A negative size counts as a large one and is read outside the buffer;
    [itemText] gives [Undef] then. *)
Fixpoint readAddrs (fuel : nat) (old : list Z) (v6 : bool) (b : list Z) : list addr :=
  match fuel with
  | O => []
  | S f =>
    match parseAddr old b v6 with
    | Ok (a, n) => a :: readAddrs f old v6 (skipn (Z.to_nat n) b)
    | UB => []
    end
  end.

(** Helper of [pexRead], PexExtension.cpp:156-220. *)
Definition nAdded : list Z := (* added *) [97;100;100;101;100].
(** Helper of [pexRead], PexExtension.cpp:156-220. *)
Definition nAddedF : list Z := (* added.f *) [97;100;100;101;100;46;102].
(** Helper of [pexRead], PexExtension.cpp:156-220. *)
Definition nAdded6 : list Z := (* added6 *) [97;100;100;101;100;54].
(** Helper of [pexRead], PexExtension.cpp:156-220. *)
Definition nAdded6F : list Z := (* added6.f *) [97;100;100;101;100;54;46;102].
(** Helper of [pexRead], PexExtension.cpp:156-220. *)
Definition nDropped : list Z := (* dropped *) [100;114;111;112;112;101;100].

(** BencodeParser.cpp:256-273 [popTxtItem]: as [getTxtItem], but a key is used only once (its
    length is set to 0); the five names here differ, so that this makes no difference. *)
Definition popText (fuel : nat) (m : list Z) (objs : list obj) (name : list Z) : out (option (list Z)) :=
  obind (getObject fuel m objs 0 name TText) (fun o =>
  match o with
  | None => Val None
  | Some i => obind (itemText m (nth i objs noObj)) (fun t => Val (Some t))
  end).

(** Helper of [pexRead], PexExtension.cpp:156-220. *)
Definition orNil (o : option (list Z)) : list Z := match o with Some t => t | None => [] end.

(** PexExtension.cpp:156-220 [load] without the set [peers] (see [pexLoad]). *)
Definition pexRead (fuel : nat) (old : list Z) (m : list Z) (len : Z) : out (option pexmsg) :=
  obind (parse fuel m len) (fun r =>
  if negb (pok r) then Val None
  else if match pobjs r with [] => true | o :: _ => negb (typeEqb (otyp o) TDict) end then Val None
  else
    obind (popText fuel m (pobjs r) nAdded) (fun a =>
    obind (popText fuel m (pobjs r) nAddedF) (fun af =>
    obind (popText fuel m (pobjs r) nAdded6) (fun a6 =>
    obind (popText fuel m (pobjs r) nAdded6F) (fun a6f =>
    obind (popText fuel m (pobjs r) nDropped) (fun d =>
    let as4 := readAddrs (length (orNil a)) old false (orNil a) in
    let as6 := readAddrs (length (orNil a6)) old true (orNil a6) in
    Val (Some {| pmAdded := as4; pmFlags := if zlen (orNil af) =? zlen as4 then orNil af else [];
                 pmAdded6 := as6; pmFlags6 := if zlen (orNil a6f) =? zlen as6 then orNil a6f else [];
                 pmDropped := readAddrs (length (orNil d)) old false (orNil d) |}))))))).

(** PexExtension.cpp:156-220 with 176: added IPv4 peers are remembered. *)
Definition pexLoad (fuel : nat) (old m : list Z) (len : Z) (r : premote) : out (premote * option pexmsg) :=
  obind (pexRead fuel old m len) (fun o =>
  Val ({| prLast := prLast r; prTime := prTime r; prMid := prMid r;
          prPeers := match o with Some p => fold_left (fun l a => asInsert a l) (pmAdded p) (prPeers r) | None => prPeers r end |}, o)).

(** PexExtension.cpp:239-243 *)
Definition wasConnected (r : premote) (a : addr) : bool := asFind a (prPeers r).
