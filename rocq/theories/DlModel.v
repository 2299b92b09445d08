(** Model of mtTorrent/Core/Downloader.cpp and .h: which blocks are requested from which peer, what
    is done with the blocks which arrive. Peers are numbers. What a peer says about itself is the
    [view] of it at each step; the speed measure of a peer gives the number [wish]. Left out: the
    counters of downloaded and duplicate bytes, setInterested, logs, finish and errors of the disk.
    Everything is done under [requestsMutex]; one message, check or closed connection is one step.
    Indices which are out of range, and a division by zero, are [UB]. *)
From Verif Require Import Base LayoutModel ProgressModel Assoc.

(** Downloader.h:42-47 *)
Record reqPiece := { rIdx : Z; rActive : Z; rBlocks : list bool }.

(** Downloader.h:40-57 *)
Record peerInfo := { cur : list reqPiece; asked : list Z; suspGroup : Z; suspicion : Z }.

(** Downloader.h:40-57, a new entry. *)
Definition noInfo : peerInfo := {| cur := []; asked := []; suspGroup := 0; suspicion := 0 |}.

(** Interface.h:47-56 *)
Record pieceState := { psBlocks : list Z; psRemaining : Z; psSize : Z; psIndex : Z }.

(** Downloader.h:72-79 *)
Record reqInfo := { rPiece : pieceState; rCounter : Z; rPeers : list Z; rSources : list Z; rGroups : list Z }.

(** Downloader.h:58, 65-70, 80-81, 91-94 and the pieces of the torrent; [dSent] are all the requests
    sent so far, [dStored] the blocks given to the storage, [dAnnounced] the pieces announced to the
    peers with Have (FileTransfer.cpp:250, 269-270) *)
Record dl := { dPeers : list (Z * peerInfo); dReqs : list (Z * reqInfo); dUnf : list pieceState; dProg : progress;
  dSorted : list (Z * Z); dFast : bool; dChecking : list (Z * reqInfo); dFresh : list Z; dGroup : Z;
  dSent : list (Z * blockInfo); dStored : list blockInfo; dAnnounced : list Z }.

(** Helper of [evaluateNextRequests], Downloader.cpp:480-529. *)
Definition setPeers x (d : dl) := {| dPeers := x; dReqs := dReqs d; dUnf := dUnf d; dProg := dProg d; dSorted := dSorted d; dFast := dFast d;
  dChecking := dChecking d; dFresh := dFresh d; dGroup := dGroup d; dSent := dSent d; dStored := dStored d; dAnnounced := dAnnounced d |}.
(** Helper of [getRequest], Downloader.cpp:531-545. *)
Definition setReqs x (d : dl) := {| dPeers := dPeers d; dReqs := x; dUnf := dUnf d; dProg := dProg d; dSorted := dSorted d; dFast := dFast d;
  dChecking := dChecking d; dFresh := dFresh d; dGroup := dGroup d; dSent := dSent d; dStored := dStored d; dAnnounced := dAnnounced d |}.
(** Helper of [getRequest], Downloader.cpp:531-545. *)
Definition setUnf x (d : dl) := {| dPeers := dPeers d; dReqs := dReqs d; dUnf := x; dProg := dProg d; dSorted := dSorted d; dFast := dFast d;
  dChecking := dChecking d; dFresh := dFresh d; dGroup := dGroup d; dSent := dSent d; dStored := dStored d; dAnnounced := dAnnounced d |}.
(** Helper of [pieceBlockReceived], Downloader.cpp:264-336. *)
Definition setProg x (d : dl) := {| dPeers := dPeers d; dReqs := dReqs d; dUnf := dUnf d; dProg := x; dSorted := dSorted d; dFast := dFast d;
  dChecking := dChecking d; dFresh := dFresh d; dGroup := dGroup d; dSent := dSent d; dStored := dStored d; dAnnounced := dAnnounced d |}.
(** Helper of [refreshSelection], Downloader.cpp:421-478. *)
Definition setSorted x (d : dl) := {| dPeers := dPeers d; dReqs := dReqs d; dUnf := dUnf d; dProg := dProg d; dSorted := x; dFast := dFast d;
  dChecking := dChecking d; dFresh := dFresh d; dGroup := dGroup d; dSent := dSent d; dStored := dStored d; dAnnounced := dAnnounced d |}.
(** Helper of [chooseMore], Downloader.cpp:511. *)
Definition setFast x (d : dl) := {| dPeers := dPeers d; dReqs := dReqs d; dUnf := dUnf d; dProg := dProg d; dSorted := dSorted d; dFast := x;
  dChecking := dChecking d; dFresh := dFresh d; dGroup := dGroup d; dSent := dSent d; dStored := dStored d; dAnnounced := dAnnounced d |}.
(** Helper of [pieceBlockReceived], Downloader.cpp:264-336. *)
Definition setChecking x (d : dl) := {| dPeers := dPeers d; dReqs := dReqs d; dUnf := dUnf d; dProg := dProg d; dSorted := dSorted d; dFast := dFast d;
  dChecking := x; dFresh := dFresh d; dGroup := dGroup d; dSent := dSent d; dStored := dStored d; dAnnounced := dAnnounced d |}.
(** Helper of [pieceChecked], Downloader.cpp:191-224. *)
Definition setFresh x (d : dl) := {| dPeers := dPeers d; dReqs := dReqs d; dUnf := dUnf d; dProg := dProg d; dSorted := dSorted d; dFast := dFast d;
  dChecking := dChecking d; dFresh := x; dGroup := dGroup d; dSent := dSent d; dStored := dStored d; dAnnounced := dAnnounced d |}.
(** Helper of [refreshPieceSources], Downloader.cpp:226-262. *)
Definition setGroup x (d : dl) := {| dPeers := dPeers d; dReqs := dReqs d; dUnf := dUnf d; dProg := dProg d; dSorted := dSorted d; dFast := dFast d;
  dChecking := dChecking d; dFresh := dFresh d; dGroup := x; dSent := dSent d; dStored := dStored d; dAnnounced := dAnnounced d |}.
(** Helper of [topUp], Downloader.cpp:502-508. *)
Definition addSent p out (d : dl) := {| dPeers := dPeers d; dReqs := dReqs d; dUnf := dUnf d; dProg := dProg d; dSorted := dSorted d; dFast := dFast d;
  dChecking := dChecking d; dFresh := dFresh d; dGroup := dGroup d; dSent := dSent d ++ map (pair p) out; dStored := dStored d; dAnnounced := dAnnounced d |}.
(** Helper of [pieceBlockReceived], Downloader.cpp:264-336. *)
Definition addStored b (d : dl) := {| dPeers := dPeers d; dReqs := dReqs d; dUnf := dUnf d; dProg := dProg d; dSorted := dSorted d; dFast := dFast d;
  dChecking := dChecking d; dFresh := dFresh d; dGroup := dGroup d; dSent := dSent d; dStored := dStored d ++ [b]; dAnnounced := dAnnounced d |}.
(** Model only: record update. *)
Definition addAnnounced x (d : dl) := {| dPeers := dPeers d; dReqs := dReqs d; dUnf := dUnf d; dProg := dProg d; dSorted := dSorted d; dFast := dFast d;
  dChecking := dChecking d; dFresh := dFresh d; dGroup := dGroup d; dSent := dSent d; dStored := dStored d; dAnnounced := dAnnounced d ++ x |}.

(** What a peer is like at a step: PeerState::peerChoking, info.pieces.hasPiece, deltaReceive. For [fastNext], Downloader.cpp:555-570. *)
Record view := { choking : bool; has : Z -> bool; wish : Z }.

(** Downloader.cpp:171-174. The pieces asked for here are those of the selection; others are not
    missing. *)
Definition isMissing (d : dl) (idx : Z) : bool := (0 <=? idx) && (nth (Z.to_nat idx) (pieces (dProg d)) 1 =? 0).

(** Interface.cpp:103-108 *)
Definition initPiece (idx blocksCount : Z) : pieceState :=
  {| psBlocks := repeat 0 (Z.to_nat blocksCount); psRemaining := blocksCount; psSize := 0; psIndex := idx |}.

(** DownloadStorage.cpp:233-248: the state is moved out, what stays has no blocks *)
Fixpoint loadUnf (idx : Z) (l : list pieceState) : pieceState * list pieceState :=
  match l with
  | [] => ({| psBlocks := []; psRemaining := 0; psSize := 0; psIndex := 0 |}, [])
  | u :: l' =>
    if (psIndex u =? idx) && negb (psSize u =? 0) then (u, {| psBlocks := []; psRemaining := psRemaining u; psSize := 0; psIndex := psIndex u |} :: l')
    else let '(p, l2) := loadUnf idx l' in (p, u :: l2)
  end.

(** Downloader.cpp:531-545 *)
Definition getRequest (t : torrentInfo) (d : dl) (idx : Z) : reqInfo * dl :=
  match aget idx (dReqs d) with
  | Some r => (r, d)
  | None =>
    let '(ps, unf) := loadUnf idx (dUnf d) in
    let ps := match psBlocks ps with [] => initPiece idx (getPieceBlocksCount t idx) | _ => ps end in
    let r := {| rPiece := ps; rCounter := 0; rPeers := []; rSources := []; rGroups := [] |} in
    (r, setUnf unf (setReqs (aset idx r (dReqs d)) d))
  end.

(** Downloader.cpp:654-673: [n] blocks to look at, from [next] on *)
Fixpoint sendLoop (n : nat) (t : torrentInfo) (idx bc next max : Z) (states : list Z) (blocks : list bool) (count : Z)
  : res (list bool * Z * list blockInfo) :=
  match n with
  | O => Ok (blocks, count, [])
  | S n' =>
    bind (if nth (Z.to_nat next) states 1 =? 0 then
            if (Z.to_nat next <? length blocks)%nat then
              if nth (Z.to_nat next) blocks false then Ok (blocks, count, [])
              else Ok (upd (Z.to_nat next) true blocks, count + 1, [getPieceBlockInfo t idx next])
            else UB
          else Ok (blocks, count, []))
      (fun '(blocks1, count1, out1) =>
        if count1 =? max then Ok (blocks1, count1, out1)
        else bind (sendLoop n' t idx bc ((next + 1) mod bc) max states blocks1 count1) (fun '(b2, c2, out2) => Ok (b2, c2, out1 ++ out2)))
  end.

(** Downloader.cpp:648-677 *)
Definition sendPieceRequests (t : torrentInfo) (e : reqPiece) (r : reqInfo) (max : Z) : res (Z * reqPiece * reqInfo * list blockInfo) :=
  let bc := u16 (zlen (psBlocks (rPiece r))) in
  if bc =? 0 then UB
  else bind (sendLoop (Z.to_nat bc) t (rIdx e) bc (rCounter r mod bc) max (psBlocks (rPiece r)) (rBlocks e) 0) (fun '(blocks, count, out) =>
    Ok (count, {| rIdx := rIdx e; rActive := u32 (rActive e + count); rBlocks := blocks |},
        {| rPiece := rPiece r; rCounter := u16 (rCounter r + count); rPeers := rPeers r; rSources := rSources r; rGroups := rGroups r |}, out)).

(** Downloader.cpp:502-508 *)
Fixpoint topUp (t : torrentInfo) (p max : Z) (es : list reqPiece) (current : Z) (d : dl) : res (list reqPiece * Z * dl) :=
  match es with
  | [] => Ok ([], current, d)
  | e :: es' =>
    let '(r, d1) := getRequest t d (rIdx e) in
    bind (sendPieceRequests t e r (max - current)) (fun '(n, e', r', out) =>
      let d2 := addSent p out (setReqs (aset (rIdx e) r' (dReqs d1)) d1) in
      if current + n >=? max then Ok (e' :: es', current + n, d2)
      else bind (topUp t p max es' (current + n) d2) (fun '(l, c, d3) => Ok (e' :: l, c, d3)))
  end.

(** Helper of [fastNext], Downloader.cpp:555-570. *)
Definition unused (d : dl) (idx : Z) : bool :=
  match aget idx (dReqs d) with Some r => match rPeers r with [] => true | _ => false end | None => true end.

(** Downloader.cpp:555-570 *)
Fixpoint fastNext (d : dl) (v : view) (first : Z) (l : list (Z * Z)) : option Z :=
  match l with
  | [] => None
  | (idx, prio) :: l' =>
    if negb (first =? prio) then None
    else if isMissing d idx && has v idx && unused d idx then Some idx else fastNext d v first l'
  end.

(** Downloader.cpp:581-600 *)
Definition better (b : reqInfo) (r : reqInfo) : bool :=
  (length (rPeers r) <? length (rPeers b))%nat || ((length (rPeers r) =? length (rPeers b))%nat && (rCounter r <? rCounter b)).

(** Helper of [slowNext], Downloader.cpp:602-645. *)
Fixpoint bestShared (g : Z) (best : option (Z * reqInfo)) (l : list (Z * reqInfo)) : option (Z * reqInfo) :=
  match l with
  | [] => best
  | (idx, r) :: l' =>
    if negb (g =? 0) && existsb (Z.eqb g) (rGroups r) then bestShared g best l'
    else bestShared g (match best with None => Some (idx, r) | Some (_, b) => if better b r then Some (idx, r) else best end) l'
  end.

(** Downloader.cpp:602-645: the piece and the new value of fastCheck *)
Fixpoint slowNext (d : dl) (v : view) (info : peerInfo) (first lastP : Z) (shared : list (Z * reqInfo)) (l : list (Z * Z)) : option (Z * bool) :=
  match l with
  | [] => option_map (fun b => (fst b, false)) (bestShared (suspGroup info) None shared)
  | (idx, prio) :: l' =>
    if isMissing d idx && has v idx then
      let early := if lastP >? prio then bestShared (suspGroup info) None shared else None in
      match early with
      | Some b => Some (fst b, false)
      | None =>
        match aget idx (dReqs d) with
        | Some r =>
          match rPeers r with
          | [] => Some (idx, prio =? first)
          | _ => slowNext d v info first prio
                   (if existsb (fun e => rIdx e =? idx) (cur info) then shared else shared ++ [(idx, r)]) l'
          end
        | None => Some (idx, prio =? first)
        end
      end
    else slowNext d v info first lastP shared l'
  end.

(** Downloader.cpp:547-646 *)
Definition getBestNextRequest (d : dl) (v : view) (info : peerInfo) : option Z * bool :=
  match dSorted d with
  | [] => (None, dFast d)
  | (_, first) :: _ =>
    match (if dFast d then fastNext d v first (dSorted d) else None) with
    | Some idx => (Some idx, true)
    | None => match slowNext d v info first first [] (dSorted d) with
              | Some (idx, fast) => (Some idx, fast)
              | None => (None, false)
              end
    end
  end.

(** Helper of [chooseMore], Downloader.cpp:511. *)
Definition addPeer (p : Z) (r : reqInfo) : reqInfo :=
  {| rPiece := rPiece r; rCounter := rCounter r; rPeers := if existsb (Z.eqb p) (rPeers r) then rPeers r else rPeers r ++ [p];
     rSources := rSources r; rGroups := rGroups r |}.

(** Downloader.cpp:511-526. [fuel] bounds the rounds; needing more would be [UB]. *)
Fixpoint chooseMore (fuel : nat) (t : torrentInfo) (v : view) (p max : Z) (info : peerInfo) (current : Z) (d : dl) : res (peerInfo * dl) :=
  if current <? max then
    match fuel with
    | O => UB
    | S fuel' =>
      match getBestNextRequest d v info with
      | (None, fast) => Ok (info, setFast fast d)
      | (Some idx, fast) =>
        let '(r, d1) := getRequest t (setFast fast d) idx in
        let e := {| rIdx := psIndex (rPiece r); rActive := 0; rBlocks := repeat false (length (psBlocks (rPiece r))) |} in
        bind (sendPieceRequests t e (addPeer p r) (max - current)) (fun '(n, e', r', out) =>
          chooseMore fuel' t v p max
            {| cur := cur info ++ [e']; asked := asked info ++ [psIndex (rPiece r)]; suspGroup := suspGroup info; suspicion := suspicion info |}
            (current + n) (addSent p out (setReqs (aset idx r' (dReqs d1)) d1)))
      end
    end
  else Ok (info, d).

(** Helper of [evaluateNextRequests], Downloader.cpp:480-529. *)
Definition setCur (x : list reqPiece) (i : peerInfo) : peerInfo :=
  {| cur := x; asked := asked i; suspGroup := suspGroup i; suspicion := suspicion i |}.

(** Downloader.cpp:490-496 *)
Definition activeOf (es : list reqPiece) : Z := fold_right (fun e s => rActive e + s) 0 es.

(** Helper of [evaluateNextRequests], Downloader.cpp:480-529. *)
Definition limit (v : view) : Z := Z.max 5 (Z.min 100 (wish v)).

(** Downloader.cpp:480-529; a peer without an entry is not evaluated *)
Definition evaluateNextRequests (t : torrentInfo) (v : view) (p : Z) (d : dl) : res dl :=
  match aget p (dPeers d) with
  | None => Ok d
  | Some info =>
    if choking v then Ok d
    else
      let max := limit v in
      let current := u32 (activeOf (cur info)) in
      bind (if current <? max then topUp t p max (cur info) current d else Ok (cur info, current, d)) (fun '(es, current1, d1) =>
      bind (chooseMore (S (length (dSorted d))) t v p max (setCur es info) current1 d1) (fun '(info2, d2) =>
        Ok (setPeers (aset p info2 (dPeers d2)) d2)))
  end.

(** Downloader.cpp:338-341 *)
Definition blockIdx (begin : Z) : Z := begin / BlockMaxSize.

(** Downloader.cpp:351-362: the first entry of the piece; [None] when there is none *)
Fixpoint answer (idx k : Z) (es : list reqPiece) : res (option (list reqPiece)) :=
  match es with
  | [] => Ok None
  | e :: es' =>
    if rIdx e =? idx then
      if k <? zlen (rBlocks e) then
        Ok (Some ((if nth (Z.to_nat k) (rBlocks e) false
                   then {| rIdx := rIdx e; rActive := u32 (rActive e - 1); rBlocks := upd (Z.to_nat k) false (rBlocks e) |} else e) :: es'))
      else UB
    else bind (answer idx k es') (fun o => Ok (option_map (cons e) o))
  end.

(** Downloader.cpp:343-370 *)
Definition addPeerBlockResponse (b : blockInfo) (p : Z) (d : dl) : res (option dl) :=
  match aget p (dPeers d) with
  | None => Ok None
  | Some info =>
    bind (answer (bindex b) (blockIdx (bbegin b)) (cur info)) (fun o =>
      match o with
      | Some es => Ok (Some (setPeers (aset p (setCur es info) (dPeers d)) d))
      | None => Ok (if existsb (Z.eqb (bindex b)) (asked info) then Some d else None)
      end)
  end.

(** Interface.cpp:110-124 *)
Definition addBlock (b : blockInfo) (s : pieceState) : option pieceState :=
  let k := u32 (bbegin b + 1) / BlockMaxSize in
  if (k <? zlen (psBlocks s)) && (nth (Z.to_nat k) (psBlocks s) 1 =? 0)
  then Some {| psBlocks := upd (Z.to_nat k) 1 (psBlocks s); psRemaining := u32 (psRemaining s - 1); psSize := u32 (psSize s + blength b); psIndex := psIndex s |}
  else None.

(** Helper of [addSource], Downloader.cpp:291-294. *)
Definition insertZ (x : Z) (l : list Z) : list Z := if existsb (Z.eqb x) l then l else l ++ [x].

(** Downloader.cpp:291-294 *)
Definition addSource (p g : Z) (s : pieceState) (r : reqInfo) : reqInfo :=
  {| rPiece := s; rCounter := rCounter r; rPeers := rPeers r; rSources := insertZ p (rSources r);
     rGroups := if g =? 0 then rGroups r else insertZ g (rGroups r) |}.

(** Downloader.cpp:323-332 *)
Fixpoint eraseFirst (idx : Z) (es : list reqPiece) : list reqPiece :=
  match es with [] => [] | e :: es' => if rIdx e =? idx then es' else e :: eraseFirst idx es' end.

(** Helper of [pieceBlockReceived], Downloader.cpp:264-336. *)
Definition eraseAll (idx : Z) (d : dl) : dl :=
  setPeers (map (fun pi => (fst pi, setCur (eraseFirst idx (cur (snd pi))) (snd pi))) (dPeers d)) d.

(** Downloader.cpp:264-336 *)
Definition pieceBlockReceived (t : torrentInfo) (v : view) (b : blockInfo) (p : Z) (d : dl) : res dl :=
  bind (addPeerBlockResponse b p d) (fun o =>
    match o with
    | None => Ok d
    | Some d1 =>
      let g := match aget p (dPeers d1) with Some i => suspGroup i | None => 0 end in
      bind (match aget (bindex b) (dReqs d1) with
            | None => Ok d1
            | Some r =>
              match addBlock b (rPiece r) with
              | None => Ok d1
              | Some s =>
                let r' := addSource p g s r in
                let d2 := addStored b (setReqs (aset (bindex b) r' (dReqs d1)) d1) in
                if psRemaining s =? 0 then
                  let d3 := if isMissing d2 (psIndex s) then setChecking (dChecking d2 ++ [(bindex b, r')]) d2 else d2 in
                  bind (addPiece (bindex b) (dProg d3)) (fun pr =>
                    Ok (eraseAll (bindex b) (setReqs (adel (bindex b) (dReqs d3)) (setProg pr d3))))
                else Ok d2
              end
            end)
        (fun d4 => evaluateNextRequests t v p d4)
    end).

(** Downloader.cpp:372-388 *)
Definition unchokePeer (t : torrentInfo) (v : view) (p : Z) (d : dl) : res dl :=
  match aget p (dPeers d) with
  | None => Ok d
  | Some info =>
    evaluateNextRequests t v p
      (setPeers (aset p (setCur (map (fun e => {| rIdx := rIdx e; rActive := 0; rBlocks := repeat false (length (rBlocks e)) |}) (cur info)) info) (dPeers d)) d)
  end.

(** Downloader.cpp:679-691, without the comparison of the sizes *)
Definition hasWantedPieces (v : view) (d : dl) : bool := existsb (fun ip => isMissing d (fst ip) && has v (fst ip)) (dSorted d).

(** Downloader.cpp:417: the operator[] of the map makes an entry. *)
Definition withEntry (p : Z) (d : dl) : dl :=
  match aget p (dPeers d) with Some _ => d | None => setPeers (aset p noInfo (dPeers d)) d end.

(** Downloader.cpp:109-127 *)
Definition removePeer (p : Z) (r : reqInfo) : reqInfo :=
  {| rPiece := rPiece r; rCounter := rCounter r; rPeers := filter (fun x => negb (x =? p)) (rPeers r); rSources := rSources r; rGroups := rGroups r |}.

(** Downloader.cpp:109-127. *)
Definition connectionClosed (p : Z) (d : dl) : dl :=
  match aget p (dPeers d) with
  | None => d
  | Some info =>
    setPeers (adel p (dPeers d))
      (setReqs (map (fun ir => (fst ir, if existsb (fun e => rIdx e =? fst ir) (cur info) then removePeer p (snd ir) else snd ir)) (dReqs d)) d)
  end.

(** Helper of [refreshSource], Downloader.cpp:231-261. *)
Inductive checkStatus := CSuccess | CMismatch | CError.

(** Downloader.cpp:231-261: one source *)
Definition refreshSource (s : checkStatus) (n : nat) (g : Z) (peers : list (Z * peerInfo)) (p : Z) : list (Z * peerInfo) :=
  match aget p peers with
  | None => peers
  | Some i =>
    match s with
    | CSuccess => aset p {| cur := cur i; asked := asked i; suspGroup := 0; suspicion := 0 |} peers
    | CMismatch =>
      let i1 := {| cur := cur i; asked := asked i; suspGroup := suspGroup i; suspicion := u32 (suspicion i + 1) |} in
      if (n =? 1)%nat || (suspicion i1 >? 2) then
        let peers1 := aset p i1 peers in
        if suspGroup i =? 0 then peers1
        else map (fun pi => (fst pi, if suspGroup (snd pi) =? suspGroup i
               then {| cur := cur (snd pi); asked := asked (snd pi); suspGroup := 0; suspicion := suspicion (snd pi) |} else snd pi)) peers1
      else aset p {| cur := cur i; asked := asked i; suspGroup := g; suspicion := suspicion i1 |} peers
    | CError => peers
    end
  end.

(** Downloader.cpp:226-262 *)
Definition refreshPieceSources (s : checkStatus) (r : reqInfo) (d : dl) : dl :=
  let g := match s with CMismatch => u32 (dGroup d + 1) | _ => dGroup d end in
  setGroup g (setPeers (fold_left (refreshSource s (length (rSources r)) g) (rSources r) (dPeers d)) d).

(** Downloader.cpp:191-224 *)
Definition pieceChecked (idx : Z) (s : checkStatus) (r : reqInfo) (d : dl) : res dl :=
  bind (match s with
        | CSuccess => Ok (setFresh (dFresh d ++ [idx]) d)
        | _ => bind (removePiece idx (dProg d)) (fun pr => Ok (setProg pr d))
        end)
    (fun d1 => Ok (refreshPieceSources s r d1)).

(** Downloader.cpp:421-478: [sorted] are the selected pieces, shuffled and sorted; [pr] is the progress with the
    selection *)
Definition refreshSelection (t : torrentInfo) (vs : Z -> view) (pr : progress) (sorted : list (Z * Z)) (d : dl) : res dl :=
  let d1 := setSorted sorted (setProg pr d) in
  let gone := map fst (filter (fun ir => negb (isMissing d1 (fst ir))) (dReqs d1)) in
  let d2 := fold_left (fun d idx => setReqs (adel idx (dReqs d)) (eraseAll idx d)) gone d1 in
  if selectedFinished pr then Ok d2
  else fold_left (fun r p => bind r (evaluateNextRequests t (vs p) p)) (map fst (dPeers d2)) (Ok d2).

(** Downloader.cpp:23-45 *)
Definition stop (d : dl) : dl :=
  setUnf (dUnf d ++ filter (fun s => negb (psSize s =? 0)) (map (fun ir => rPiece (snd ir)) (dReqs d))) (setReqs [] (setPeers [] d)).

(** Messages (390-419), closed connections, finished checks (the [k]th of those which run), a changed
    selection (421-478 after Files.cpp:145-170), sorting again (47-58), the flags of a changed selection
    before 421-478 run (Files.cpp:152-166: not under [requestsMutex]), announcing, stopping *)
Inductive devent :=
| MBlock (p : Z) (b : blockInfo)
| MUnchoke (p : Z)
| MHave (p idx : Z)
| MBitfield (p : Z)
| MClosed (p : Z)
| MChecked (k : nat) (s : checkStatus)
| MSelect (pr : progress) (sorted : list (Z * Z))
| MSort (sorted : list (Z * Z))
| MFlags (pr : progress)
| MPop
| MStop.

(** Model only: the calls and events above, in any order, as the histories of the theorems. *)
Definition dstep (t : torrentInfo) (vs : Z -> view) (d : dl) (e : devent) : res dl :=
  let message := fun (f : res dl) => if selectedFinished (dProg d) then Ok d else f in
  match e with
  | MBlock p b => message (pieceBlockReceived t (vs p) b p d)
  | MUnchoke p => message (unchokePeer t (vs p) p d)
  | MHave p idx => message (bind (wantedPiece (dProg d) idx) (fun w => if w then evaluateNextRequests t (vs p) p (withEntry p d) else Ok d))
  | MBitfield p => message (if hasWantedPieces (vs p) d then evaluateNextRequests t (vs p) p (withEntry p d) else Ok d)
  | MClosed p => Ok (connectionClosed p d)
  | MChecked k s =>
    match nth_error (dChecking d) k with
    | Some (idx, r) => pieceChecked idx s r (setChecking (firstn k (dChecking d) ++ skipn (S k) (dChecking d)) d)
    | None => Ok d
    end
  | MSelect pr sorted => refreshSelection t vs pr sorted d
  | MSort sorted => Ok (setSorted sorted d)
  | MFlags pr => Ok (setProg pr d)
  | MPop => Ok (setFresh [] (addAnnounced (dFresh d) d))
  | MStop => Ok (stop d)
  end.

(** Model only: the calls and events above, in any order, as the histories of the theorems. *)
Fixpoint drun (t : torrentInfo) (d : dl) (es : list ((Z -> view) * devent)) : res dl :=
  match es with [] => Ok d | (vs, e) :: es' => bind (dstep t vs d e) (fun d' => drun t d' es') end.

(** Downloader.h; [unf] are the unfinished pieces of the saved state (Torrent.cpp:83), [stored] what
    was stored in earlier sessions *)
Definition newDl (pr : progress) (unf : list pieceState) (stored : list blockInfo) : dl :=
  {| dPeers := []; dReqs := []; dUnf := unf; dProg := pr; dSorted := []; dFast := true; dChecking := []; dFresh := []; dGroup := 0; dSent := []; dStored := stored; dAnnounced := [] |}.
