(** Core/Core.cpp: the torrents of a running program. A torrent here is its hash and its tracker
    addresses; what was read of a .torrent file or a magnet link is an argument (magnet links are
    MagnetModel.v), as is whether the tracker manager takes an address (TrackerModel.v) and
    whether a torrent's state file could be loaded (StateModel.v).

    [addFile] and [addMagnet] look for the hash and add it under two separate locks: they are two
    steps, which other threads may come between. *)
From Verif Require Import Base HexModel.

(** The state of the core (Core.h:38 [torrents]) that registering changes: the torrents with their trackers,
    the names of the saved torrent list and the hashes the encryption knows. *)
Record reg := { rT : list (list Z * list (list Z)); rNames : list (list Z); rPe : list (list Z) }.
(** Core.h, the initial values of the members. *)
Definition noReg : reg := {| rT := []; rNames := []; rPe := [] |}.

(** Helper of [mergeInto], Core.cpp:174-180, 210-216. *)
Inductive rstatus := SSuccess | SMerged | SExists | SInvalid.

(** Core.cpp:233-244 [getTorrent] *)
Fixpoint getTorrent (h : list Z) (l : list (list Z * list (list Z))) : option nat :=
  match l with [] => None | t :: l' => if list_eqb (fst t) h then Some O else match getTorrent h l' with None => None | Some i => Some (S i) end end.

(** Peers.cpp 312-343 [importTrackers]: what is in the list is left, each other one the tracker
    manager takes is added; true: some were *)
Fixpoint importTrackers (accept : list Z -> bool) (urls : list (list Z)) (known : list (list Z)) : list (list Z) * bool :=
  match urls with
  | [] => (known, false)
  | u :: urls' =>
    if existsb (list_eqb u) known then importTrackers accept urls' known
    else if accept u then (fst (importTrackers accept urls' (known ++ [u])), true)
    else importTrackers accept urls' known
  end.

(** 100-109 [saveTorrentList] with Torrent.cpp 373-376 [hashString] *)
Definition namesOf (l : list (list Z * list (list Z))) : list (list Z) := map (fun t => hexToString (fst t)) l.

(** Core.cpp:174-180, 210-216 a torrent with this hash is there: [Some] what is returned *)
Definition mergeInto (accept : list Z -> bool) (h : list Z) (urls : list (list Z)) (s : reg) : option (rstatus * reg) :=
  match getTorrent h (rT s) with
  | None => None
  | Some i =>
    let t := nth i (rT s) ([], []) in
    let (known, added) := importTrackers accept urls (snd t) in
    Some (if added then SMerged else SExists, {| rT := upd i (fst t, known) (rT s); rNames := rNames s; rPe := rPe s |})
  end.

(** Core.cpp:187-194, 218-225 *)
Definition push (h : list Z) (urls : list (list Z)) (s : reg) : reg :=
  let l := rT s ++ [(h, urls)] in {| rT := l; rNames := namesOf l; rPe := rPe s ++ [h] |}.

(** Core.cpp:170-201 [addFile]. The hash of a file without a readable "info" is never set: comparing it or
    keeping it is undefined. *)
Definition addFile (accept : list Z -> bool) (hash : option (list Z)) (urls : list (list Z)) (hasPieces : bool) (s : reg) : res (rstatus * reg) :=
  match hash with
  | None => match rT s with [] => if hasPieces then UB else Ok (SInvalid, s) | _ => UB end
  | Some h =>
    match mergeInto accept h urls s with
    | Some r => Ok r
    | None => if hasPieces then Ok (SSuccess, push h urls s) else Ok (SInvalid, s)
    end
  end.

(** Core.cpp:203-231 [addMagnet] of a link's hash and trackers, if it could be read *)
Definition addMagnet (accept : list Z -> bool) (m : option (list Z * list (list Z))) (s : reg) : rstatus * reg :=
  match m with
  | None => (SInvalid, s)
  | Some (h, urls) => match mergeInto accept h urls s with Some r => r | None => (SSuccess, push h urls s) end
  end.

(** ProtocolEncryption.cpp 31-40, the listener's entry of this torrent *)
Fixpoint removeFirst (h : list Z) (l : list (list Z)) : list (list Z) :=
  match l with [] => [] | x :: l' => if list_eqb x h then l' else x :: removeFirst h l' end.

(** Core.cpp:246-275 [removeTorrent] *)
Definition removeTorrent (h : list Z) (s : reg) : rstatus * reg :=
  match getTorrent h (rT s) with
  | None => (SInvalid, s)
  | Some i => let l := firstn i (rT s) ++ skipn (S i) (rT s) in (SSuccess, {| rT := l; rNames := namesOf l; rPe := removeFirst h (rPe s) |})
  end.

(** 77-95 [init]: [loads name]: the torrent's state could be loaded, with these trackers. A name
    which is not 40 hexadecimal digits leaves the hash unset (Torrent.cpp 62 ignores the result). *)
Fixpoint initLoop (loads : list Z -> option (list (list Z))) (names : list (list Z)) (s : reg) : res reg :=
  match names with
  | [] => Ok s
  | n :: names' =>
    match loads n with
    | None => initLoop loads names' s
    | Some urls =>
      bind (decodeHexa n 20) (fun d =>
      match d with
      | None => UB
      | Some h => match getTorrent h (rT s) with
                  | Some _ => initLoop loads names' s
                  | None => initLoop loads names' {| rT := rT s ++ [(h, urls)]; rNames := rNames s; rPe := rPe s ++ [h] |}
                  end
      end)
    end
  end.
(** Also Torrent.cpp 62. *)
Definition init (loads : list Z -> option (list (list Z))) (names : list (list Z)) : res reg := initLoop loads names {| rT := []; rNames := names; rPe := [] |}.

(** Model only: the calls and events above, in any order, as the histories of the theorems. *)
Inductive rop := RAddFile (accept : list Z -> bool) (hash : list Z) (urls : list (list Z)) (hasPieces : bool)
               | RAddMagnet (accept : list Z -> bool) (m : option (list Z * list (list Z))) | RRemove (h : list Z).
(** Model only: the calls and events above, in any order, as the histories of the theorems. *)
Definition rstep (s : reg) (o : rop) : reg :=
  match o with
  | RAddFile a h u p => match addFile a (Some h) u p s with Ok r => snd r | UB => s end
  | RAddMagnet a m => snd (addMagnet a m s)
  | RRemove h => snd (removeTorrent h s)
  end.
