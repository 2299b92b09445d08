(** utils/TorrentFileParser.cpp: reading a .torrent file. The layout of the files over pieces is
    LayoutModel.v, the parser BencodeModel.v, SHA-1 ShaModel.v. *)
From Verif Require Import Base Dec BencodeModel StateModel LayoutModel ShaModel.

(** Api/Interface.h 46-74 [TorrentInfo] without the hash and the bytes: the piece hashes, the
    name, name and path of each file, and the layout *)
Record tinfo := { tiPieces : list (list Z); tiPrivate : bool; tiName : list Z; tiFiles : list (list Z * list (list Z)); tiLayout : torrentInfo }.
(** [TorrentFileMetadata]: the hash is [None] if nothing was written to it. For [parseFile], TorrentFileParser.cpp:11-23, 35-77. *)
Record tfile := { tfAnnounce : list Z; tfTrackers : list (list Z); tfInfo : option tinfo; tfCreatedBy : list Z; tfCreated : Z;
                  tfHash : option (list Z); tfData : list Z }.

(** Helper of [findInfo], TorrentFileParser.cpp:89-126. *)
Definition kInfo : list Z := [105;110;102;111].
(** Helper of [parseTorrentInfo], TorrentFileParser.cpp:159-242. *)
Definition kPieces : list Z := [112;105;101;99;101;115].
(** Helper of [loadTrackers], TorrentFileParser.cpp:41-67. *)
Definition kAnnounce : list Z := [97;110;110;111;117;110;99;101].
(** Helper of [loadTrackers], TorrentFileParser.cpp:41-67. *)
Definition kAnnounceList : list Z := [97;110;110;111;117;110;99;101;45;108;105;115;116].
(** Helper of [parseFile], TorrentFileParser.cpp:11-23, 35-77. *)
Definition kCreatedBy : list Z := (* created by *) [99;114;101;97;116;101;100;32;98;121].
(** Helper of [parseFile], TorrentFileParser.cpp:11-23, 35-77. *)
Definition kCreated : list Z := (* creation date *) [99;114;101;97;116;105;111;110;32;100;97;116;101].
(** Helper of [parseTorrentInfo], TorrentFileParser.cpp:159-242. *)
Definition kPieceLength : list Z := (* piece length *) [112;105;101;99;101;32;108;101;110;103;116;104].
(** Helper of [parseTorrentInfo], TorrentFileParser.cpp:159-242. *)
Definition kPrivate : list Z := [112;114;105;118;97;116;101].
(** Helper of [parseTorrentInfo], TorrentFileParser.cpp:159-242. *)
Definition kFiles : list Z := [102;105;108;101;115].
(** Helper of [parseTorrentInfo], TorrentFileParser.cpp:159-242. *)
Definition kName : list Z := [110;97;109;101].
(** Helper of [loadFile], TorrentFileParser.cpp:191-210, 217. *)
Definition kPath : list Z := [112;97;116;104].
(** Helper of [loadFile], TorrentFileParser.cpp:191-210, 217. *)
Definition kLength : list Z := [108;101;110;103;116;104].

(** TorrentFileParser.cpp:172-176: groups of 20 bytes; the size is a multiple of 20 *)
Fixpoint hashesOf (n : nat) (l : list Z) : list (list Z) :=
  match n with O => [] | S n' => firstn 20 l :: hashesOf n' (skipn 20 l) end.

Section Read.
Variable fuel : nat.
Variable m : list Z.
Variable objs : list obj.

(** BencodeParser.cpp 282-285 [getTxt] of an object *)
Definition ownTxt (j : nat) : out (list Z) :=
  if typeEqb (otyp (nth j objs noObj)) TText then itemText m (nth j objs noObj) else Val [].

(** TorrentFileParser.cpp:198-207: of an element of a path, whether it is the last one and its text *)
Definition pathItem (j : nat) : out (bool * list Z) := obind (ownTxt j) (fun t => Val (onext (nth j objs noObj) =? 0, t)).

(** TorrentFileParser.cpp:191-210, 217: name, path and size of a file; [nm] is the name of the torrent *)
Definition loadFile (nm : list Z) (j : nat) : out (list Z * list (list Z) * Z) :=
  obind (getObject fuel m objs j kPath TList) (fun o =>
  obind (match o with
         | None => Val []
         | Some k => obind (itemsFrom objs fuel false (getFirstItem objs k)) (fun l => omap pathItem l)
         end) (fun items =>
  obind (bigOf fuel m objs j kLength) (fun size =>
  Val (last (map snd (filter fst items)) [], nm :: map snd (filter (fun x => negb (fst x)) items), size)))).

(** Helper of [parseTorrentInfo], TorrentFileParser.cpp:159-242. *)
Definition lift {A} (r : res A) : out A := match r with Ok a => Val a | UB => Undef end.

(** TorrentFileParser.cpp:159-242 [parseTorrentInfo] of an object *)
Definition parseTorrentInfo (i : nat) : out tinfo :=
  obind (intOf fuel m objs i kPieceLength) (fun pl =>
  obind (getObject fuel m objs i kPieces TText) (fun op =>
  obind (match op with
         | None => Val []
         | Some j => obind (itemText m (nth j objs noObj)) (fun t => Val (if zlen t mod 20 =? 0 then hashesOf (Z.to_nat (zlen t / 20)) t else []))
         end) (fun pieces =>
  obind (intOf fuel m objs i kPrivate) (fun priv =>
  obind (getObject fuel m objs i kFiles TList) (fun ofiles =>
  obind (txtOf fuel m objs i kName) (fun nm =>
  match ofiles with
  | Some k =>
    obind (itemsFrom objs fuel false (getFirstItem objs k)) (fun l =>
    obind (omap (loadFile nm) l) (fun fs =>
    obind (lift (parseMultiFile (u32 pl) (map snd fs))) (fun lay =>
    Val {| tiPieces := pieces; tiPrivate := negb (priv =? 0); tiName := nm; tiFiles := map fst fs; tiLayout := lay |})))
  | None =>
    obind (bigOf fuel m objs i kLength) (fun size =>
    obind (lift (parseSingleFile (u32 pl) size (zlen pieces))) (fun lay =>
    Val {| tiPieces := pieces; tiPrivate := negb (priv =? 0); tiName := nm; tiFiles := [(nm, [])]; tiLayout := lay |}))
  end)))))).

(** TorrentFileParser.cpp:44-65: the texts of the lists in a list *)
Definition trackerTier (j : nat) : out (list (list Z)) :=
  if typeEqb (otyp (nth j objs noObj)) TList then
    obind (itemsFrom objs fuel false (getFirstItem objs j)) (fun l =>
    obind (omap (fun k => if typeEqb (otyp (nth k objs noObj)) TText then obind (itemText m (nth k objs noObj)) (fun t => Val [t]) else Val []) l) (fun ts => Val (concat ts)))
  else Val [].

(** TorrentFileParser.cpp:41-67 *)
Definition loadTrackers (i : nat) : out (list Z * list (list Z)) :=
  obind (txtOf fuel m objs i kAnnounce) (fun a =>
  obind (getObject fuel m objs i kAnnounceList TList) (fun o =>
  match o with
  | Some j => obind (itemsFrom objs fuel false (getFirstItem objs j)) (fun l => obind (omap trackerTier l) (fun ts => Val (a, concat ts)))
  | None => Val (a, match a with [] => [] | _ => [a] end)
  end)).

(** TorrentFileParser.cpp:89-126: the first text "info" met among the items of the first object: in a dictionary these
    are its keys and its values *)
Fixpoint findInfo (f : nat) (it : option nat) : out (option nat) :=
  match it with
  | None => Val None
  | Some k =>
    match f with
    | O => NoEnd
    | S f' =>
      if Nat.ltb k (length objs) then
        obind (if typeEqb (otyp (nth k objs noObj)) TText then itemEquals m (nth k objs noObj) kInfo else Val false) (fun e =>
        if e : bool then Val (Some k) else findInfo f' (getNextSibling objs k))
      else Undef
    end
  end.

(** TorrentFileParser.cpp:91-120: where the info dictionary starts and ends; [bodyEnd] is the end of what was parsed.
    The byte before the rest of the dictionary is overwritten with 'd' while the rest is parsed. *)
Definition infoRange (bodyEnd : Z) (key : nat) : out (option (Z * Z)) :=
  let infoStart := odata (nth key objs noObj) + 4 in
  match getNextSibling objs key with
  | None => Undef
  | Some d =>
    if typeEqb (otyp (nth d objs noObj)) TDict then
      obind (getObject fuel m objs d kPieces TText) (fun op =>
      match op with
      | None => Val None
      | Some j =>
        let infoEnd := odata (nth j objs noObj) + osize (nth j objs noObj) in
        obind (rdAt m infoEnd) (fun c =>
        if negb (c =? 101) then
          if infoEnd - 1 <? 0 then Undef else
          obind (parse fuel (skipn (Z.to_nat (infoEnd - 1)) (upd (Z.to_nat (infoEnd - 1)) 100 m)) (bodyEnd - (infoEnd - 1))) (fun r =>
          Val (Some (infoStart, if pok r then infoEnd - 1 + pend r else infoEnd)))
        else Val (Some (infoStart, infoEnd + 1)))
      end)
    else Val None
  end.

(** TorrentFileParser.cpp:79-138 [generateInfoHash]: the bytes kept and hashed *)
Definition infoBytes (bodyEnd : Z) : out (option (list Z)) :=
  obind (findInfo fuel (getFirstItem objs 0)) (fun k =>
  match k with
  | None => Val None
  | Some key =>
    obind (infoRange bodyEnd key) (fun r =>
    match r with
    | None => Val None
    | Some (a, b) => if (0 <=? a) && (a <=? b) && (b <=? zlen m) then Val (Some (slice (Z.to_nat a) (Z.to_nat (b - a)) m)) else Undef
    end)
  end).

End Read.

(** TorrentFileParser.cpp:11-23 [parse] with 35-77 [loadTorrentFileInfo]; [m] is the memory from the file's bytes on *)
Definition parseFile (fuel : nat) (m : list Z) (len : Z) : out tfile :=
  obind (parse fuel m len) (fun r =>
  let objs := pobjs r in
  if negb (pok r) then Val {| tfAnnounce := []; tfTrackers := []; tfInfo := None; tfCreatedBy := []; tfCreated := 0; tfHash := None; tfData := [] |}
  else
    obind (if typeEqb (otyp (nth 0 objs noObj)) TDict then
             obind (loadTrackers fuel m objs 0) (fun at' =>
             obind (getObject fuel m objs 0 kInfo TDict) (fun oi =>
             obind (match oi with None => Val None | Some i => obind (parseTorrentInfo fuel m objs i) (fun x => Val (Some x)) end) (fun info =>
             obind (txtOf fuel m objs 0 kCreatedBy) (fun by' =>
             obind (bigOf fuel m objs 0 kCreated) (fun date => Val (at', info, by', date))))))
           else Val (([], []), None, [], 0)) (fun x =>
    let '(at', info, by', date) := x in
    obind (infoBytes fuel m objs (pend r)) (fun ib =>
    Val {| tfAnnounce := fst at'; tfTrackers := snd at'; tfInfo := info; tfCreatedBy := by'; tfCreated := date;
           tfHash := match ib with Some l => Some (SHA1 l) | None => None end; tfData := match ib with Some l => l | None => [] end |}))).
