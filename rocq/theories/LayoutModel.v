(** Model of the file and block layout of a torrent: mtTorrent/utils/TorrentFileParser.cpp and
    mtTorrent/Core/Api/InterfaceImpl.cpp. The sizes and counts are those read from the info
    dictionary (names, paths and hashes are left out). A division by zero is [UB]. *)
From Verif Require Import Base.

(** Interface.h:13 *)
Definition BlockMaxSize : Z := 16384.

(** Api/Interface.h:22-32 *)
Record file := { fsize : Z; startPiece : Z; startPos : Z; endPiece : Z; endPos : Z }.

(** TorrentFileParser.cpp:25-33 *)
Definition getPieceIndex (pos pieceSize : Z) (stop : bool) : Z :=
  let idx := u32 (pos / pieceSize) in
  if stop && (pos mod pieceSize =? 0) then u32 (idx - 1) else idx.

(** TorrentFileParser.cpp:210-217: the file of [size] bytes after [sizeSum] bytes of others *)
Definition makeFile (pieceSize sizeSum size : Z) : file :=
  let startId := getPieceIndex sizeSum pieceSize false in
  let startP := sizeSum mod pieceSize in
  let sizeSum := u64 (sizeSum + size) in
  let endId := if negb (size =? 0) then getPieceIndex sizeSum pieceSize true else startId in
  let endP := sizeSum mod pieceSize in
  {| fsize := size; startPiece := startId; startPos := u32 startP; endPiece := endId; endPos := u32 endP |}.

(** TorrentFileParser.cpp:189-219 *)
Fixpoint makeFiles (pieceSize sizeSum : Z) (sizes : list Z) : list file * Z :=
  match sizes with
  | [] => ([], sizeSum)
  | size :: rest =>
    let '(files, total) := makeFiles pieceSize (u64 (sizeSum + size)) rest in
    (makeFile pieceSize sizeSum size :: files, total)
  end.

(** TorrentFileParser.cpp:225-228: a torrent of one file; [pieces] is the number of hashes *)
Definition singleFile (pieceSize size pieces : Z) : file :=
  let endP := size mod pieceSize in
  {| fsize := size; startPiece := 0; startPos := 0; endPiece := u32 (pieces - 1);
     endPos := u32 (if negb (endP =? 0) then endP else pieceSize) |}.

(** Api/Interface.h:46-66; the hashes, names and paths are left out *)
Record torrentInfo := { files : list file; pieceSize : Z; fullSize : Z; lastPieceIndex : Z; lastPieceSize : Z;
  lastPieceLastBlockIndex : Z; lastPieceLastBlockSize : Z }.

(** Helper of [makeInfo], TorrentFileParser.cpp:233-239. *)
Definition noFile : file := {| fsize := 0; startPiece := 0; startPos := 0; endPiece := 0; endPos := 0 |}.

(** TorrentFileParser.cpp:233-239 *)
Definition makeInfo (ps full : Z) (fs : list file) : torrentInfo :=
  match fs with
  | [] => {| files := fs; pieceSize := ps; fullSize := full; lastPieceIndex := 0; lastPieceSize := 0;
             lastPieceLastBlockIndex := 0; lastPieceLastBlockSize := 0 |}
  | _ =>
    let lastF := last fs noFile in
    let lps := endPos lastF in
    let lb := u32 (lps - 1) / BlockMaxSize in
    {| files := fs; pieceSize := ps; fullSize := full; lastPieceIndex := endPiece lastF; lastPieceSize := lps;
       lastPieceLastBlockIndex := lb; lastPieceLastBlockSize := u32 (lps - u32 (lb * BlockMaxSize)) |}
  end.

(** TorrentFileParser.cpp:181-222: the info dictionary has a list of files. With a piece size of 0 the first file
    divides by zero. *)
Definition parseMultiFile (ps : Z) (sizes : list Z) : res torrentInfo :=
  if (ps =? 0) && negb (match sizes with [] => true | _ => false end) then UB
  else let '(fs, total) := makeFiles ps 0 sizes in Ok (makeInfo ps total fs).

(** TorrentFileParser.cpp:223-231: it has a length *)
Definition parseSingleFile (ps size pieces : Z) : res torrentInfo :=
  if ps =? 0 then UB else Ok (makeInfo ps size [singleFile ps size pieces]).

(** Api/Interface.h:39-44 *)
Record blockInfo := { bindex : Z; bbegin : Z; blength : Z }.

(** InterfaceImpl.cpp:55-66 *)
Definition getPieceBlockInfo (t : torrentInfo) (idx blockIdx : Z) : blockInfo :=
  let begin := u32 (blockIdx * BlockMaxSize) in
  {| bindex := idx; bbegin := begin;
     blength := if (idx =? lastPieceIndex t) && (blockIdx =? lastPieceLastBlockIndex t) then lastPieceLastBlockSize t
                else Z.min BlockMaxSize (u32 (pieceSize t - begin)) |}.

(** InterfaceImpl.cpp:68-71 *)
Definition getPieceSize (t : torrentInfo) (idx : Z) : Z :=
  if idx =? lastPieceIndex t then lastPieceSize t else pieceSize t.

(** InterfaceImpl.cpp:73-76 *)
Definition getPieceBlocksCount (t : torrentInfo) (idx : Z) : Z :=
  if idx =? lastPieceIndex t then u32 (lastPieceLastBlockIndex t + 1)
  else u32 (pieceSize t + BlockMaxSize - 1) / BlockMaxSize.

(** InterfaceImpl.cpp:36-53 *)
Definition makePieceBlocksInfo (t : torrentInfo) (idx : Z) : list blockInfo :=
  map (fun i => getPieceBlockInfo t idx (Z.of_nat i)) (seq 0 (Z.to_nat (getPieceBlocksCount t idx))).
