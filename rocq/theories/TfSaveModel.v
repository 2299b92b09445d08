(** Core/Api/InterfaceImpl.cpp:129-206 [TorrentFileMetadata::createTorrentFileData]: writing a
    .torrent file from the metadata TfModel.v reads. *)
From Verif Require Import Base Dec BencodeModel StateModel LayoutModel TfModel.

(** The literals of InterfaceImpl.cpp:137-192, as they stand there with their length. *)
Definition wAnnounce : list Z := [56;58] ++ kAnnounce.
(** InterfaceImpl.cpp:142 *)
Definition wAnnounceList : list Z := [49;51;58] ++ kAnnounceList.
(** InterfaceImpl.cpp:155 *)
Definition wCreatedBy : list Z := [49;48;58] ++ kCreatedBy.
(** InterfaceImpl.cpp:157 *)
Definition wCreated : list Z := [49;51;58] ++ kCreated.
(** InterfaceImpl.cpp:161, 199 *)
Definition wInfo : list Z := [52;58] ++ kInfo.
(** InterfaceImpl.cpp:165 *)
Definition wFiles : list Z := [53;58] ++ kFiles.
(** InterfaceImpl.cpp:170, 184 *)
Definition wLength : list Z := [54;58] ++ kLength.
(** InterfaceImpl.cpp:171 *)
Definition wPath : list Z := [52;58] ++ kPath.
(** InterfaceImpl.cpp:186 *)
Definition wName : list Z := [52;58] ++ kName.
(** InterfaceImpl.cpp:187 *)
Definition wPieceLength : list Z := [49;50;58] ++ kPieceLength.
(** InterfaceImpl.cpp:189 *)
Definition wPieces : list Z := [54;58] ++ kPieces.
(** InterfaceImpl.cpp:192 *)
Definition wPrivate : list Z := [55;58] ++ kPrivate.

(** BencodeWriter.cpp:131-137: [strlen], a text up to its first zero byte. *)
Fixpoint cstr (l : list Z) : list Z := match l with [] => [] | c :: l' => if c =? 0 then [] else c :: cstr l' end.

(** InterfaceImpl.cpp:144-149 *)
Definition saveTracker (d a : list Z) : list Z := endArray (addText (startArray d) a).

(** InterfaceImpl.cpp:167-180: size and path of a file. The loop starts behind the first part of
    the path, the torrent's name; the name of the file is not part of the path. *)
Definition saveFile (d : list Z) (f : (list Z * list (list Z)) * Z) : list Z :=
  let d := rawNumber (startMap d) wLength (snd f) in
  let d := startArray (addRawData d wPath) in
  endMap (endArray (fold_left (fun d p => addText d (cstr p)) (tl (snd (fst f))) d)).

(** The files with their sizes: [info.files]. Helper of [saveInfo], InterfaceImpl.cpp:161-195. *)
Definition sizedFiles (i : tinfo) : list ((list Z * list (list Z)) * Z) := combine (tiFiles i) (map fsize (files (tiLayout i))).

(** InterfaceImpl.cpp:161-195 *)
Definition saveInfo (d : list Z) (i : tinfo) : list Z :=
  let d := startMap (addRawData d wInfo) in
  let d :=
    match sizedFiles i with
    | [] => d
    | [f] => rawNumber d wLength (snd f)
    | fs => endArray (fold_left saveFile fs (startArray (addRawData d wFiles)))
    end in
  let d := rawText d wName (tiName i) in
  let d := rawNumber d wPieceLength (pieceSize (tiLayout i)) in
  let d := rawText d wPieces (concat (tiPieces i)) in
  let d := if tiPrivate i then rawNumber d wPrivate 1 else d in
  endMap d.

(** A torrent whose info was never filled: Interface.h:46-74. Helper of [createTorrentFileData], InterfaceImpl.cpp:129-206. *)
Definition noInfo : tinfo :=
  {| tiPieces := []; tiPrivate := false; tiName := []; tiFiles := [];
     tiLayout := {| files := []; pieceSize := 0; fullSize := 0; lastPieceIndex := 0; lastPieceSize := 0; lastPieceLastBlockIndex := 0; lastPieceLastBlockSize := 0 |} |}.

(** InterfaceImpl.cpp:129-206 *)
Definition createTorrentFileData (t : tfile) : list Z :=
  let d := startMap [] in
  let d := match tfAnnounce t with [] => d | a => rawText d wAnnounce a end in
  let d := match tfTrackers t with [] => d | l => endArray (fold_left saveTracker l (startArray (addRawData d wAnnounceList))) end in
  let d := match tfCreatedBy t with [] => d | b => rawText d wCreatedBy b end in
  let d := if tfCreated t =? 0 then d else rawNumber d wCreated (tfCreated t) in
  let d := match tfData t with
           | [] => saveInfo d (match tfInfo t with Some i => i | None => noInfo end)
           | b => addRawData (addRawData d wInfo) b
           end in
  endMap d.

(** Peers.cpp:312-343 [importTrackers]: the trackers of [urls] not yet listed for which the tracker
    manager says [ok] are added; [None]: nothing was added and no file is written. *)
Definition importTrackers (ok : list Z -> bool) (urls : list (list Z)) (t : tfile) : tfile * option (list Z) :=
  let '(l, added) := fold_left (fun (acc : list (list Z) * bool) u =>
    if existsb (list_eqb u) (fst acc) then acc else if ok u then (fst acc ++ [u], true) else acc) urls (tfTrackers t, false) in
  if added then
    let a := match tfAnnounce t with [] => nth 0 l [] | a => a end in
    let t' := {| tfAnnounce := a; tfTrackers := l; tfInfo := tfInfo t; tfCreatedBy := tfCreatedBy t; tfCreated := tfCreated t; tfHash := tfHash t; tfData := tfData t |} in
    (t', Some (createTorrentFileData t'))
  else (t, None).
