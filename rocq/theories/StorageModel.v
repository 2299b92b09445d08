(** Model of mtTorrent/Core/Storage.cpp: where the blocks of a piece lie in the files of a torrent,
    storing and loading them, allocating files.
    The files on disk are a list beside the files of the torrent: [None] is a file which does not
    exist, [Some c] one with the bytes [c]. Opening a file which exists, seeking and writing succeed
    (disk errors are left out). Reading memory behind a block or writing behind a buffer is [UB]. *)
From Verif Require Import Base LayoutModel.

(** Api/Status.h, the ones used here *)
Inductive status := Success | E_InvalidInput | E_FileWriteError | E_FileReadError.

(** Helper of [storeFrom], Storage.cpp:112-124. *)
Definition isSuccess (s : status) : bool := match s with Success => true | _ => false end.

(** Model only: the byte at a position. *)
Definition zn (l : list Z) (i : Z) : Z := nth (Z.to_nat i) l 0.

(** seekp and write of an fstream: what lies between the end of the file and the position is 0. For [writeBlocks], Storage.cpp:364-378. *)
Definition writeAt (c : list Z) (pos : Z) (d : list Z) : list Z :=
  firstn (Z.to_nat pos) (c ++ repeat 0 (Z.to_nat pos - length c)) ++ d ++ skipn (Z.to_nat pos + length d) c.

(** read of an ifstream: the bytes up to the end of the file. For [loadOffsets], Storage.cpp:155-173. *)
Definition readAt (c : list Z) (pos n : Z) : list Z := slice (Z.to_nat pos) (Z.to_nat n) c.

(** Storage.h:70-75 *)
Record position := { dataPos : Z; dataSize : Z; fileDataPos : Z }.

(** Helper of [getFileBlockPosition], Storage.cpp:278-318. *)
Definition nowhere : position := {| dataPos := 0; dataSize := 0; fileDataPos := 0 |}.

(** Storage.cpp:278-318; [ps] is info.pieceSize *)
Definition getFileBlockPosition (ps : Z) (f : file) (index offset size : Z) : position :=
  let blockEndPos := u32 (offset + size) in
  if (startPiece f =? index) && (startPos f >? blockEndPos) then nowhere
  else
    let b :=
      if startPiece f =? index then
        if startPos f >? offset then
          let dp := u32 (startPos f - offset) in {| dataPos := dp; dataSize := u32 (size - dp); fileDataPos := 0 |}
        else {| dataPos := 0; dataSize := size; fileDataPos := u32 (offset - startPos f) |}
      else
        let p := u32 (ps - startPos f + offset) in
        {| dataPos := 0; dataSize := size;
           fileDataPos := if index >? u32 (startPiece f + 1) then u64 (p + u32 (index - startPiece f - 1) * ps) else p |} in
    if endPiece f =? index then
      if endPos f <? offset then nowhere
      else if endPos f <? blockEndPos then
        {| dataPos := dataPos b; dataSize := u32 (dataSize b - (blockEndPos - endPos f)); fileDataPos := fileDataPos b |}
      else b
    else b.

(** Storage.cpp:97-100 *)
Definition fileContainsPiece (f : file) (pieceIdx : Z) : bool := (startPiece f <=? pieceIdx) && (pieceIdx <=? endPiece f).

(** Storage.h:25-29 *)
Record blockData := { bdata : list Z; binfo : blockInfo }.

(** Storage.cpp:328-342 *)
Definition blocksInfo (ps : Z) (f : file) (blocks : list blockData) : list (blockData * position) :=
  filter (fun bp => negb (dataSize (snd bp) =? 0))
    (map (fun b => (b, getFileBlockPosition ps f (bindex (binfo b)) (bbegin (binfo b)) (blength (binfo b))))
      (filter (fun b => fileContainsPiece f (bindex (binfo b))) blocks)).

(** The bytes handed to write. For [writeBlocks], Storage.cpp:364-378. *)
Definition memory (d : list Z) (pos n : Z) : res (list Z) :=
  if pos + n <=? zlen d then Ok (slice (Z.to_nat pos) (Z.to_nat n) d) else UB.

(** Storage.cpp:364-378 *)
Fixpoint writeBlocks (ps : Z) (f : file) (existingSize : Z) (c : list Z) (l : list (blockData * position)) : res (list Z) :=
  match l with
  | [] => Ok c
  | (b, p) :: l' =>
    let index := bindex (binfo b) in
    if (existingSize =? fsize f) || (index =? startPiece f) then
      bind (memory (bdata b) (dataPos p) (dataSize p)) (fun d => writeBlocks ps f existingSize (writeAt c (fileDataPos p) d) l')
    else if index =? endPiece f then
      bind (memory (bdata b) 0 (dataSize p)) (fun d =>
        writeBlocks ps f existingSize (writeAt c (u32 (ps - startPos f + bbegin (binfo b))) d) l')
    else writeBlocks ps f existingSize c l'
  end.

(** Storage.cpp:320-381 *)
Definition storeInFile (ps : Z) (f : file) (disk : option (list Z)) (blocks : list blockData) : res (status * option (list Z)) :=
  match blocksInfo ps f blocks with
  | [] => Ok (Success, disk)
  | l => match disk with
         | None => Ok (E_FileWriteError, None)
         | Some c => bind (writeBlocks ps f (zlen c) c l) (fun c' => Ok (Success, Some c'))
         end
  end.

(** Storage.cpp:104-105: std::sort, as an insertion sort. Blocks with the same place keep their order here. *)
Definition placeLess (l r : blockData) : bool :=
  (bindex (binfo l) <? bindex (binfo r)) ||
  ((bindex (binfo l) =? bindex (binfo r)) && (bbegin (binfo l) <? bbegin (binfo r))).

(** Helper of [storePieceBlocks], Storage.cpp:102-125. *)
Fixpoint insertBlock (b : blockData) (l : list blockData) : list blockData :=
  match l with
  | [] => [b]
  | x :: l' => if placeLess x b then x :: insertBlock b l' else b :: l
  end.

(** Helper of [storePieceBlocks], Storage.cpp:102-125. *)
Fixpoint sortBlocks (l : list blockData) : list blockData :=
  match l with [] => [] | b :: l' => insertBlock b (sortBlocks l') end.

(** Storage.cpp:112-124, from the file found on *)
Fixpoint storeFrom (ps : Z) (fs : list file) (disk : list (option (list Z))) (blocks : list blockData) (lastIndex : Z) (st : status)
  : res (status * list (option (list Z))) :=
  match fs, disk with
  | f :: fs', c :: disk' =>
    if startPiece f >? lastIndex then Ok (st, disk)
    else bind (storeInFile ps f c blocks) (fun '(s, c') =>
      if isSuccess s then bind (storeFrom ps fs' disk' blocks lastIndex s) (fun '(s', d) => Ok (s', c' :: d))
      else Ok (s, c' :: disk'))
  | _, _ => Ok (st, disk)
  end.

(** Storage.cpp:110: std::lower_bound as a search from the front; the files are in the order of their pieces *)
Fixpoint storeLowerBound (ps : Z) (fs : list file) (disk : list (option (list Z))) (blocks : list blockData) (startIndex lastIndex : Z)
  : res (status * list (option (list Z))) :=
  match fs, disk with
  | f :: fs', c :: disk' =>
    if endPiece f <? startIndex then bind (storeLowerBound ps fs' disk' blocks startIndex lastIndex) (fun '(s, d) => Ok (s, c :: d))
    else storeFrom ps fs disk blocks lastIndex E_InvalidInput
  | _, _ => Ok (E_InvalidInput, disk)
  end.

(** Storage.cpp:102-125; front and back of no blocks are undefined *)
Definition storePieceBlocks (t : torrentInfo) (disk : list (option (list Z))) (blocks : list blockData)
  : res (status * list (option (list Z))) :=
  match sortBlocks blocks with
  | [] => UB
  | b :: l => storeLowerBound (pieceSize t) (files t) disk (b :: l) (bindex (binfo b)) (bindex (binfo (last l b)))
  end.

(** Storage.h:32-36 *)
Record blockOffset := { obegin : Z; osize : Z }.

(** Bytes put into a buffer. For [loadOffsets], Storage.cpp:155-173. *)
Definition fill (buffer : list Z) (pos : Z) (d : list Z) : res (list Z) :=
  if pos + zlen d <=? zlen buffer
  then Ok (firstn (Z.to_nat pos) buffer ++ d ++ skipn (Z.to_nat pos + length d) buffer) else UB.

(** Storage.cpp:155-173; a read which reaches the end of the file fails the stream, nothing more is read *)
Fixpoint loadOffsets (ps : Z) (f : file) (c : list Z) (idx : Z) (offsets : list blockOffset) (buffer : list Z) : res (list Z) :=
  match offsets with
  | [] => Ok buffer
  | o :: offsets' =>
    let p := getFileBlockPosition ps f idx (obegin o) (osize o) in
    if dataSize p >? 0 then
      let pos := if (idx =? endPiece f) && (zlen c <? fsize f) then u32 (ps - startPos f + obegin o) else fileDataPos p in
      let d := readAt c pos (dataSize p) in
      bind (fill buffer (obegin o + dataPos p) d) (fun buffer' =>
        if zlen d <? dataSize p then Ok buffer' else loadOffsets ps f c idx offsets' buffer')
    else loadOffsets ps f c idx offsets' buffer
  end.

(** Storage.cpp:148-176 *)
Definition loadFromFile (ps : Z) (f : file) (disk : option (list Z)) (idx : Z) (offsets : list blockOffset) (buffer : list Z)
  : res (status * list Z) :=
  match disk with
  | None => Ok (E_FileReadError, buffer)
  | Some c => bind (loadOffsets ps f c idx offsets buffer) (fun b => Ok (Success, b))
  end.

(** Storage.cpp:137-143 *)
Fixpoint loadFrom (ps : Z) (fs : list file) (disk : list (option (list Z))) (idx : Z) (offsets : list blockOffset) (buffer : list Z)
  : res (status * list Z) :=
  match fs, disk with
  | f :: fs', c :: disk' =>
    if fileContainsPiece f idx then
      bind (loadFromFile ps f c idx offsets buffer) (fun '(s, b) =>
        if isSuccess s then loadFrom ps fs' disk' idx offsets b else Ok (s, b))
    else Ok (Success, buffer)
  | _, _ => Ok (Success, buffer)
  end.

(** Storage.cpp:132-146 *)
Fixpoint loadLowerBound (ps : Z) (fs : list file) (disk : list (option (list Z))) (idx : Z) (offsets : list blockOffset) (buffer : list Z)
  : res (status * list Z) :=
  match fs, disk with
  | f :: fs', c :: disk' =>
    if endPiece f <? idx then loadLowerBound ps fs' disk' idx offsets buffer else loadFrom ps fs disk idx offsets buffer
  | _, _ => Ok (Success, buffer)
  end.

(** Helper of [loadPieceBlock], Storage.cpp:127-130. *)
Definition loadPieceBlocks (t : torrentInfo) (disk : list (option (list Z))) (idx : Z) (offsets : list blockOffset) (buffer : list Z)
  : res (status * list Z) := loadLowerBound (pieceSize t) (files t) disk idx offsets buffer.

(** Storage.cpp:127-130: the buffer begins at the block; here it is behind [bbegin b] bytes which are not its own *)
Definition loadPieceBlock (t : torrentInfo) (disk : list (option (list Z))) (b : blockInfo) (buffer : list Z) : res (status * list Z) :=
  bind (loadPieceBlocks t disk (bindex b) [{| obegin := bbegin b; osize := blength b |}] (repeat 0 (Z.to_nat (bbegin b)) ++ buffer))
    (fun '(s, l) => Ok (s, skipn (Z.to_nat (bbegin b)) l)).

(** Storage.cpp:502-565: the file is made [size] bytes long; there is enough space. The second argument of
    resize_file cuts the file. *)
Definition preallocate (ps : Z) (f : file) (disk : option (list Z)) (size : Z) : option (list Z) :=
  let existingSize := match disk with Some c => zlen c | None => 0 end in
  match disk with
  | Some c =>
    if existingSize =? size then disk
    else if existingSize >? size then
      if size =? fsize f then Some (firstn (Z.to_nat (fsize f)) c) else disk
    else
      let startPieceSize := u32 (ps - startPos f) in
      let endPieceSize := endPos f in
      let tempFileSize := u32 (startPieceSize + endPos f) in
      if (existingSize =? tempFileSize) && negb (endPieceSize =? 0)
      then Some (writeAt c (fsize f - 1) (readAt c startPieceSize endPieceSize))
      else if negb (size =? 0) then Some (writeAt c (size - 1) [0]) else disk
  | None => if negb (size =? 0) then Some (writeAt [] (size - 1) [0]) else Some []
  end.
