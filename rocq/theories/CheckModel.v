(** Model of the check of the stored pieces: mtTorrent/Core/Storage.cpp:383-500 and its callers in Core/Files.cpp. The disk
    is the content of every file, as in StorageModel.v. SHA-1 is an argument. One worker is modelled; the workers share only
    the progress, to which they add pieces, and the count of checked pieces. The check is not rejected meanwhile. *)
From Verif Require Import Base LayoutModel StorageModel.

(** The std::ifstream of Storage.cpp:392: whether no read failed yet, and tellg. *)
Record stream := { good : bool; pos : Z }.

(** fileIn.read: what is there of [n] bytes; a short read fails the stream, a failed stream reads nothing (used in
    Storage.cpp:415-476) *)
Definition sread (c : list Z) (s : stream) (n : Z) : list Z * stream :=
  if good s then let d := readAt c (pos s) n in (d, {| good := zlen d =? n; pos := pos s + zlen d |}) else ([], s).

(** fileIn.seekg relative to the place (Storage.cpp:435, 471), also beyond the end; at the beginning it is 417 *)
Definition sseek (s : stream) (n : Z) : stream := if good s then {| good := true; pos := pos s + n |} else s.

(** Storage.cpp:385-394: currentPieceIdx and readBuffer, the pieces added to checkState.progress (the last one first)
    and checkState.piecesChecked *)
Record check := { cur : Z; buffer : list Z; added : list Z; checked : Z }.

(** An element of a vector; behind its end it is [UB]. For [wantedChecks] and [piecesInfo], Storage.cpp:401-476. *)
Definition element {A} (l : list A) (i : Z) : res A :=
  if i <? 0 then UB else match nth_error l (Z.to_nat i) with Some a => Ok a | None => UB end.

Section Check.
(** utils/SHA.h [_SHA1] *)
Variable sha : list Z -> list Z.
(** info.pieceSize and piecesInfo, workersCount and workerIdx, wantedChecks: arguments of Storage.cpp:383 *)
Variables (ps : Z) (hashes : list (list Z)) (workers idx : Z) (wanted : list bool).

(** Storage.cpp:414, 422, 432, 441: currentPieceIdx % workersCount == workerIdx && wantedChecks[currentPieceIdx] *)
Definition mine (p : Z) : res bool := if p mod workers =? idx then element wanted p else Ok false.

(** Storage.cpp:424-427, 443-446, 466-468: the piece is added if the first [n] bytes of the buffer have its hash *)
Definition verify (p n : Z) (st : check) : res check :=
  bind (memory (buffer st) 0 n) (fun d => bind (element hashes p) (fun h =>
    Ok (if list_eqb (sha d) h then {| cur := cur st; buffer := buffer st; added := p :: added st; checked := checked st |} else st))).

(** Model only: another buffer. *)
Definition setBuffer (b : list Z) (st : check) : check := {| cur := cur st; buffer := b; added := added st; checked := checked st |}.

(** Model only: another piece, counted as checked (Storage.cpp:430 and 492). *)
Definition goTo (p : Z) (st : check) : check :=
  {| cur := p; buffer := buffer st; added := added st; checked := Z.max (checked st) p |}.

(** Storage.cpp:414-417 and 432-435: [n] bytes are read to [at_] in the buffer, or skipped *)
Definition readPiece (c : list Z) (at_ n : Z) (s : stream) (st : check) : res (stream * check) :=
  bind (mine (cur st)) (fun m =>
    if m then let '(d, s') := sread c s n in bind (fill (buffer st) at_ d) (fun b => Ok (s', setBuffer b st))
    else Ok (sseek s n, st)).

(** Storage.cpp:420-436; [fuel] is the number of pieces up to the last of the file *)
Fixpoint wholePieces (fuel : nat) (f : file) (c : list Z) (s : stream) (st : check) : res (stream * check) :=
  match fuel with
  | O => Ok (s, st)
  | S n =>
    if good s && (pos s <=? fsize f) && (cur st <=? endPiece f) then
      bind (mine (cur st)) (fun m => bind (if m then verify (cur st) ps st else Ok st) (fun st =>
        let st := goTo (u32 (cur st + 1)) st in
        bind (readPiece c 0 ps s st) (fun '(s, st) => wholePieces n f c s st)))
    else Ok (s, st)
  end.

(** Storage.cpp:409-451: a file as long as it should be *)
Definition checkWhole (isLast : bool) (f : file) (c : list Z) (st : check) : res check :=
  let readSize := u32 (ps - startPos f) in
  bind (readPiece c (startPos f) readSize {| good := true; pos := 0 |} st) (fun '(s, st) =>
    bind (wholePieces (Z.to_nat (endPiece f + 1 - cur st)) f c s st) (fun '(_, st) =>
      if (cur st =? endPiece f) && isLast then
        bind (mine (cur st)) (fun m => bind (if m then verify (cur st) (endPos f) st else Ok st) (fun st =>
          Ok {| cur := u32 (cur st + 1); buffer := buffer st; added := added st; checked := checked st |}))
      else Ok st)).

(** Storage.cpp:453-478: another length, a temporary file of only the first and last piece *)
Definition checkTemporary (f : file) (c : list Z) (st : check) : res check :=
  let startPieceSize := u32 (ps - startPos f) in
  let endPieceSize := endPos f in
  let tempFileSize := u32 (startPieceSize + endPieceSize) in
  if (startPieceSize <=? zlen c) && (zlen c <=? tempFileSize) then
    bind (mine (startPiece f)) (fun m =>
      bind (if m then let '(d, s) := sread c {| good := true; pos := 0 |} startPieceSize in
                      bind (fill (buffer st) (startPos f) d) (fun b =>
                        bind (verify (startPiece f) ps (setBuffer b st)) (fun st => Ok (s, st)))
            else Ok (sseek {| good := true; pos := 0 |} startPieceSize, st)) (fun '(s, st) =>
        if zlen c =? tempFileSize then
          bind (mine (endPiece f)) (fun m =>
            if m then bind (fill (buffer st) 0 (fst (sread c s endPieceSize))) (fun b => Ok (setBuffer b st)) else Ok st)
        else Ok st))
  else Ok st.

(** Storage.cpp:399-492 for one file; [d] is what is on the disk *)
Definition checkFile (isLast : bool) (f : file) (d : option (list Z)) (st : check) : res check :=
  bind (element wanted (startPiece f)) (fun a => bind (if a then Ok true else element wanted (endPiece f)) (fun w =>
    bind (match d with
          | Some c => if w then if zlen c =? fsize f then checkWhole isLast f c st else checkTemporary f c st else Ok st
          | None => Ok st
          end) (fun st =>
      let p := if cur st <? endPiece f then endPiece f else cur st in
      Ok (goTo (if isLast then u32 (endPiece f + 1) else p) st)))).

(** Storage.cpp:396-498: the files one after the other, while there are pieces *)
Fixpoint checkFrom (fs : list file) (disk : list (option (list Z))) (st : check) : res check :=
  match fs, disk with
  | f :: fs', d :: disk' =>
    if cur st <? zlen hashes then
      bind (checkFile (match fs' with [] => true | _ => false end) f d st) (fun st =>
        match fs' with
        | [] => Ok st
        | g :: _ => checkFrom fs' disk' {| cur := startPiece g; buffer := buffer st; added := added st; checked := checked st |}
        end)
    else Ok st
  | _, _ => Ok st
  end.

(** Storage.cpp:383-394 *)
Definition checkStoredPieces (fs : list file) (disk : list (option (list Z))) : res check :=
  checkFrom fs disk {| cur := 0; buffer := repeat 0 (Z.to_nat ps); added := []; checked := 0 |}.
End Check.
