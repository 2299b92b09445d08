(** Model of [Files::start] and [Files::checkFiles]: mtTorrent/Core/Files.cpp:33-77 and 337-396, with the times of the files
    (Storage.cpp:241-276). The disk is as in StorageModel.v, the time of a file which is not there is 0. The four workers of a check are
    those of CheckModel.v; they add their pieces in any order, each addition for itself. The unfinished pieces of the downloader
    (Files.cpp:374-375) and the alerts are left out. *)
From Verif Require Import Base LayoutModel ProgressModel StorageModel CheckModel RoomModel.

(** Files.cpp:57-58: pieces from [i] on, [n] of them, are removed *)
Fixpoint removeRange (n : nat) (i : Z) (p : progress) : res progress :=
  match n with
  | O => Ok p
  | S n' => bind (removePiece i p) (removeRange n' (i + 1))
  end.

(** Model only: how many pieces a loop from the first to the last piece of a file runs over. *)
Definition span (f : file) : nat := Z.to_nat (endPiece f + 1 - startPiece f).

(** Files.cpp:41-60 for one file of time [time]; an empty vector of wanted checks is one which was not resized yet *)
Definition scanFile (lastFileTime : Z) (f : file) (time : Z) (s : list bool * progress) : res (list bool * progress) :=
  let '(wanted, p) := s in
  bind (if lastFileTime <? time
        then markFrom (span f) (startPiece f) (match wanted with [] => repeat false (length (pieces p)) | _ => wanted end)
        else Ok wanted) (fun wanted =>
  bind (if time =? 0 then removeRange (span f) (startPiece f) p else Ok p) (fun p => Ok (wanted, p))).

(** Files.cpp:40-60 *)
Fixpoint scanFiles (lastFileTime : Z) (fs : list file) (times : list Z) (s : list bool * progress) : res (list bool * progress) :=
  match fs, times with
  | f :: fs', time :: times' => bind (scanFile lastFileTime f time s) (scanFiles lastFileTime fs' times')
  | _, _ => Ok s
  end.

(** Files.h:54, Storage.h:39, the progress, and the files with their times *)
Record filesState := { lastTime : Z; allocTime : Z; prog : progress; disk : list (option (list Z)); times : list Z }.

(** Storage.cpp:254-270 *)
Definition getLastModifiedTime (ts : list Z) : Z := fold_left (fun time fileTime => if fileTime >? time then fileTime else time) ts 0.

(** Storage.cpp:502-565: is the file written or made shorter; the first is the case in which lastAllocationTime is set *)
Definition grows (d : option (list Z)) (size : Z) : bool := match d with Some c => zlen c <? size | None => true end.
(** Also Storage.cpp:502-565, 517-524. *)
Definition shrinks (f : file) (d : option (list Z)) (size : Z) : bool := match d with Some c => (zlen c >? size) && (size =? fsize f) | None => false end.

(** The times in Storage.cpp:197-202, as the files in [allocateFrom]: at time [now] *)
Fixpoint allocTimes (fs : list file) (now available : Z) (l : list (Z * Z)) (disk : list (option (list Z))) (s : Z * list Z) : Z * list Z :=
  match l with
  | [] => s
  | (i, size) :: l' =>
    let k := Z.to_nat i in
    let d := nth k disk None in
    if refused available d size then s
    else allocTimes fs now available l' disk
      (if grows d size then now else fst s, if grows d size || shrinks (nth k fs noFile) d size then upd k now (snd s) else snd s)
  end.

(** What Files.cpp:33-77 did: a check of these pieces began, the selection is allocated or could not be *)
Inductive startOutcome := BeginCheck (wanted : list bool) | Allocated | NotAllocated.

(** Files.cpp:33-77, no check is running; [sel] is the selection, [now] the time, [available] the free space, [n] the number of pieces of
    the torrent *)
Definition startFiles (t : torrentInfo) (n : Z) (sel : list bool) (available now : Z) (s : filesState) : res (startOutcome * filesState) :=
  bind (scanFiles (lastTime s) (files t) (times s) ([], prog s)) (fun '(wanted, p) =>
  match wanted with
  | _ :: _ => Ok (BeginCheck wanted, {| lastTime := 0; allocTime := allocTime s; prog := p; disk := disk s; times := times s |})
  | [] =>
    if selectedFinished p then Ok (Allocated, {| lastTime := lastTime s; allocTime := allocTime s; prog := p; disk := disk s; times := times s |})
    else
      bind (selectedFiles t n sel) (fun l =>
        let '(ok, disk') := preallocateSelection t available l (disk s) in
        let '(at_, times') := if vEnough (validatePath (disk s) available l)
                              then allocTimes (files t) now available l (disk s) (allocTime s, times s) else (allocTime s, times s) in
        Ok (if ok then Allocated else NotAllocated,
            {| lastTime := if ok then Z.max (lastTime s) at_ else lastTime s; allocTime := at_; prog := p; disk := disk'; times := times' |}))
  end).

Section Check.
(** utils/SHA.h [_SHA1] *)
Variable sha : list Z -> list Z.

(** Files.cpp:378: WorkersCount *)
Definition WorkersCount : Z := 4.

(** The additions of one worker to the progress, Storage.cpp:427, 446, 468 *)
Definition workerAdds (t : torrentInfo) (hashes : list (list Z)) (wanted : list bool) (d : list (option (list Z))) (idx : Z) : res (list Z) :=
  bind (checkStoredPieces sha (pieceSize t) hashes WorkersCount idx wanted (files t) d) (fun st => Ok (rev (added st))).

(** Model only: pieces are added one after the other. *)
Fixpoint addPieces (l : list Z) (p : progress) : res progress :=
  match l with [] => Ok p | i :: l' => bind (addPiece i p) (addPieces l') end.

(** Files.cpp:358-396: a check which is not rejected; [order] is the order in which the workers' pieces are added *)
Definition checkFiles (wanted : list bool) (order : list Z) (s : filesState) : res filesState :=
  bind (removeReceived wanted (prog s)) (fun p => bind (addPieces order p) (fun p =>
    Ok {| lastTime := getLastModifiedTime (times s); allocTime := allocTime s; prog := p; disk := disk s; times := times s |})).
End Check.
