(** Model of a check of the files which is stopped: mtTorrent/Core/Files.cpp:79-90 [stop] and 358-396, Torrent.cpp:116-139 [save], 169-182 and
    308-351 [stop]. Progress, files and their times are those of StartModel.v. Left out: the rest of what a stop does (LifeModel.v), and two
    checks at once (CheckersModel.v). *)
From Verif Require Import Base LayoutModel ProgressModel StorageModel CheckModel RoomModel StartModel.

(** Files.cpp:358-396: a check which is rejected; [order] are the pieces the workers added, in that order, before they saw it. The time is kept
    (Files.cpp:366-367). *)
Definition stoppedCheck (wanted : list bool) (order : list Z) (s : filesState) : res filesState :=
  bind (removeReceived wanted (prog s)) (fun p => bind (addPieces order p) (fun p =>
    Ok {| lastTime := lastTime s; allocTime := allocTime s; prog := p; disk := disk s; times := times s |})).

(** Files.cpp:222-226, called by Torrent.cpp:126 *)
Definition saveTime (s : filesState) : filesState :=
  {| lastTime := getLastModifiedTime (times s); allocTime := allocTime s; prog := prog s; disk := disk s; times := times s |}.

(** Torrent.cpp:116-139 as far as the files go; [changed] is stateChanged *)
Definition saveFiles (changed : bool) (s : filesState) : filesState := if changed then saveTime s else s.

(** A start (Torrent.cpp:269-306: it sets stateChanged, 299) whose check is stopped by Torrent.cpp:308-351 after the pieces [order] were added.
    Nothing where the start begins no check. *)
Definition startThenStop (t : torrentInfo) (n : Z) (sel : list bool) (available now : Z) (order : list Z) (s : filesState) : res (option filesState) :=
  bind (startFiles t n sel available now s) (fun '(o, s1) =>
  match o with
  | BeginCheck wanted => bind (stoppedCheck wanted order s1) (fun s2 => Ok (Some (saveFiles true s2)))
  | _ => Ok None
  end).

(** Files.cpp:337-345: a check the user asks for, of all pieces, which is stopped after the pieces [order] were added; [changed] is stateChanged *)
Definition askThenStop (changed : bool) (order : list Z) (s : filesState) : res filesState :=
  bind (stoppedCheck (repeat true (length (pieces (prog s)))) order s) (fun s1 => Ok (saveFiles changed s1)).
