(** How much of a torrent is there and how much is left: the figures shown to the user and told to trackers. *)
From Verif Require Import Base LayoutModel ProgressModel Assoc DlModel.

(** DownloadStorage.cpp:209-218 [getDownloadSize] *)
Definition unfinishedSize (l : list pieceState) : Z := fold_left (fun s u => u64 (s + psSize u)) l 0.

(** Downloader.cpp:135-138 and 149-152: the loop over the requests *)
Definition requestsSize (s : Z) (l : list (Z * reqInfo)) : Z := fold_left (fun s ir => u64 (s + psSize (rPiece (snd ir)))) l s.

(** Downloader.cpp:129-141 *)
Definition getUnfinishedSelectedPiecesDownloadSize (d : dl) : Z := requestsSize 0 (dReqs d).

(** Downloader.cpp:143-155 *)
Definition getUnfinishedPiecesDownloadSize (d : dl) : Z := requestsSize (unfinishedSize (dUnf d)) (dReqs d).

(** Torrent.cpp:427-430 *)
Definition finishedBytes (t : torrentInfo) (d : dl) : Z :=
  u64 (getReceivedBytes (dProg d) (pieceSize t) (fullSize t) + getUnfinishedPiecesDownloadSize d).

(** Torrent.cpp:432-435 *)
Definition finishedSelectedBytes (t : torrentInfo) (d : dl) : Z :=
  u64 (getReceivedSelectedBytes (dProg d) (pieceSize t) (fullSize t) + getUnfinishedSelectedPiecesDownloadSize d).

(** Torrent.cpp:437-440; UdpTrackerComm.cpp:125 sends it *)
Definition dataLeft (t : torrentInfo) (d : dl) : Z := u64 (fullSize t - finishedBytes t d).

(** DownloadStorage.cpp:220-229 [getDownloadSizeMap]: 32 bits an entry *)
Definition unfinishedMap (l : list pieceState) : list (Z * Z) :=
  fold_left (fun m u => aset (psIndex u) (u32 (match aget (psIndex u) m with Some s => s | None => 0 end + psSize u)) m) l [].

(** Downloader.cpp:157-169: a piece asked for replaces the entry *)
Definition sizeMap (d : dl) : list (Z * Z) :=
  fold_left (fun m ir => aset (fst ir) (psSize (rPiece (snd ir))) m) (dReqs d) (unfinishedMap (dUnf d)).

(** Files.cpp:245-254: the pieces from [p] on, [n] of them; how many are there, and the bytes of the others *)
Fixpoint filePieces (pr : progress) (m : list (Z * Z)) (n : nat) (p received size : Z) : res (Z * Z) :=
  match n with
  | O => Ok (received, size)
  | S n' => bind (hasPiece pr p) (fun h =>
            if h : bool then filePieces pr m n' (p + 1) (u32 (received + 1)) size
            else filePieces pr m n' (p + 1) received (match aget p m with Some s => u32 (size + s) | None => size end))
  end.

(** Files.cpp:241-262 for one file: its pieces that are there, and the bytes of the others. The ratio made of them (a float
    for display) is left out. *)
Definition fileProgress (d : dl) (f : file) : res (Z * Z) :=
  filePieces (dProg d) (sizeMap d) (Z.to_nat (endPiece f - startPiece f + 1)) (startPiece f) 0 0.

(** Files.cpp:228-265 [getFilesProgress] *)
Fixpoint getFilesProgress (d : dl) (fs : list file) : res (list (Z * Z)) :=
  match fs with
  | [] => Ok []
  | f :: fs' => bind (fileProgress d f) (fun x => bind (getFilesProgress d fs') (fun l => Ok (x :: l)))
  end.
