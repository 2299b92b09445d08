(** Model of the file selection in mtTorrent/Core/Files.cpp. The selection is a list beside the
    files of the torrent (the priorities are left out), of the same length (11-21). Allocation and
    the refresh of the downloader which follow in selectFiles and selectFile are left out. *)
From Verif Require Import Base LayoutModel ProgressModel.

(** Files.cpp:106-115, from file [n - 1] down: does a selected file share the first piece? *)
Fixpoint keepStart (fs : list file) (sel : list bool) (startPieceIndex : Z) (n : nat) : bool :=
  match n with
  | O => false
  | S i => if endPiece (nth i fs noFile) =? startPieceIndex
           then if nth i sel false then true else keepStart fs sel startPieceIndex i
           else false
  end.

(** Files.cpp:119-132, at file [n - 1]. The index goes down (131); below 0 it wraps to 2^32 - 1, which is not
    less than the number of files. *)
Fixpoint keepEnd (fs : list file) (sel : list bool) (endPieceIndex : Z) (n : nat) : bool :=
  match n with
  | O => false
  | S i => if startPiece (nth i fs noFile) =? endPieceIndex
           then if nth i sel false then true else keepEnd fs sel endPieceIndex i
           else false
  end.

(** Files.cpp:92-138; an index behind the selection is [UB] *)
Definition selectOneFile (fs : list file) (idx : nat) (selected : bool) (sp : list bool * progress) : res (list bool * progress) :=
  let '(sel, p) := sp in
  match nth_error sel idx with
  | None => UB
  | Some old =>
    if Bool.eqb old selected then Ok (sel, p)
    else
      let sel' := upd idx selected sel in
      let f := nth idx fs noFile in
      if selected then bind (select (startPiece f) (endPiece f) true p) (fun q => Ok (sel', q))
      else
        let start := if keepStart fs sel' (startPiece f) idx then u32 (startPiece f + 1) else startPiece f in
        let '(start, stop) :=
          if (Nat.ltb (idx + 1) (length fs)) && keepEnd fs sel' (endPiece f) (idx + 2)
          then if endPiece f =? 0 then (u32 (start + 1), endPiece f) else (start, endPiece f - 1)
          else (start, endPiece f) in
        bind (select start stop false p) (fun q => Ok (sel', q))
  end.

(** Files.cpp:11-21: everything selected; [n] is the number of pieces *)
Definition initialize (fs : list file) (n : Z) : list bool * progress :=
  (repeat true (length fs), init n emptyProgress).

(** Files.cpp:152-153, from file [i] on *)
Fixpoint selectFrom_ (fs : list file) (i : nat) (s : list bool) (sp : list bool * progress) : res (list bool * progress) :=
  match s with
  | [] => Ok sp
  | b :: s' => bind (selectOneFile fs i b sp) (selectFrom_ fs (S i) s')
  end.

(** Files.cpp:145-153; [None] is E_InvalidInput *)
Definition selectFiles (fs : list file) (s : list bool) (sp : list bool * progress) : res (option (list bool * progress)) :=
  if Nat.ltb (length fs) (length s) then Ok None else bind (selectFrom_ fs 0 s sp) (fun r => Ok (Some r)).

(** Files.cpp:172-179 *)
Definition selectFile (fs : list file) (index : nat) (selected : bool) (sp : list bool * progress) : res (option (list bool * progress)) :=
  if Nat.leb (length fs) index then Ok None else bind (selectOneFile fs index selected sp) (fun r => Ok (Some r)).
