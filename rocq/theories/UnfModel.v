(** The pieces that were begun and are not asked for at the moment: Core/DownloadStorage.cpp:187-248 with DownloadStorage.h:70-90. Each call holds the
    mutex of the class. *)
From Verif Require Import Base LayoutModel ProgressModel DlModel LeftModel.

(** DownloadStorage.h:74-77, the calls that change something: [add] from Torrent.cpp:83 and Downloader.cpp:42, [load] from Downloader.cpp:538,
    [clear] from Files.cpp:375 *)
Inductive uop := UAdd (l : list pieceState) | ULoad (i : Z) | UClear.

(** DownloadStorage.cpp:187-203 and 232-248 ([loadUnf] of DlModel.v): what is kept, and what is handed out *)
Definition ustep (st : list pieceState) (o : uop) : list pieceState * list pieceState :=
  match o with
  | UAdd l => (st ++ l, [])
  | ULoad i => let '(p, st') := loadUnf i st in (st', [p])
  | UClear => ([], [])
  end.

(** Model only: any history *)
Fixpoint urun (ops : list uop) (st : list pieceState) : list pieceState * list pieceState :=
  match ops with [] => (st, []) | o :: ops' => let '(st1, out1) := ustep st o in let '(st2, out2) := urun ops' st1 in (st2, out1 ++ out2) end.

(** DownloadStorage.cpp:205-209 [getState], what State.cpp:42-50 writes *)
Definition getState (st : list pieceState) : list pieceState := st.

(** State.cpp:107-123: what is taken of what was written; the bytes in between are those of StateModel.v and StateFileProps.v *)
Definition readBack (l : list pieceState) : list pieceState :=
  filter (fun p => match psBlocks p with [] => false | _ => negb (psSize p =? 0) end) l.
