(** The log of a metadata download: Core/MetadataDownload.cpp with its events, and Core/Api/MetadataDownloadImpl.cpp, which hands them out. What the
    events do to the download is [mstep] of MetadataModel.v. *)
From Verif Require Import Base Dec HexModel MetadataModel.

(** MetadataDownload.h:26-33 [Event]. Peers are numbers, as in MetadataModel.v, their ids are given with the text. Of Searching and End the id
    is not set, and of the others without an index it is 0 (MetadataDownload.cpp:191-196). *)
Inductive entry := ESearching | EConnected (p : Z) | EDisconnected (p : Z) | ERequest (p i : Z) | EReceive (p i : Z) | EReject (p i : Z) | EEnd.

(** MetadataDownload.cpp:179-189 [requestPiece]: what it logs *)
Definition requested (s : mdl) (p : Z) : list entry :=
  if mact s && negb (mfin s) then [ERequest p (snd (getMissingPieceIndex (mrec s)))] else [].

(** MetadataDownload.cpp:30-37: what the timer logs *)
Fixpoint retried (l : list Z) (s : mdl) : list entry :=
  match l with [] => [] | p :: l' => requested s p ++ retried l' (requestPiece s p) end.

(** MetadataDownload.cpp:14-61, 86-99, 105-177: what each call logs; the peer that is disconnected at 81-84, 150, 175 closes later ([MClosed]) *)
Definition logOf (s : mdl) (e : mevent) : list entry :=
  match e with
  | MStart => [ESearching]
  | MHandshake p sz en =>
    if negb (sz =? 0) && en then
      EConnected p :: requested {| mact := mact s; mfin := mfin s; mgot := mgot s;
                                   mrec := if mpieces (mrec s) =? 0 then minit (mrec s) sz else mrec s;
                                   mcomms := mcomms s ++ [p]; masked := masked s; minfo := minfo s |} p
    else []
  | MMessage p msg =>
    if negb (mact s) then [] else
    match msg with
    | LData piece total data =>
      EReceive p piece ::
      (if negb (zlen (mbuf (mrec s)) =? total) then []
       else match maddPiece (mrec s) data piece with
            | Ok (r, added) =>
              if mfinished r then []
              else requested {| mact := mact s; mfin := mfin s; mgot := if added then u32 (mgot s + 1) else mgot s; mrec := r;
                                mcomms := mcomms s; masked := masked s; minfo := minfo s |} p
            | UB => []
            end)
    | LReject piece => [EReject p piece]
    | _ => []
    end
  | MRetry => if mact s && negb (mfin s) then retried (mcomms s) s else []
  | MClosed p => if existsb (Z.eqb p) (mcomms s) then [EDisconnected p] else []
  | MStop => if mact s then [EEnd] else []
  end.

(** Model only: the download with its log. *)
Record logged := { dl : mdl; eventLog : list entry }.

(** MetadataDownload.cpp:191-203 [addEventLog] appends *)
Definition lstep (s : logged) (e : mevent) : res logged :=
  bind (mstep (dl s) e) (fun d => Ok {| dl := d; eventLog := eventLog s ++ logOf (dl s) e |}).

(** MetadataDownload.cpp:63-71 [getEvents] *)
Definition getEvents (s : logged) (startIndex : nat) : list entry :=
  if (length (eventLog s) <=? startIndex)%nat then [] else skipn startIndex (eventLog s).

(** MetadataDownload.cpp:73-76 [getEventsCount] *)
Definition getEventsCount (s : logged) : nat := length (eventLog s).

(** MetadataDownload.cpp:205-223 [toString]; [ids] the ids of the peers *)
Definition text (ids : Z -> list Z) (e : entry) : list Z :=
  match e with
  | EConnected p => hexToString (ids p) ++ [32; 99; 111; 110; 110; 101; 99; 116; 101; 100]
  | EDisconnected p => hexToString (ids p) ++ [32; 100; 105; 115; 99; 111; 110; 110; 101; 99; 116; 101; 100]
  | EEnd => [83; 116; 111; 112; 112; 101; 100]
  | ESearching => [83; 101; 97; 114; 99; 104; 105; 110; 103; 32; 102; 111; 114; 32; 112; 101; 101; 114; 115]
  | ERequest p i => hexToString (ids p) ++ [32; 114; 101; 113; 117; 101; 115; 116; 105; 110; 103; 32] ++ Dec.toString i
  | EReceive p i => hexToString (ids p) ++ [32; 115; 101; 110; 116; 32] ++ Dec.toString i
  | EReject p i => hexToString (ids p) ++ [32; 114; 101; 106; 101; 99; 116; 101; 100; 32; 105; 110; 100; 101; 120; 32] ++ Dec.toString i
  end.

(** MetadataDownloadImpl.cpp:9-20 [getDownloadLog]: the list of the caller after, and the count that is answered *)
Definition getDownloadLog (ids : Z -> list Z) (s : logged) (logs : list (list Z)) (logStart : nat) : list (list Z) * nat :=
  let events := getEvents s logStart in (logs ++ map (text ids) events, length events).

(** Model only: the calls of [mstep], and a caller that asks for what is new since it last asked. *)
Inductive call := CEvent (e : mevent) | CPoll.

(** Model only: the download, the texts the caller has and how many it counts. *)
Record world := { wl : logged; wTexts : list (list Z); wSeen : nat }.

(** Model only: one call *)
Definition wstep (ids : Z -> list Z) (w : world) (c : call) : res world :=
  match c with
  | CEvent e => bind (lstep (wl w) e) (fun s => Ok {| wl := s; wTexts := wTexts w; wSeen := wSeen w |})
  | CPoll => let (t, n) := getDownloadLog ids (wl w) (wTexts w) (wSeen w) in Ok {| wl := wl w; wTexts := t; wSeen := (wSeen w + n)%nat |}
  end.

(** Model only: any history *)
Fixpoint wrun (ids : Z -> list Z) (w : world) (cs : list call) : res world :=
  match cs with [] => Ok w | c :: cs' => bind (wstep ids w c) (fun w' => wrun ids w' cs') end.

(** Model only: before the first call *)
Definition noWorld : world := {| wl := {| dl := noMdl; eventLog := [] |}; wTexts := []; wSeen := 0 |}.
