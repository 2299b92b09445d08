(** Core/Torrent.cpp: starting and stopping a torrent, and what of it is remembered in the state
    file. One thread: [stateMutex] is held by every call here. The state file is only its
    "started" entry (the rest is StateModel.v), the .torrent file only whether it is there. *)
From Verif Require Import Base.

(** What [Files::start] (Core/Files.cpp 33-77) did: failed (a file could not be allocated), went
    well, or began a check of changed files. *)
Inductive fsOut := FsFail | FsOk | FsCheck.

(** [utmDl]: MetadataDownload's [state.active] and [state.finished]. For [saveTor], Torrent.cpp:116-139. *)
Record utm := { uActive : bool; uFinished : bool }.

(** [lastError != Success], [loadedState == Full], the name is not empty, the saved files. For [saveTor], Torrent.cpp:116-139. *)
Record tor := { tStarted : bool; tChanged : bool; tErr : bool; tLoaded : bool; tUtm : option utm; tChecking : bool; tNamed : bool; tSaved : option bool; tFile : bool }.

(** Helper of [stopTor], Torrent.cpp:308-351, 79-90, 45-61. *)
Definition withStarted (b : bool) (s : tor) : tor := {| tStarted := b; tChanged := tChanged s; tErr := tErr s; tLoaded := tLoaded s; tUtm := tUtm s; tChecking := tChecking s; tNamed := tNamed s; tSaved := tSaved s; tFile := tFile s |}.
(** Helper of [saveTor], Torrent.cpp:116-139. *)
Definition withChanged (b : bool) (s : tor) : tor := {| tStarted := tStarted s; tChanged := b; tErr := tErr s; tLoaded := tLoaded s; tUtm := tUtm s; tChecking := tChecking s; tNamed := tNamed s; tSaved := tSaved s; tFile := tFile s |}.
(** Helper of [stopTor], Torrent.cpp:308-351, 79-90, 45-61. *)
Definition withErr (b : bool) (s : tor) : tor := {| tStarted := tStarted s; tChanged := tChanged s; tErr := b; tLoaded := tLoaded s; tUtm := tUtm s; tChecking := tChecking s; tNamed := tNamed s; tSaved := tSaved s; tFile := tFile s |}.
(** Helper of [loadInfo], Torrent.cpp:91-114. *)
Definition withLoaded (b : bool) (s : tor) : tor := {| tStarted := tStarted s; tChanged := tChanged s; tErr := tErr s; tLoaded := b; tUtm := tUtm s; tChecking := tChecking s; tNamed := tNamed s; tSaved := tSaved s; tFile := tFile s |}.
(** Helper of [stopTor], Torrent.cpp:308-351, 79-90, 45-61. *)
Definition withUtm (u : option utm) (s : tor) : tor := {| tStarted := tStarted s; tChanged := tChanged s; tErr := tErr s; tLoaded := tLoaded s; tUtm := u; tChecking := tChecking s; tNamed := tNamed s; tSaved := tSaved s; tFile := tFile s |}.
(** Helper of [stopTor], Torrent.cpp:308-351, 79-90, 45-61. *)
Definition withChecking (b : bool) (s : tor) : tor := {| tStarted := tStarted s; tChanged := tChanged s; tErr := tErr s; tLoaded := tLoaded s; tUtm := tUtm s; tChecking := b; tNamed := tNamed s; tSaved := tSaved s; tFile := tFile s |}.
(** Helper of [saveTor], Torrent.cpp:116-139. *)
Definition withSaved (o : option bool) (s : tor) : tor := {| tStarted := tStarted s; tChanged := tChanged s; tErr := tErr s; tLoaded := tLoaded s; tUtm := tUtm s; tChecking := tChecking s; tNamed := tNamed s; tSaved := o; tFile := tFile s |}.
(** Helper of [lstep], Core.cpp 111-131 and 77-95. *)
Definition withInfo (s : tor) : tor := {| tStarted := tStarted s; tChanged := tChanged s; tErr := tErr s; tLoaded := true; tUtm := tUtm s; tChecking := tChecking s; tNamed := true; tSaved := tSaved s; tFile := true |}.

(** Torrent.cpp:116-139 [save] *)
Definition saveTor (s : tor) : tor := if tChanged s then withChanged (tStarted s) (withSaved (Some (tStarted s)) s) else s.

(** Helper of [stopTor], Torrent.cpp:308-351, 79-90, 45-61. *)
Inductive reason := RDeinit | RManual | RInternal.

(** Torrent.cpp:308-351 [stop], with Files::stop (79-90) and MetadataDownload::stop (45-61) *)
Definition stopTor (r : reason) (s : tor) : tor :=
  let s := withChecking false s in
  let s := withUtm (match tUtm s with None => None | Some u => Some {| uActive := false; uFinished := uFinished u |} end) s in
  if tStarted s then
    let s := match r with RManual => withStarted false s | _ => s end in
    let s := withStarted false (saveTor s) in
    match r with RInternal => s | _ => withErr false s end
  else saveTor s.

(** Torrent.cpp:91-114 [loadFileInfo] *)
Definition loadInfo (s : tor) : bool * tor :=
  if tLoaded s then (true, s)
  else match tUtm s with
       | Some _ => (false, s)
       | None => let s := withLoaded true s in if tFile s then (true, s) else (false, withErr true s)
       end.

(** Torrent.cpp:270-306 [start]; [o]: what Files::start does if it is reached (it returns at once during a
    check, 35-36) *)
Definition startTor (o : fsOut) (s : tor) : tor :=
  match tUtm s with
  | Some u =>
    if negb (tChecking s) && uActive u then withStarted true s
    else if negb (uFinished u) then withUtm (Some {| uActive := true; uFinished := false |}) s
    else
      let '(ok, s) := loadInfo s in
      let s := if ok then withErr (match (if tChecking s then FsOk else o) with FsFail => true | _ => false end) s else s in
      let s := if ok && negb (tChecking s) then match o with FsCheck => withChecking true s | _ => s end else s in
      if tErr s then stopTor RInternal s else withChanged true (withStarted true s)
  | None =>
    let '(ok, s) := loadInfo s in
    let s := if ok then withErr (match (if tChecking s then FsOk else o) with FsFail => true | _ => false end) s else s in
    let s := if ok && negb (tChecking s) then match o with FsCheck => withChecking true s | _ => s end else s in
    if tErr s then stopTor RInternal s else withChanged true (withStarted true s)
  end.

(** 21-35 [fromFile] and Core.cpp 195; [named]: the torrent has a name *)
Definition newFile (named : bool) : tor := {| tStarted := false; tChanged := true; tErr := false; tLoaded := true; tUtm := None; tChecking := false; tNamed := named; tSaved := None; tFile := true |}.
(** Torrent.cpp:37-49 [fromMagnetLink] and 207-212 *)
Definition newMagnet (named : bool) : tor :=
  {| tStarted := false; tChanged := false; tErr := false; tLoaded := false; tUtm := Some {| uActive := true; uFinished := false |}; tChecking := false; tNamed := named; tSaved := None; tFile := false |}.

(** Torrent.cpp:51-89 [fromSavedState]; [None]: the torrent is gone *)
Definition restore (o : fsOut) (s : tor) : option tor :=
  match tSaved s with
  | None => None
  | Some b =>
    let t := {| tStarted := false; tChanged := false; tErr := false; tLoaded := false; tUtm := None; tChecking := false; tNamed := tNamed s; tSaved := Some b; tFile := tFile s |} in
    let go := fun t => Some (if b then startTor o t else t) in
    if tNamed t then go t
    else let '(ok, t) := loadInfo t in if ok then go (withChanged true t) else None
  end.

(** What happens to a torrent. For [lstep], Core.cpp 111-131 and 77-95. *)
Inductive lop :=
| LStart (o : fsOut)                    (* the user starts it *)
| LStop                                 (* the user stops it *)
| LError                                (* 216-223 of Downloader.cpp, Files.cpp 157-163 and 183-189: stopped by a storage error *)
| LMetadata (o : fsOut)                 (* 214-235: the metadata is complete; the posted start is run *)
| LCheck                                (* Files.cpp 337-354 with 160-167: a check is asked for *)
| LChecked (rejected : bool) (o : fsOut)(* Files.cpp 358-370 with 169-182: a check ends *)
| LSelect                               (* 184-192 *)
| LRestart (o : fsOut).                 (* Core.cpp 111-131 and 77-95: shut down and started again *)

Definition lstep (s : tor) (e : lop) : option tor :=
  match e with
  | LStart o => Some (startTor o s)
  | LStop => Some (stopTor RManual s)
  | LError => Some (stopTor RInternal (withErr true s))
  | LMetadata o =>
    match tUtm s with
    | Some u =>
      if uActive u && negb (uFinished u) then
        let s := withChanged true (withInfo (withUtm (Some {| uActive := false; uFinished := true |}) s)) in
        Some (if tStarted s then startTor o s else s)
      else Some s
    | None => Some s
    end
  | LCheck => Some (if tChecking s then s else withErr false (withChecking true s))
  | LChecked rejected o =>
    let s := withChecking false s in
    Some (if rejected then s else let s := withChanged true s in if tStarted s then startTor o s else stopTor RManual s)
  | LSelect => Some (withChanged true s)
  | LRestart o => restore o (stopTor RDeinit s)
  end.

(** Model only: the calls and events above, in any order, as the histories of the theorems. *)
Fixpoint lrun (s : tor) (l : list lop) : option tor :=
  match l with [] => Some s | e :: l' => match lstep s e with None => None | Some s' => lrun s' l' end end.
