(** Model of the write cache, mtTorrent/Core/DownloadStorage.cpp and .h. The threads of the pool and
    the thread which stores blocks are interleaved: everything done under [cacheMutex] is one step,
    writing a group to the files, which is done without it, is a step of its own. (In between,
    storePieceBlocks sorts the blocks of the group in place, without the mutex, while readBlocks may
    look at them: a data race which is left out here.) The retries for locked files are left out.
    Memory outside of a buffer is [UB]. *)
From Verif Require Import Base LayoutModel StorageModel ShaModel.

(** Storage.h:25-29; the data of a block is a place in the buffer of its group *)
Record cblock := { cpos : Z; cinfo : blockInfo }.

(** DownloadStorage.h:25-33; [gid] stands for the iterator which names the group *)
Record group := { gid : Z; gbuf : list Z; gpos : Z; gblocks : list cblock }.

(** DownloadStorage.h:9-42: the groups; the flushes posted to the pool and not begun; those which
    have written their group and not cleared it; the files *)
Record cache := { groups : list group; nextId : Z; posted : list Z; written : list Z; cdisk : list (option (list Z)) }.

(** DownloadStorage.h, the initial values of the members. *)
Definition empty_cache (disk : list (option (list Z))) : cache :=
  {| groups := []; nextId := 0; posted := []; written := []; cdisk := disk |}.

(** DownloadStorage.cpp:182-185, with size_t *)
Definition full (g : group) : bool := u64 (zlen (gbuf g) - gpos g) <? BlockMaxSize.

(** DownloadStorage.cpp:81-85 and 172-180: the first group with room *)
Fixpoint place (b : blockData) (gs : list group) : option (res (group * list group * list group)) :=
  match gs with
  | [] => None
  | g :: gs' =>
    if full g then
      match place b gs' with
      | Some (Ok (x, before, after)) => Some (Ok (x, g :: before, after))
      | r => r
      end
    else
      Some (bind (fill (gbuf g) (gpos g) (bdata b)) (fun buf =>
        Ok ({| gid := gid g; gbuf := buf; gpos := gpos g + zlen (bdata b);
               gblocks := gblocks g ++ [{| cpos := gpos g; cinfo := binfo b |}] |}, [], gs')))
  end.

(** DownloadStorage.cpp:94-100 *)
Definition posts (g : group) : list Z := if full g then [gid g] else [].

(** DownloadStorage.cpp:75-101; [size] is groupBufferSize, the contents of a new buffer are 0 *)
Definition storeBlock (size : Z) (s : cache) (b : blockData) : res cache :=
  match place b (groups s) with
  | Some r => bind r (fun '(g, before, after) =>
      Ok {| groups := before ++ g :: after; nextId := nextId s; posted := posted s ++ posts g; written := written s; cdisk := cdisk s |})
  | None =>
    let g0 := {| gid := nextId s; gbuf := repeat 0 (Z.to_nat size); gpos := 0; gblocks := [] |} in
    bind (fill (gbuf g0) 0 (bdata b)) (fun buf =>
      let g := {| gid := gid g0; gbuf := buf; gpos := zlen (bdata b); gblocks := [{| cpos := 0; cinfo := binfo b |}] |} in
      Ok {| groups := g :: groups s; nextId := nextId s + 1; posted := posted s ++ posts g; written := written s; cdisk := cdisk s |})
  end.

(** The bytes at the pointer of a block. For [flushWrite], DownloadStorage.cpp:154-162. *)
Definition cdata (g : group) (c : cblock) : list Z := slice (Z.to_nat (cpos c)) (Z.to_nat (blength (cinfo c))) (gbuf g).

(** Helper of [flushWrite], DownloadStorage.cpp:154-162. *)
Definition loaded (g : group) (c : cblock) : blockData := {| bdata := cdata g c; binfo := cinfo c |}.

(** DownloadStorage.cpp:135-147 *)
Definition flushAll (s : cache) : cache :=
  {| groups := groups s; nextId := nextId s;
     posted := posted s ++ map gid (filter (fun g => negb (full g) && negb (match gblocks g with [] => true | _ => false end)) (groups s));
     written := written s; cdisk := cdisk s |}.

(** Helper of [flushWrite], DownloadStorage.cpp:154-162. *)
Definition findGroup (s : cache) (id : Z) : option group := find (fun g => gid g =? id) (groups s).

(** The first task for a group is taken. For [flushWrite], DownloadStorage.cpp:154-162. *)
Fixpoint takeId (id : Z) (l : list Z) : list Z :=
  match l with [] => [] | x :: l' => if x =? id then l' else x :: takeId id l' end.

(** Helper of [flushWrite], DownloadStorage.cpp:154-162. *)
Definition memId (id : Z) (l : list Z) : bool := existsb (Z.eqb id) l.

(** DownloadStorage.cpp:154-162: the status is not looked at. The iterator of a group which was removed is dangling. *)
Definition flushWrite (t : torrentInfo) (s : cache) (id : Z) : res cache :=
  if memId id (posted s) then
    match findGroup s id with
    | None => UB
    | Some g =>
      bind (storePieceBlocks t (cdisk s) (map (loaded g) (gblocks g))) (fun '(_, disk) =>
        Ok {| groups := groups s; nextId := nextId s; posted := takeId id (posted s); written := written s ++ [id]; cdisk := disk |})
    end
  else Ok s.

(** DownloadStorage.cpp:164-169 *)
Definition flushClear (s : cache) (id : Z) : res cache :=
  if memId id (written s) then
    match findGroup s id with
    | None => UB
    | Some g =>
      Ok {| groups := filter (fun x => negb (gid x =? id)) (groups s) ++ [{| gid := gid g; gbuf := gbuf g; gpos := 0; gblocks := [] |}];
            nextId := nextId s; posted := posted s; written := takeId id (written s); cdisk := cdisk s |}
    end
  else Ok s.

(** DownloadStorage.cpp:149-152; the pool was stopped before (15), its tasks are done *)
Definition clearAll (s : cache) : cache :=
  {| groups := []; nextId := nextId s; posted := posted s; written := written s; cdisk := cdisk s |}.

(** Model only: the calls and events above, in any order, as the histories of the theorems. *)
Inductive event := EStore (b : blockData) | EWrite (id : Z) | EClear (id : Z) | EFlush | EEnd.

(** Model only: the calls and events above, in any order, as the histories of the theorems. *)
Definition step (t : torrentInfo) (size : Z) (s : cache) (e : event) : res cache :=
  match e with
  | EStore b => storeBlock size s b
  | EWrite id => flushWrite t s id
  | EClear id => flushClear s id
  | EFlush => Ok (flushAll s)
  | EEnd => Ok (clearAll s)
  end.

(** Model only: the calls and events above, in any order, as the histories of the theorems. *)
Fixpoint run (t : torrentInfo) (size : Z) (s : cache) (es : list event) : res cache :=
  match es with [] => Ok s | e :: es' => bind (step t size s e) (fun s' => run t size s' es') end.

(** DownloadStorage.cpp:109-119: the cached blocks of a piece, in the order of the groups *)
Definition cachedOf (s : cache) (idx : Z) : list (group * cblock) :=
  flat_map (fun g => map (pair g) (filter (fun c => bindex (cinfo c) =? idx) (gblocks g))) (groups s).

(** Helper of [readBlocks], DownloadStorage.cpp:103-133. *)
Fixpoint copyBlocks (l : list (group * cblock)) (buffer : list Z) : res (list Z) :=
  match l with
  | [] => Ok buffer
  | (g, c) :: l' => bind (fill buffer (bbegin (cinfo c)) (cdata g c)) (copyBlocks l')
  end.

(** DownloadStorage.cpp:122: std::sort as an insertion sort *)
Fixpoint insertOffset (o : blockOffset) (l : list blockOffset) : list blockOffset :=
  match l with [] => [o] | x :: l' => if obegin x <? obegin o then x :: insertOffset o l' else o :: l end.

(** Helper of [readBlocks], DownloadStorage.cpp:103-133. *)
Fixpoint sortOffsets (l : list blockOffset) : list blockOffset :=
  match l with [] => [] | o :: l' => insertOffset o (sortOffsets l') end.

(** DownloadStorage.cpp:124-132 *)
Fixpoint gaps (pos : Z) (l : list blockOffset) : list blockOffset * Z :=
  match l with
  | [] => ([], pos)
  | i :: l' =>
    let '(m, e) := gaps (u32 (obegin i + osize i)) l' in
    (if obegin i >? pos then ({| obegin := pos; osize := obegin i - pos |} :: m, e) else (m, e))
  end.

(** DownloadStorage.cpp:103-133: the buffer with the cached blocks, and where the others are *)
Definition readBlocks (s : cache) (idx : Z) (buffer : list Z) : res (list Z * list blockOffset * Z) :=
  let l := cachedOf s idx in
  bind (copyBlocks l buffer) (fun buffer' =>
    let '(m, pos) := gaps 0 (sortOffsets (map (fun gc => {| obegin := bbegin (cinfo (snd gc)); osize := blength (cinfo (snd gc)) |}) l)) in
    Ok (buffer', m, pos)).

(** DownloadStorage.cpp:43-45: what has to be loaded from the files *)
Definition missingOf (s : cache) (idx : Z) (buffer : list Z) : res (list Z * list blockOffset) :=
  bind (readBlocks s idx buffer) (fun '(b, m, pos) =>
    Ok (b, if pos <? zlen buffer then m ++ [{| obegin := pos; osize := u32 (zlen buffer - pos) |}] else m)).

(** DownloadStorage.cpp:47; [s'] is the cache when the files are read, later than [s] *)
Definition readPiece (t : torrentInfo) (s s' : cache) (idx : Z) (buffer : list Z) : res (status * list Z) :=
  bind (missingOf s idx buffer) (fun '(b, m) =>
    match m with [] => Ok (Success, b) | _ => loadPieceBlocks t (cdisk s') idx m b end).

(** DownloadStorage.cpp:29-63: [Some true] is Success, [Some false] I_Mismatch, [None] an error of the storage. [buffer] is
    the buffer of an earlier check or a new one, made as long as the piece. *)
Definition checkPieceFunc (t : torrentInfo) (hash : list Z) (s s' : cache) (idx : Z) (buffer : list Z) : res (option bool) :=
  bind (readPiece t s s' idx buffer) (fun '(st, b) =>
    Ok (if isSuccess st then Some (list_eqb (SHA1 b) hash) else None)).
