(** Which stream a datagram goes to: Core/Utp/UtpManager.cpp and UtpManager.h. The streams themselves are in UtpModel.v and UtpTimerModel.v; here one is its number, its
    id and its endpoint. An endpoint is a number. *)
From Verif Require Import Base UtpModel.

(** UtpManager.h:45: an entry of the map; [sid] tells the shared pointers apart *)
Record stream := { sid : nat; key : Z; ep : Z }.

(** UtpManager.h:41-53; the multimap is a list in the order of insertion, which is also the order it keeps among equal keys; [fresh] numbers the streams. [enableUtpIn] is
    the setting. *)
Record manager := { streams : list stream; fresh : nat; active : bool; enableUtpIn : bool }.

(** Model only: what is done to a stream: a packet is read, the listener is given it and the SYN is answered, the batch is finished *)
Inductive effect := DRead (s : nat) (d : list Z) | DNew (s : nat) | DFinish (s : nat).

(** UtpManager.cpp:69-82 [connectStream], what is posted *)
Definition connectStream (id e : Z) (m : manager) : manager :=
  {| streams := streams m ++ [{| sid := fresh m; key := id; ep := e |}]; fresh := S (fresh m); active := active m; enableUtpIn := enableUtpIn m |}.

(** UtpManager.cpp:175-187 [refresh]; [closed]: the streams whose refresh says so *)
Definition refresh (closed : nat -> bool) (m : manager) : manager :=
  {| streams := filter (fun s => negb (closed (sid s))) (streams m); fresh := fresh m; active := active m; enableUtpIn := enableUtpIn m |}.

(** UtpStream.h:215-232: the type and the id of a datagram that has a header *)
Definition typeOf (d : list Z) : Z := Z.shiftr (nth 0 d 0) 4.
(** Also UtpStream.h:215-232. *)
Definition connection_id (d : list Z) : Z := unbe (slice 2 2 d).

(** UtpManager.cpp:131-143: the first entry of that id and endpoint; that [find] gives the first of equal keys is so in the usual libraries *)
Definition findEntry (id e : Z) (l : list stream) : option stream := find (fun s => (key s =? id) && (ep s =? e)) l.

(** UtpManager.cpp:124-126 and 189-206, what the loop changes; [affected] is a set of pointers in the code, whose order is not known, here without repetition in the
    order of use *)
Record loop := { mgr : manager; current : option (Z * stream); affected : list nat; log : list effect }.

(** Model only: into a set *)
Definition emplace (s : nat) (l : list nat) : list nat := if existsb (Nat.eqb s) l then l else l ++ [s].

(** UtpManager.cpp:126-145 [findStream] *)
Definition findStream (e id : Z) (w : loop) : bool * loop :=
  match current w with
  | Some (id', s) => if id' =? id then (true, w)
                     else match findEntry id e (streams (mgr w)) with
                          | Some s' => (true, {| mgr := mgr w; current := Some (id, s'); affected := emplace (sid s') (affected w); log := log w |})
                          | None => (false, w)
                          end
  | None => match findEntry id e (streams (mgr w)) with
            | Some s' => (true, {| mgr := mgr w; current := Some (id, s'); affected := emplace (sid s') (affected w); log := log w |})
            | None => (false, w)
            end
  end.

(** UtpManager.cpp:189-206 [onNewConnection]; the sum is stored in 16 bits *)
Definition onNewConnection (e : Z) (d : list Z) (w : loop) : loop :=
  if enableUtpIn (mgr w)
  then {| mgr := connectStream (u16 (connection_id d + 1)) e (mgr w); current := current w; affected := affected w; log := log w ++ [DNew (fresh (mgr w))] |}
  else w.

(** UtpManager.cpp:147-164, one turn *)
Definition turn (e : Z) (headerSize : Z) (d : list Z) (w : loop) : loop :=
  if headerSize =? 0 then w
  else let (found, w1) := findStream e (connection_id d) w in
       if found then match current w1 with
                     | Some (_, s) => {| mgr := mgr w1; current := current w1; affected := affected w1; log := log w1 ++ [DRead (sid s) d] |}
                     | None => w1
                     end
       else if (typeOf d =? 4) && (zlen d =? headerSize) then onNewConnection e d w1 else w1.

(** UtpManager.cpp:147-164 *)
Fixpoint turns (e : Z) (l : list (Z * list Z)) (w : loop) : loop := match l with [] => w | (h, d) :: l' => turns e l' (turn e h d w) end.

(** UtpManager.cpp:108-117: the size of each header *)
Fixpoint headerSizes (l : list (list Z)) : res (list Z) :=
  match l with [] => Ok [] | d :: l' => bind (getUtpPacketHeaderSize d) (fun h => bind (headerSizes l') (fun hs => Ok (h :: hs))) end.

(** UtpManager.cpp:90-173 [onUdpPacket]: what it returns, what is left in [buffers], the manager and what was done *)
Definition onUdpPacket (e : Z) (buffers : list (list Z)) (m : manager) : res (bool * list (list Z) * manager * list effect) :=
  if negb (active m) then Ok (false, buffers, m, [])
  else bind (headerSizes buffers) (fun hs =>
       let left := map snd (filter (fun x => fst x =? 0) (combine hs buffers)) in
       if (length left =? length buffers)%nat then Ok (false, left, m, [])
       else let w := turns e (combine hs buffers) {| mgr := m; current := None; affected := []; log := [] |} in
            Ok (true, left, mgr w, log w ++ map DFinish (affected w))).

(** Model only: what happens to a manager *)
Inductive event := EConnect (id e : Z) | ERefresh (closed : nat -> bool) | EPackets (e : Z) (buffers : list (list Z)).

(** Model only: any history of those, with all that was done *)
Fixpoint run (es : list event) (m : manager) : res (manager * list effect) :=
  match es with
  | [] => Ok (m, [])
  | EConnect id e :: es' => run es' (connectStream id e m)
  | ERefresh c :: es' => run es' (refresh c m)
  | EPackets e l :: es' => bind (onUdpPacket e l m) (fun r => let '(_, _, m', lg) := r in bind (run es' m') (fun r' => let (m'', lg') := r' in Ok (m'', lg ++ lg')))
  end.

(** UtpManager.h:41-53: as it begins *)
Definition newManager (enable : bool) : manager := {| streams := []; fresh := 0; active := true; enableUtpIn := enable |}.
