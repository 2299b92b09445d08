(** For C113. *)
From Verif Require Import Base MetadataModel MdLogModel.

(** How often it was logged that [p] connected and disconnected. *)
Definition isConnected (p : Z) (e : entry) : bool := match e with EConnected q => p =? q | _ => false end.
Definition isDisconnected (p : Z) (e : entry) : bool := match e with EDisconnected q => p =? q | _ => false end.
Definition times (f : entry -> bool) (l : list entry) : nat := length (filter f l).

(** The requests of a log, in order. *)
Definition requests (l : list entry) : list (Z * Z) := flat_map (fun e => match e with ERequest p i => [(p, i)] | _ => [] end) l.

(** The calls that are not polls. *)
Definition events (cs : list call) : list mevent := flat_map (fun c => match c with CEvent e => [e] | CPoll => [] end) cs.

(** What an entry is about: its kind, the id of the peer and the index. *)
Inductive kind := KSearching | KConnected | KDisconnected | KRequest | KReceive | KReject | KEnd.
Definition about (ids : Z -> list Z) (e : entry) : kind * list Z * Z :=
  match e with
  | ESearching => (KSearching, [], 0) | EEnd => (KEnd, [], 0)
  | EConnected p => (KConnected, ids p, 0) | EDisconnected p => (KDisconnected, ids p, 0)
  | ERequest p i => (KRequest, ids p, i) | EReceive p i => (KReceive, ids p, i) | EReject p i => (KReject, ids p, i)
  end.
Definition index_ok (e : entry) : Prop := match e with ERequest _ i | EReceive _ i | EReject _ i => 0 <= i < 4294967296 | _ => True end.

(** What the log tells besides the peers and the requests, read off the calls: each start, each part and rejection while started, each stop of a
    started download. *)
Fixpoint told (started : bool) (es : list mevent) : list entry :=
  match es with
  | [] => []
  | MStart :: es' => ESearching :: told true es'
  | MStop :: es' => (if started then [EEnd] else []) ++ told false es'
  | MMessage p (LData i _ _) :: es' => (if started then [EReceive p i] else []) ++ told started es'
  | MMessage p (LReject i) :: es' => (if started then [EReject p i] else []) ++ told started es'
  | _ :: es' => told started es'
  end.
Definition tells (e : entry) : bool := match e with ESearching | EReceive _ _ | EReject _ _ | EEnd => true | _ => false end.
