(** Model of mtTorrent/Core/Dht/Table.{h,cpp}: the routing table. *)
From Verif Require Import Base NodeModel.

(** Node.h:29-36 with Addr's fields *)
Record nodeInfo := { id : list Z; addrBytes : list Z; port : Z; ipv6 : bool }.

(** Table.h:41-46 *)
Record node := { info : nodeInfo; lastupdate : Z; active : bool }.

(** Table.h:39-56; lastcacheupdate is only written, never read *)
Record bucket := { nodes : list node; cache : list node; blast : Z }.
(** Also Table.h:39-56. *)
Definition emptyBucket : bucket := {| nodes := []; cache := []; blast := 0 |}.

(** Table.h:59 *)
Definition table := list bucket.
(** Also Table.h:59. *)
Definition emptyTable : table := repeat emptyBucket 160.
(** Also Table.h:59. *)
Definition bucketAt (t : table) (i : Z) : bucket := nth (Z.to_nat i) t emptyBucket.

(** Table.cpp:174-177; [own] is the id of this client *)
Definition getBucketId (own i : list Z) : Z := idLength (distance own i).

(** Table.cpp:156-172; [None] is nullptr, otherwise the position *)
Fixpoint find (i : list Z) (ns : list node) : option nat :=
  match ns with
  | [] => None
  | n :: ns' => if idEq (id (info n)) i then Some 0%nat else option_map S (find i ns')
  end.

(** Helper of [bucketResponded], Table.cpp:67-109. *)
Definition dummyNode : node := {| info := {| id := []; addrBytes := []; port := 0; ipv6 := false |}; lastupdate := 0; active := false |}.

(** Table.cpp:67-109 *)
Definition bucketResponded (b : bucket) (n : nodeInfo) (time : Z) : bucket :=
  match find (id n) (nodes b) with
  | Some k =>
    {| nodes := upd k {| info := info (nth k (nodes b) dummyNode); lastupdate := time; active := true |} (nodes b);
       cache := cache b; blast := time |}
  | None =>
    match find (id n) (cache b) with
    | Some k =>
      {| nodes := nodes b;
         cache := upd k {| info := info (nth k (cache b) dummyNode); lastupdate := time; active := active (nth k (cache b) dummyNode) |} (cache b);
         blast := blast b |}
    | None =>
      if Nat.ltb (length (nodes b)) 8 then
        {| nodes := nodes b ++ [{| info := n; lastupdate := time; active := true |}]; cache := cache b; blast := time |}
      else
        let bnode := {| info := n; lastupdate := time; active := false |} in
        {| nodes := nodes b;
           cache := if Nat.ltb (length (cache b)) 8 then cache b ++ [bnode] else upd (length (cache b) - 1) bnode (cache b);
           blast := blast b |}
    end
  end.

(** Table.cpp:118-154; vector::erase *)
Definition erase {A} (k : nat) (l : list A) : list A := firstn k l ++ skipn (S k) l.

(** Helper of [nodeNotResponded], Table.cpp:60-65, 111-116. *)
Definition bucketNotResponded (b : bucket) (n : nodeInfo) (time : Z) : bucket :=
  match find (id n) (nodes b) with
  | None => b
  | Some k =>
    let it := nth k (nodes b) dummyNode in
    let it' := if active it then {| info := info it; lastupdate := time; active := false |} else it in
    let ns := upd k it' (nodes b) in
    let offline := if Nat.ltb 5 k then 0 else 900 in
    if u64 (lastupdate it' + offline) <? blast b then
      match cache b with
      | [] => {| nodes := erase k ns; cache := []; blast := blast b |}
      | c :: cs => {| nodes := erase k ns ++ [c]; cache := cs; blast := blast b |}
      end
    else {| nodes := ns; cache := cache b; blast := blast b |}
  end.

(** Table.cpp:60-65, 111-116 *)
Definition nodeResponded (own : list Z) (t : table) (n : nodeInfo) (time : Z) : table :=
  let i := getBucketId own (id n) in upd (Z.to_nat i) (bucketResponded (bucketAt t i) n time) t.
(** Also Table.cpp:60-65, 111-116. *)
Definition nodeNotResponded (own : list Z) (t : table) (n : nodeInfo) (time : Z) : table :=
  let i := getBucketId own (id n) in upd (Z.to_nat i) (bucketNotResponded (bucketAt t i) n time) t.

(** Table.cpp:24-33, 43-52: the nodes of one bucket; the state is the output and the two counters *)
Definition collectOne (st : list nodeInfo * Z * Z) (n : node) : list nodeInfo * Z * Z :=
  let '(out, v6, v4) := st in
  if active n && (zlen out <? 16) then
    if ipv6 (info n) then (if v6 <? 8 then out ++ [info n] else out, v6 + 1, v4)
    else (if v4 <? 8 then out ++ [info n] else out, v6, v4 + 1)
  else st.

(** Table.cpp:20-36, 38-55: the loops stop when the output is full; [is] are the values of [i] *)
Fixpoint collect (t : table) (is : list nat) (st : list nodeInfo * Z * Z) : list nodeInfo * Z * Z :=
  match is with
  | [] => st
  | i :: is' =>
    let '(out, _, _) := st in
    if zlen out <? 16 then collect t is' (fold_left collectOne (nodes (nth i t emptyBucket)) st) else st
  end.

(** Table.cpp:6-58 *)
Definition getClosestNodes (own : list Z) (t : table) (target : list Z) : list nodeInfo :=
  let startId := Z.to_nat (getBucketId own target) in
  let st := collect t (rev (seq 1 startId)) ([], 0, 0) in
  let '(out, _, _) := collect t (seq (S startId) (159 - startId)) st in out.

(** Table.cpp:281-303 *)
Definition getInactiveNodes (t : table) (now : Z) : list nodeInfo :=
  flat_map (fun b => map info (filter (fun n => negb (active n) || (u64 (lastupdate n + 900) <? now)) (nodes b))) t.

(** Table.cpp:305-314 *)
Definition getActiveNodesCount (t : table) : Z := fold_left (fun c b => u32 (c + zlen (nodes b))) t 0.

(** Table.cpp:316-330 *)
Definition isValidNode (own hash : list Z) : bool :=
  negb (forallb (fun i => nth i hash 0 =? nth i own 0) (seq 0 20)) && negb (forallb (fun i => nth i hash 0 =? 0) (seq 0 20)).
