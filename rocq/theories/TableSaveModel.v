(** Model of Table::save and Table::load (mtTorrent/Core/Dht/Table.cpp:192-279). *)
From Verif Require Import Base Dec TableModel.

(** Helper of [save], Table.cpp:199-218. *)
Definition bucketsBegin : list Z := [91; 98; 117; 99; 107; 101; 116; 115; 93; 10]. (* [buckets]\n. For [save], Table.cpp:199-218. *)
Definition bucketsEnd : list Z := [91; 98; 117; 99; 107; 101; 116; 115; 92; 93; 10]. (* [buckets\]\n. For [saveFrom], Table.cpp:199-218. *)
Definition nodesBegin : list Z := [91; 110; 111; 100; 101; 115; 93; 10]. (* [nodes]\n. For [saveFrom], Table.cpp:199-218. *)
Definition nodesEnd : list Z := [91; 110; 111; 100; 101; 115; 92; 93; 10]. (* [nodes\]\n *)

(** Table.cpp:208-211; the 16 address bytes are copied whatever the family, the port as in memory *)
Definition entry (n : node) : list Z :=
  id (info n) ++ addrBytes (info n) ++ le 2 (port (info n)) ++ [if ipv6 (info n) then 1 else 0].

(** Table.cpp:199-218 from bucket [idx] on *)
Fixpoint saveFrom (idx : Z) (bs : list bucket) : list Z :=
  match bs with
  | [] => []
  | b :: bs' =>
    (match nodes b with [] => [] | _ => toString idx ++ [10] ++ nodesBegin ++ flat_map entry (nodes b) ++ nodesEnd end)
    ++ saveFrom (u8 (idx + 1)) bs'
  end.
(** Also Table.cpp:199-218. *)
Definition save (t : table) : list Z := bucketsBegin ++ saveFrom 0 t ++ bucketsEnd.

(** Helper of [loadLoop], Table.cpp:239-276, 11. *)
Inductive loaded := Loaded (t : table) (counter : Z) | Throw | Undefined.

(** Table.cpp:241: the text up to the next line end, and what is behind it *)
Fixpoint lineOf (s : list Z) : list Z * list Z :=
  match s with
  | [] => ([], [])
  | c :: s' => if c =? 10 then ([], s') else let '(a, b) := lineOf s' in (c :: a, b)
  end.

(** std::stoi; [None] throws. For [loadLoop], Table.cpp:239-276, 11. *)
Definition stoi (l : list Z) : option Z :=
  match strtoz (l ++ [0]) with
  | Some (v, S _) => if (-2147483648 <=? v) && (v <=? 2147483647) then Some v else None
  | _ => None
  end.

(** std::string::find: the text before and behind the first [d]. For [loadLoop], Table.cpp:239-276, 11. *)
Fixpoint findText (d s : list Z) : option (list Z * list Z) :=
  if list_eqb (firstn (length d) s) d then Some ([], skipn (length d) s)
  else match s with [] => None | c :: s' => option_map (fun '(a, b) => (c :: a, b)) (findText d s') end.

(** Table.cpp:262-275; an entry of fewer than 39 bytes is read past its end, a flag other than 0 and 1 is no bool *)
Fixpoint readEntries (fuel : nat) (l : list Z) : option (list node) :=
  match fuel, l with
  | S fuel', _ :: _ =>
    let e := firstn 39 l in
    if Nat.ltb (length e) 39 || (1 <? nth 38 e 0) then None
    else option_map (cons {| info := {| id := slice 0 20 e; addrBytes := slice 20 16 e; port := unle (slice 36 2 e); ipv6 := nth 38 e 0 =? 1 |};
                             lastupdate := 0; active := true |}) (readEntries fuel' (skipn 39 l))
  | _, _ => Some []
  end.

(** Table.cpp:239-276; [s] is the text from pos on, so pos < posEnd means it is longer than 11 *)
Fixpoint loadLoop (fuel : nat) (s : list Z) (t : table) (counter : Z) : loaded :=
  match fuel with
  | O => Loaded t counter
  | S fuel' =>
    if Nat.leb (length s) 11 then Loaded t counter
    else
      let '(line, s) := lineOf s in
      match stoi line with
      | None => Throw
      | Some i =>
        if negb (list_eqb (firstn 8 s) nodesBegin) then Loaded t counter
        else match findText nodesEnd (skipn 8 s) with
             | None => Loaded t counter
             | Some (nodesLine, s) =>
               if (i <? 0) || (159 <? i) then Undefined
               else match readEntries (length nodesLine) nodesLine with
                    | None => Undefined
                    | Some ns =>
                      let b := bucketAt t i in
                      loadLoop fuel' s (upd (Z.to_nat i) {| nodes := nodes b ++ ns; cache := cache b; blast := blast b |} t) (counter + zlen ns)
                    end
             end
      end
  end.

(** Table.cpp:225-279; every round takes a line, so the length is enough fuel *)
Definition load (t : table) (s : list Z) : loaded :=
  if negb (list_eqb (firstn 10 s) bucketsBegin) then Loaded t 0
  else if Nat.ltb (length s) 11 then Throw
  else if negb (list_eqb (skipn (length s - 11) s) bucketsEnd) then Loaded t 0
  else loadLoop (length s) (skipn 10 s) t 0.
