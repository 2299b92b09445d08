(** The table of countries: utils/FastIpToCountry, the tool which makes its file (countryIpListParser) and its use for connected peers
    (Core/Peers.cpp). Names and files are lists of bytes. *)
From Verif Require Import Base.

(** countryIpListParser/main.cpp:128, FastIpToCountry.h:19: the name of a country *)
Notation name := (list Z) (only parsing).

(** FastIpToCountry.h:19-20: the names and, for each first byte of an address, the starts of ranges with the index of their name *)
Record table := { countries : list name; buckets : list (list (Z * Z)) }.

(** FastIpToCountry.h:19-20: a new object; the array has 256 elements *)
Definition newTable : table := {| countries := []; buckets := repeat [] 256 |}.

(** FastIpToCountry.h:24-27 [GetIndexFromAddress] *)
Definition indexOf (address : Z) : nat := Z.to_nat (u8 (Z.shiftr address 24)).

(** FastIpToCountry.cpp:16-25: the ranges of one bucket and the six letters after them; the machine is little-endian *)
Definition bucketBytes (b : list (Z * Z)) : list Z :=
  flat_map (fun r => le 4 (fst r) ++ le 2 (snd r)) b ++ [69; 69; 69; 69; 69; 69].

(** FastIpToCountry.cpp:9-25 [toFile]: what the file gets. Simplified: every write succeeds. *)
Definition toFile (t : table) : list Z :=
  flat_map (fun c => c ++ [10]) (countries t) ++ [10] ++ flat_map bucketBytes (buckets t).

(** FastIpToCountry.cpp:7, 33: the name of the file *)
Definition fileName : list Z := [105; 112; 99; 108; 105; 115; 116].

(** FastIpToCountry.h:22, FastIpToCountry.cpp:7: where [toFile] writes *)
Definition writePath (folder : list Z) : list Z := folder ++ fileName.

(** FastIpToCountry.cpp:33, Filesystem.h:3: where [fromFile] reads *)
Definition readPath (folder : list Z) : list Z := folder ++ [47] ++ fileName.

(** FastIpToCountry.cpp:54-64: the lines read into [cs] until an empty one; [cur] is the line being read. [None] when the file ends in it:
    getline then sets the end of file and the loop is over. *)
Fixpoint readNames (cs : list name) (cur : name) (l : list Z) : list name * option (list Z) :=
  match l with
  | [] => (match cur with [] => cs | _ => cs ++ [cur] end, None)
  | c :: l' => if c =? 10 then match cur with [] => (cs, Some l') | _ => readNames (cs ++ [cur]) [] l' end
               else readNames cs (cur ++ [c]) l'
  end.

(** FastIpToCountry.cpp:38-50: one entry. The array is not checked: an entry after its last bucket is written out of it. *)
Definition addEntry (ip country : Z) (bucket : nat) (bs : list (list (Z * Z))) : res (nat * list (list (Z * Z))) :=
  if country =? 17733 then Ok (S bucket, bs)
  else if (bucket <? length bs)%nat then Ok (bucket, upd bucket (nth bucket bs [] ++ [(ip, country)]) bs) else UB.

(** FastIpToCountry.cpp:34-51: entries until the end of the file. A read at the end leaves the bytes it does not get as they were:
    the number of the country stays 17733, or keeps its high byte. *)
Fixpoint readEntries (bucket : nat) (bs : list (list (Z * Z))) (l : list Z) : res (list (list (Z * Z))) :=
  match l with
  | b0 :: b1 :: b2 :: b3 :: c0 :: c1 :: l' => bind (addEntry (unle [b0; b1; b2; b3]) (unle [c0; c1]) bucket bs) (fun r => readEntries (fst r) (snd r) l')
  | [b0; b1; b2; b3; c0] => bind (addEntry (unle [b0; b1; b2; b3]) (unle [c0; 69]) bucket bs) (fun r => Ok (snd r))
  | _ => Ok bs
  end.

(** FastIpToCountry.cpp:28-67 [fromFile]; [None] is a file which does not open. The object is new: it is read once (Peers.cpp:22-26). *)
Definition fromFile (file : option (list Z)) : res table :=
  match file with
  | None => Ok newTable
  | Some l => match readNames [] [] l with
              | (cs, None) => Ok {| countries := cs; buckets := buckets newTable |}
              | (cs, Some rest) => bind (readEntries 0 (buckets newTable) rest) (fun bs => Ok {| countries := cs; buckets := bs |})
              end
  end.

(** FastIpToCountry.cpp:77-80: std::lower_bound of libstdc++, which halves [len] elements from [first] on *)
Fixpoint lowerBound (fuel : nat) (l : list (Z * Z)) (address : Z) (first len : nat) : nat :=
  match fuel with
  | O => first
  | S f => match len with
           | O => first
           | _ => let half := Nat.div2 len in
                  if fst (nth (first + half) l (0, 0)) <=? address then lowerBound f l address (first + half + 1) (len - half - 1)
                  else lowerBound f l address first half
           end
  end.

(** FastIpToCountry.cpp:74-88 [GetCountryFromIndex]; the index of a name is not checked *)
Definition getFrom (t : table) (address : Z) (index : nat) : res name :=
  let l := nth index (buckets t) [] in
  let it := lowerBound (length l) l address 0 (length l) in
  if (it =? length l)%nat || (it =? 0)%nat then Ok []
  else match nth_error (countries t) (Z.to_nat (snd (nth (it - 1) l (0, 0)))) with Some c => Ok c | None => UB end.

(** FastIpToCountry.cpp:69-72 [GetCountry] *)
Definition getCountry (t : table) (address : Z) : res name := getFrom t address (indexOf address).

(** Peers.cpp:367, Network.cpp:170-173: the first four bytes of the address read as a little-endian number and swapped; nothing for IPv6 *)
Definition peerCountry (t : table) (ipv6 : bool) (addr : list Z) : res name :=
  if ipv6 then Ok [] else getCountry t (unbe (firstn 4 addr)).

(** countryIpListParser/main.cpp:130, 140: the map from names to numbers, in the order in which the names came. The order of
    the map is used nowhere. *)
Definition cmap : Type := list (name * Z).

(** main.cpp:140: the number kept for a name *)
Fixpoint idOf (m : cmap) (c : name) : option Z :=
  match m with [] => None | (c', i) :: m' => if list_eqb c' c then Some i else idOf m' c end.

(** main.cpp:146: the number of a name is set *)
Fixpoint setId (m : cmap) (c : name) (i : Z) : cmap :=
  match m with [] => [] | (c', j) :: m' => if list_eqb c' c then (c', i) :: m' else (c', j) :: setId m' c i end.

(** main.cpp:138-151: the ranges of one bucket; [last] is the number of the range before *)
Fixpoint parseBucket (m : cmap) (last : Z) (rows : list (Z * name)) : cmap * list (Z * Z) :=
  match rows with
  | [] => (m, [])
  | (start, c) :: rows' =>
    let m1 := match idOf m c with None => m ++ [(c, 0)] | Some _ => m end in
    let id0 := match idOf m c with None => 0 | Some i => i end in
    if negb (id0 =? 0) && (id0 =? last) then parseBucket m1 last rows'
    else
      let id := if id0 =? 0 then u16 (zlen m1) else id0 in
      let (m2, out) := parseBucket (setId m1 c id) id rows' in
      (m2, (start, u16 (id - 1)) :: out)
  end.

(** main.cpp:132-154: all the buckets *)
Fixpoint parseBuckets (m : cmap) (bs : list (list (Z * name))) : cmap * list (list (Z * Z)) :=
  match bs with
  | [] => (m, [])
  | b :: bs' => let (m1, out) := parseBucket m 0 b in let (m2, outs) := parseBuckets m1 bs' in (m2, out :: outs)
  end.

(** main.cpp:157-160: the names put at their numbers; a number 0 is before the first of them *)
Fixpoint placeNames (m : cmap) (cs : list name) : res (list name) :=
  match m with
  | [] => Ok cs
  | (c, i) :: m' => if (1 <=? i) && (i <=? zlen cs) then placeNames m' (upd (Z.to_nat (i - 1)) c cs) else UB
  end.

(** main.cpp:71-72: the rows of the list sorted into buckets, in the order of the list *)
Definition rowBuckets (rows : list (Z * name)) : list (list (Z * name)) :=
  map (fun k => filter (fun r => (indexOf (fst r) =? k)%nat) rows) (seq 0 256).

(** main.cpp:128-161 [fromParser]; main.cpp:112-121, 64-74: the list is taken as the start and the name of each row, the reading of its
    text is left out *)
Definition fromParser (rows : list (Z * name)) : res table :=
  let (m, bs) := parseBuckets [] (rowBuckets rows) in
  bind (placeNames m (repeat [] (length m))) (fun cs => Ok {| countries := cs; buckets := bs |}).
