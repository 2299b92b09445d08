(** Model of mtTorrent/utils/BencodeParser.{h,cpp} and BencodeWriter.cpp. *)
From Verif Require Import Base Dec.

(** ** Writer (BencodeWriter.cpp): each call appends to [data]. *)

(** BencodeWriter.cpp:9-12, 41-44, 46-49, 57-60. *)
Definition startMap (data : list Z) : list Z := data ++ [100].
(** Also BencodeWriter.cpp:9-12, 41-44, 46-49, 57. *)
Definition endMap (data : list Z) : list Z := data ++ [101].
(** Also BencodeWriter.cpp:9-12, 41-44, 46-49, 57. *)
Definition startArray (data : list Z) : list Z := data ++ [108].
(** Also BencodeWriter.cpp:9-12, 41-44, 46-49, 57. *)
Definition endArray (data : list Z) : list Z := data ++ [101].

(** BencodeWriter.cpp:124-129; the number is a [uint64_t]. *)
Definition addNumber (data : list Z) (number : Z) : list Z := data ++ [105] ++ toString number ++ [101].

(** BencodeWriter.cpp:139-144; 131-137 is the same for text without zero bytes; 80-86 and 106-112 write a buffer
    the same way. *)
Definition addText (data : list Z) (text : list Z) : list Z := data ++ toString (zlen text) ++ [58] ++ text.

(** BencodeWriter.cpp:114-122 [addRawData], also 35-39, 51-55 and 88-112 for their first argument. *)
Definition addRawData (data : list Z) (b : list Z) : list Z := data ++ b.

(** ** Parser *)

(** Three outcomes: a value; undefined behaviour (a read or write outside memory); still
    running when the fuel ran out. For [notEnd], BencodeParser.cpp:70. *)
Inductive out (A : Type) : Type := Val (a : A) | Undef | NoEnd.
Arguments Val {A} a. Arguments Undef {A}. Arguments NoEnd {A}.

(** Helper of [notEnd], BencodeParser.cpp:70. *)
Definition obind {A B} (r : out A) (f : A -> out B) : out B :=
  match r with Val a => f a | Undef => Undef | NoEnd => NoEnd end.

(** BencodeParser.h:17-28 [Item]. [odata] is the position in the buffer, [osize] an [int],
    [onext] the [uint16_t] offset of the next sibling. *)
Inductive otype := TNone | TNumber | TText | TList | TDict.
(** Also BencodeParser.h:17-28. *)
Record obj := { odata : Z; osize : Z; onext : Z; otyp : otype }.

(** Helper of [closeContainer], BencodeParser.cpp:96-100, 139-143. *)
Definition setNext (n : Z) (o : obj) : obj :=
  {| odata := odata o; osize := osize o; onext := n; otyp := otyp o |}.
(** Helper of [closeContainer], BencodeParser.cpp:96-100, 139-143. *)
Definition setSize (n : Z) (o : obj) : obj :=
  {| odata := odata o; osize := n; onext := onext o; otyp := otyp o |}.

(** Helper of [getFirstItem], BencodeParser.cpp:325-333. *)
Definition noObj : obj := {| odata := 0; osize := 0; onext := 0; otyp := TNone |}.

(** Helper of [closeContainer], BencodeParser.cpp:96-100, 139-143. *)
Definition modify (i : nat) (f : obj -> obj) (l : list obj) : list obj := upd i (f (nth i l noObj)) l.

Section Parser.
(** [m] is the readable memory from the start of the buffer on, [bodyEnd] the length given to
    [parse]. Positions are offsets from the start. Moving a pointer is not a read. *)
Variable m : list Z.
Variable bodyEnd : Z.

(** Helper of [parseString], BencodeParser.cpp:150, 64-68. *)
Definition memFrom (p : Z) : option (list Z) :=
  if (0 <=? p) && (p <? zlen m) then Some (skipn (Z.to_nat p) m) else None.

(** Helper of [notEnd], BencodeParser.cpp:70. *)
Definition rdAt (p : Z) : out Z :=
  match memFrom p with Some (c :: _) => Val c | _ => Undef end.

(** BencodeParser.cpp:70: the byte is read before the position is checked. *)
Definition notEnd (p : Z) : out bool :=
  obind (rdAt p) (fun c => Val (negb (c =? 101) && (p <? bodyEnd))).

(** BencodeParser.cpp:150-173. The result tells if an object was added (it is the last one). [parseError]
    (64-68) moves to [bodyEnd]; its log line is left out. *)
Definition parseString (objs : list obj) (p : Z) : out (bool * list obj * Z) :=
  match memFrom p with
  | None => Undef
  | Some l =>
    match strtol l with
    | None => Undef
    | Some (v, n) =>
      let size := i32 v in
      let p1 := p + Z.of_nat n in
      obind (rdAt p1) (fun c =>
      if negb (c =? 58) || (bodyEnd - p1 <? size) then Val (false, objs, bodyEnd)
      else Val (true, objs ++ [{| odata := p1 + 1; osize := size; onext := 0; otyp := TText |}],
                p1 + 1 + size))
    end
  end.

(** BencodeParser.cpp:182-186: the loop of [parseInt]; [l] is the memory from [p] on. *)
Fixpoint scanInt (l : list Z) (p size : Z) : out (Z * Z * Z) :=
  match l with
  | [] => Undef
  | c :: l' =>
    if (isDigit c || ((c =? 45) && (size =? 0))) && negb (p =? bodyEnd)
    then scanInt l' (p + 1) (size + 1)
    else Val (c, p, size)
  end.

(** BencodeParser.cpp:175-201 *)
Definition parseInt (objs : list obj) (p : Z) : out (bool * list obj * Z) :=
  match memFrom (p + 1) with
  | None => Undef
  | Some l =>
    obind (scanInt l (p + 1) 0) (fun r =>
    let '(c, p1, size) := r in
    if negb (c =? 101) then Val (false, objs, bodyEnd)
    else Val (true, objs ++ [{| odata := p + 1; osize := size; onext := 0; otyp := TNumber |}], p1 + 1))
  end.

(** Helper of [internalParse], BencodeParser.cpp:37-62, 72-105, 107. *)
Definition newContainer (t : otype) : obj := {| odata := 0; osize := 0; onext := 0; otyp := t |}.

(** BencodeParser.cpp:96-100 and 139-143: the end of a list or dictionary. *)
Definition closeContainer (root : nat) (r : list obj * Z * Z) : out (option nat * list obj * Z) :=
  let '(objs, p, count) := r in
  let p2 := p + 1 in
  obind (notEnd p2) (fun ne =>
  Val (Some root,
       modify root (fun o => setNext (if ne then u16 (u16 (zlen objs) - Z.of_nat root) else 0) (setSize count o)) objs,
       p2)).

(** BencodeParser.cpp:37-62 [internalParse] with [parseList] 72-105 and [parseDictionary] 107-148. The object
    returned is given by its index. *)
Fixpoint internalParse (fuel : nat) (objs : list obj) (p : Z) {struct fuel} : out (option nat * list obj * Z) :=
  match fuel with
  | O => NoEnd
  | S f =>
    obind (rdAt p) (fun c =>
    if isDigit c then
      obind (parseString objs p) (fun r => let '(ok, objs', p') := r in
        Val (if ok : bool then Some (length objs) else None, objs', p'))
    else if c =? 105 then
      obind (parseInt objs p) (fun r => let '(ok, objs', p') := r in
        Val (if ok : bool then Some (length objs) else None, objs', p'))
    else if c =? 108 then
      obind (listLoop f (objs ++ [newContainer TList]) (p + 1) 0) (closeContainer (length objs))
    else if c =? 100 then
      obind (dictLoop f (objs ++ [newContainer TDict]) (p + 1) 0) (closeContainer (length objs))
    else Val (None, objs, bodyEnd))
  end
(** 83-94 *)
with listLoop (fuel : nat) (objs : list obj) (p count : Z) {struct fuel} : out (list obj * Z * Z) :=
  match fuel with
  | O => NoEnd
  | S f =>
    obind (notEnd p) (fun ne =>
    if negb ne then Val (objs, p, count)
    else
      let objPos := u16 (zlen objs) in
      obind (internalParse f objs p) (fun r => let '(o, objs', p') := r in
      match o with
      | None => listLoop f objs' p' count
      | Some i =>
        obind (notEnd p') (fun ne' =>
        listLoop f (modify i (setNext (if ne' then u16 (u16 (zlen objs') - objPos) else 0)) objs') p' (count + 1))
      end))
  end
(** 118-137; line 130 writes to [objects[objPos - 1]] with a 16-bit [objPos]. *)
with dictLoop (fuel : nat) (objs : list obj) (p count : Z) {struct fuel} : out (list obj * Z * Z) :=
  match fuel with
  | O => NoEnd
  | S f =>
    obind (notEnd p) (fun ne =>
    if negb ne then Val (objs, p, count)
    else
      obind (parseString objs p) (fun r => let '(s, objs1, p1) := r in
      if s : bool then
        let objPos := u16 (zlen objs1) in
        obind (internalParse f objs1 p1) (fun r2 => let '(o, objs2, p2) := r2 in
        match o with
        | None => dictLoop f objs2 p2 0
        | Some i =>
          if objPos =? 0 then Undef
          else
            let objs3 := modify (Z.to_nat (objPos - 1)) (setNext 1) objs2 in
            obind (notEnd p2) (fun ne' =>
            dictLoop f (modify i (setNext (if ne' then u16 (u16 (zlen objs3) - objPos) else 0)) objs3) p2 (count + 1))
        end)
      else dictLoop f objs1 p1 count))
  end.

End Parser.

(** BencodeParser.cpp:15-33 [parse]: the objects, the end of the parsed part, [remainingData] and the returned
    success. *)
Record parsed := { pobjs : list obj; pend : Z; premaining : Z; pok : bool }.

(** BencodeParser.cpp:15-33. *)
Definition parse (fuel : nat) (m : list Z) (length : Z) : out parsed :=
  obind (internalParse m length fuel [] 0) (fun r => let '(_, objs, p) := r in
  Val {| pobjs := objs; pend := p;
         premaining := if length <=? p then 0 else length - p;
         pok := match objs with [] => false | _ => true end |}).

(** ** Reading a parsed document *)

(** BencodeParser.cpp:325-333 [getFirstItem], [getNextSibling] as index arithmetic; [None] is a null pointer. *)
Definition getFirstItem (objs : list obj) (i : nat) : option nat :=
  if osize (nth i objs noObj) =? 0 then None else Some (S i).
(** Also BencodeParser.cpp:325-333. *)
Definition getNextSibling (objs : list obj) (i : nat) : option nat :=
  if onext (nth i objs noObj) =? 0 then None else Some (i + Z.to_nat (onext (nth i objs noObj)))%nat.

(** BencodeParser.cpp:345-348 [toString] of an item; outside memory it is undefined. *)
Definition itemText (m : list Z) (o : obj) : out (list Z) :=
  if (0 <=? osize o) && (0 <=? odata o) && (odata o + osize o <=? zlen m)
  then Val (slice (Z.to_nat (odata o)) (Z.to_nat (osize o)) m) else Undef.

(** BencodeParser.cpp:320-323 [getBigInt], 309-312 [getInt]. *)
Definition itemBigInt (m : list Z) (o : obj) : out Z :=
  match memFrom m (odata o) with
  | None => Undef
  | Some l => match strtoull l with None => Undef | Some (v, _) => Val v end
  end.
(** Also BencodeParser.cpp:320-323, 309-312. *)
Definition itemInt (m : list Z) (o : obj) : out Z :=
  match memFrom m (odata o) with
  | None => Undef
  | Some l => match strtol l with None => Undef | Some (v, _) => Val (i32 v) end
  end.

(** BencodeParser.cpp:340-343 [equals]: [strncmp] stops at a zero byte of [name], which has none. *)
Definition itemEquals (m : list Z) (o : obj) (name : list Z) : out bool :=
  if negb (zlen name =? osize o) then Val false
  else obind (itemText m o) (fun t => Val (list_eqb name t)).

(** Helper of [findFrom], BencodeParser.cpp:208-254, 287-301. *)
Definition typeEqb (a b : otype) : bool :=
  match a, b with
  | TNone, TNone | TNumber, TNumber | TText, TText | TList, TList | TDict, TDict => true
  | _, _ => false
  end.

(** BencodeParser.cpp:208-254, 287-301: [getDictObject], [getListObject], [getTxtItem], [getIntObject] are the
    same search for a type. [NoEnd] if the fuel runs out. *)
Fixpoint findFrom (fuel : nat) (m : list Z) (objs : list obj) (i : option nat) (name : list Z) (t : otype)
  : out (option nat) :=
  match i with
  | None => Val None
  | Some k =>
    match fuel with
    | O => NoEnd
    | S f =>
      if Nat.ltb (S k) (length objs) then
        obind (itemEquals m (nth k objs noObj) name) (fun e =>
        if e && typeEqb (otyp (nth (S k) objs noObj)) t then Val (Some (S k))
        else findFrom f m objs (getNextSibling objs (S k)) name t)
      else Undef
    end
  end.

(** BencodeParser.cpp:208-254, 287-301. *)
Definition getObject (fuel : nat) (m : list Z) (objs : list obj) (i : nat) (name : list Z) (t : otype) : out (option nat) :=
  findFrom fuel m objs (getFirstItem objs i) name t.
