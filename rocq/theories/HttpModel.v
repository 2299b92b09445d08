(** Model of mtTorrent/utils/HttpHeader.cpp and of Core/HttpTrackerComm.cpp:145-193. Text is a
    list of bytes; positions are counted from the start of the buffer. *)
From Verif Require Import Base Dec BencodeModel PacketModel.

(** A value; a C++ exception; undefined behaviour; not ended when the fuel was used up. For [headerLoop], HttpHeader.cpp:66-93. *)
Inductive hout (A : Type) : Type := HVal (a : A) | HThrow | HUndef | HNoEnd.
Arguments HVal {A} a. Arguments HThrow {A}. Arguments HUndef {A}. Arguments HNoEnd {A}.

(** Helper of [useParam], HttpHeader.cpp:97-112. *)
Definition hbind {A B} (r : hout A) (f : A -> hout B) : hout B :=
  match r with HVal a => f a | HThrow => HThrow | HUndef => HUndef | HNoEnd => HNoEnd end.

(** HttpHeader.h:5-12 *)
Record httpInfo := { hvalid : bool; hsuccess : bool; hdataStart : Z; hdataSize : Z; hparams : list (list Z * list Z) }.

(** The offset of the first CR LF in [l] (HttpHeader.cpp:21-26 and 76-84). *)
Fixpoint crlfAt (l : list Z) : option nat :=
  match l with
  | a :: (b :: _) as l' => if (a =? 13) && (b =? 10) then Some O else match crlfAt l' with Some k => Some (S k) | None => None end
  | _ => None
  end.

(** [::toupper] in the "C" locale. For [useParam], HttpHeader.cpp:97-112. *)
Definition hUpper (c : Z) : Z := if (97 <=? c) && (c <=? 122) then c - 32 else c.

(** [find_first_of(':')]. For [splitLine], HttpHeader.cpp:86-92. *)
Fixpoint colonAt (l : list Z) : option nat :=
  match l with
  | [] => None
  | c :: l' => if c =? 58 then Some O else match colonAt l' with Some k => Some (S k) | None => None end
  end.

(** HttpHeader.cpp:86-92: a line as name and value; the character after the colon is dropped. *)
Definition splitLine (line : list Z) : list Z * list Z :=
  match colonAt line with
  | Some v => if Nat.ltb (v + 1) (length line) then (firstn v line, skipn (v + 2) line) else (line, [])
  | None => (line, [])
  end.

(** HttpHeader.cpp:66-93: from [pos] on, with the parameters read so far: [dataStart] and the parameters.
    Without a further CR LF the position does not move. *)
Fixpoint headerLoop (fuel : nat) (b : list Z) (pos : nat) (params : list (list Z * list Z)) : hout (Z * list (list Z * list Z)) :=
  match fuel with
  | O => HNoEnd
  | S f =>
    if Nat.ltb (pos + 1) (length b) then
      if (nth pos b 0 =? 13) && (nth (pos + 1) b 0 =? 10) then HVal (u32 (Z.of_nat pos + 2), params)
      else match crlfAt (skipn (pos + 1) b) with
           | Some k => headerLoop f b (pos + 1 + k + 2) (params ++ [splitLine (slice pos (k + 1) b)])
           | None => headerLoop f b pos (params ++ [splitLine []])
           end
    else HVal (0, params)
  end.

(** [std::stoul] of a string, which ends with a zero byte: throws if there is no number or it
    is out of range. For [useParam], HttpHeader.cpp:97-112. *)
Definition stoul (s : list Z) : hout Z :=
  match strtoz (s ++ [0]) with
  | None => HUndef
  | Some (v, n) => match n with O => HThrow | S _ => if 18446744073709551615 <? Z.abs v then HThrow else HVal (u64 v) end
  end.

(** [strtoul] with base 16: digits. [None]: ran past the readable memory [l]. For [chunkLoop], HttpHeader.cpp:18-46, 28. *)
Definition hexDigit (c : Z) : option Z :=
  if (48 <=? c) && (c <=? 57) then Some (c - 48)
  else if (65 <=? c) && (c <=? 70) then Some (c - 55)
  else if (97 <=? c) && (c <=? 102) then Some (c - 87) else None.
(** Helper of [chunkLoop], HttpHeader.cpp:18-46, 28. *)
Fixpoint readHex (l : list Z) (acc : Z) : option Z :=
  match l with
  | [] => None
  | c :: l' => match hexDigit c with Some d => readHex l' (acc * 16 + d) | None => Some acc end
  end.

(** Helper of [chunkLoop], HttpHeader.cpp:18-46, 28. *)
Definition isHex (c : Z) : bool := match hexDigit c with Some _ => true | None => false end.
(** Helper of [chunkLoop], HttpHeader.cpp:18-46, 28. *)
Definition skip0x (l : list Z) : list Z :=
  match l with
  | a :: x :: d :: r => if (a =? 48) && ((x =? 120) || (x =? 88)) && isHex d then d :: r else l
  | _ => l
  end.

(** [strtoul(ptr, nullptr, 16)]: spaces, a sign, "0x" before a digit, digits. A minus sign
    negates modulo 2^64, too large gives the maximum. For [chunkLoop], HttpHeader.cpp:18-46, 28. *)
Definition strtoul16 (l : list Z) : option Z :=
  let (l1, _) := skipSpaces l 0 in
  match l1 with
  | [] => None
  | c :: l2 =>
    let '(neg, l3) := if c =? 45 then (true, l2) else if c =? 43 then (false, l2) else (false, l1) in
    match readHex (skip0x l3) 0 with
    | None => None
    | Some v => Some (if 18446744073709551615 <? v then 18446744073709551615 else u64 (if neg then - v else v))
    end
  end.

(** HttpHeader.cpp:18-46: [l] is the rest of the buffer from [ptr] on, at offset [off]; [m] the readable memory
    behind the buffer. [size] is the length of [l] ([size -= pos + 2] can wrap only when the
    loop ends). Line 28 never holds in the loop. *)
Fixpoint chunkLoop (fuel : nat) (m : list Z) (l : list Z) (off chunkSize : Z) (chunks : list (Z * Z)) : hout (list (Z * Z)) :=
  match fuel with
  | O => HNoEnd
  | S f =>
    match l with
    | [] => HVal chunks
    | _ =>
      let pos := match crlfAt l with Some k => k | None => (length l - 1)%nat end in
      let go cs ch := chunkLoop f m (skipn (pos + 2) l) (off + Z.of_nat pos + 2) cs ch in
      match pos with
      | O => go 0 chunks
      | S _ =>
        if chunkSize =? 0 then
          match strtoul16 (l ++ m) with None => HUndef | Some v => go (u32 v) chunks end
        else go 0 (chunks ++ [(u32 off, chunkSize)])
      end
    end
  end.

(** HttpHeader.cpp:10-49 *)
Definition readChunkedData (fuel : nat) (m b : list Z) (dataStart : Z) : hout (list (Z * Z)) :=
  chunkLoop fuel m (skipn (Z.to_nat dataStart) b) dataStart 0 [].

(** Helper of [useParam], HttpHeader.cpp:97-112. *)
Definition kContentLength : list Z := [67;79;78;84;69;78;84;45;76;69;78;71;84;72].
(** Helper of [useParam], HttpHeader.cpp:97-112. *)
Definition kTransferEncoding : list Z := [84;82;65;78;83;70;69;82;45;69;78;67;79;68;73;78;71].
(** Helper of [useParam], HttpHeader.cpp:97-112. *)
Definition kChunked : list Z := [67;72;85;78;75;69;68].

(** HttpHeader.cpp:97-112 for one parameter. *)
Definition useParam (fuel : nat) (m b : list Z) (p : list Z * list Z) (st : Z * Z) : hout (Z * Z) :=
  let name := map hUpper (fst p) in
  let value := map hUpper (snd p) in
  let '(start, size) := st in
  hbind (if list_eqb name kContentLength && negb (match value with [] => true | _ => false end)
         then hbind (stoul value) (fun v => HVal (u32 v)) else HVal size) (fun size =>
  if (size =? 0) && list_eqb name kTransferEncoding && list_eqb value kChunked then
    hbind (readChunkedData fuel m b start) (fun chunks =>
    match chunks with
    | [] => HVal (start, size)
    | (s, n) :: _ => HVal (s, n)
    end)
  else HVal (start, size)).

(** Helper of [readHttp], HttpHeader.cpp:56. *)
Fixpoint useParams (fuel : nat) (m b : list Z) (ps : list (list Z * list Z)) (st : Z * Z) : hout (Z * Z) :=
  match ps with
  | [] => HVal st
  | p :: ps' => hbind (useParam fuel m b p st) (useParams fuel m b ps')
  end.

(** [line.find("200 OK") != npos]. For [readHttp], HttpHeader.cpp:56. *)
Fixpoint contains (pat l : list Z) : bool :=
  list_eqb pat (firstn (length pat) l) || match l with [] => false | _ :: l' => contains pat l' end.
(** Helper of [readHttp], HttpHeader.cpp:56. *)
Definition k200OK : list Z := [50;48;48;32;79;75].

(** HttpHeader.cpp:56-122. [m] is the readable memory behind the buffer [b]. *)
Definition readHttp (fuel : nat) (m b : list Z) : hout httpInfo :=
  if (zlen b <? 4) || negb (list_eqb (firstn 4 b) [72;84;84;80] || list_eqb (firstn 4 b) [104;116;116;112])
  then HVal {| hvalid := false; hsuccess := false; hdataStart := 0; hdataSize := 0; hparams := [] |}
  else
    hbind (headerLoop fuel b 0 []) (fun r =>
    let '(start0, params) := r in
    hbind (useParams fuel m b params (start0, 0)) (fun r2 =>
    let '(start, size) := r2 in
    let up := map (fun p => (map hUpper (fst p), map hUpper (snd p))) params in
    HVal {| hvalid := negb (negb (start =? 0) && negb (negb (size =? 0) || (zlen b =? start)));
            hsuccess := match up with [] => false | p :: _ => contains k200OK (fst p) end;
            hdataStart := start; hdataSize := size; hparams := up |})).

(** HttpTrackerComm.cpp:145-193: what is returned and the announce response; a peer is its
    address as a [uint32_t] of host order and its port. *)
Record announceResp := { ainterval : Z; aseeds : Z; aleeches : Z; apeers : list (Z * Z) }.
(** Core/Interface.h:73-80: the defaults *)
Definition noResp : announceResp := {| ainterval := 300; aseeds := 0; aleeches := 0; apeers := [] |}.

(** HttpTrackerComm.cpp:173-181 *)
Fixpoint popPeers (n : nat) (r : reader) : res (list (Z * Z)) :=
  match n with
  | O => Ok []
  | S n' => bind (pop32 r) (fun ar => let (a, r1) := ar : Z * reader in
            bind (pop16 r1) (fun pr => let (p, r2) := pr : Z * reader in
            bind (popPeers n' r2) (fun l => Ok ((bswap 4 a, p) :: l))))
  end.

(** [getInt] of a name. For [readBody], HttpTrackerComm.cpp:156-183. *)
Definition getIntOf (fuel : nat) (m : list Z) (objs : list obj) (name : list Z) : out Z :=
  obind (getObject fuel m objs 0 name TNumber) (fun o =>
  match o with None => Val 0 | Some j => itemInt m (nth j objs noObj) end).

(** Helper of [readBody], HttpTrackerComm.cpp:156-183. *)
Definition kMinInterval : list Z := [109;105;110;32;105;110;116;101;114;118;97;108].
(** Helper of [readBody], HttpTrackerComm.cpp:156-183. *)
Definition kInterval : list Z := [105;110;116;101;114;118;97;108].
(** Helper of [readBody], HttpTrackerComm.cpp:156-183. *)
Definition kComplete : list Z := [99;111;109;112;108;101;116;101].
(** Helper of [readBody], HttpTrackerComm.cpp:156-183. *)
Definition kIncomplete : list Z := [105;110;99;111;109;112;108;101;116;101].
(** Helper of [readBody], HttpTrackerComm.cpp:156-183. *)
Definition kPeers : list Z := [112;101;101;114;115].

(** HttpTrackerComm.cpp:156-183 *)
Definition readBody (fuel : nat) (m : list Z) (len : Z) : out announceResp :=
  obind (parse fuel m len) (fun r =>
  if match pobjs r with [] => true | o :: _ => negb (typeEqb (otyp o) TDict) end then Val noResp
  else
    obind (getIntOf fuel m (pobjs r) kMinInterval) (fun i1 =>
    obind (if u32 i1 =? 0 then getIntOf fuel m (pobjs r) kInterval else Val i1) (fun i2 =>
    let interval := if u32 i2 =? 0 then 300 else u32 i2 in
    obind (getIntOf fuel m (pobjs r) kComplete) (fun s =>
    obind (getIntOf fuel m (pobjs r) kIncomplete) (fun l =>
    obind (getObject fuel m (pobjs r) 0 kPeers TText) (fun o =>
    match o with
    | None => Val {| ainterval := interval; aseeds := u32 s; aleeches := u32 l; apeers := [] |}
    | Some j =>
      let size := osize (nth j (pobjs r) noObj) in
      if Z.rem size 6 =? 0 then
        obind (itemText m (nth j (pobjs r) noObj)) (fun t =>
        match popPeers (Z.to_nat (size / 6)) (newReader t) with
        | UB => Undef
        | Ok ps => Val {| ainterval := interval; aseeds := u32 s; aleeches := u32 l; apeers := ps |}
        end)
      else Val {| ainterval := interval; aseeds := u32 s; aleeches := u32 l; apeers := [] |}
    end)))))).

(** HttpTrackerComm.cpp:145-193; -1 is [None]. The sum in 152 is computed in 32 bits. *)
Definition readAnnounceResponse (fuel : nat) (m b : list Z) : hout (option (Z * announceResp)) :=
  hbind (readHttp fuel m b) (fun info =>
  if negb (hvalid info) || negb (hsuccess info) then HVal None
  else if negb (hdataSize info =? 0) && negb (hdataStart info =? 0) && (u32 (hdataStart info + hdataSize info) <=? zlen b) then
    match readBody fuel (skipn (Z.to_nat (hdataStart info)) (b ++ m)) (hdataSize info) with
    | Val a => HVal (Some (u32 (hdataStart info + hdataSize info), a))
    | Undef => HUndef
    | NoEnd => HNoEnd
    end
  else HVal (Some (0, noResp))).
