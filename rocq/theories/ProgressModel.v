(** Model of mtTorrent/Core/PiecesProgress.cpp and of [Bitfield] in
    mtTorrent/Core/Api/InterfaceImpl.cpp. A read or write of [pieces[i]] or [data[i]] out of
    range is [UB]. The two percentages (12-20, floats for display) are left out. *)
From Verif Require Import Base.

(** PiecesProgress.h:37-44. Flags are bytes (PiecesProgress.cpp:4-5), counters are size_t. *)
Definition HasFlag : Z := 1.
(** Also PiecesProgress.h:37-44. *)
Definition UnselectedFlag : Z := 8.

(** Helper of [isEmpty], PiecesProgress.cpp:7-10. *)
Record progress := { pieces : list Z; selectedPieces : Z; receivedPiecesCount : Z; selectedReceivedPiecesCount : Z }.

(** PiecesProgress.h:35-41, the initial values of the members. *)
Definition emptyProgress : progress :=
  {| pieces := []; selectedPieces := 0; receivedPiecesCount := 0; selectedReceivedPiecesCount := 0 |}.

(** [pieces[i]]. For [selectedPiece], PiecesProgress.cpp:185-188. *)
Definition piece (p : progress) (i : Z) : res Z :=
  if (0 <=? i) && (i <? zlen (pieces p)) then Ok (nth (Z.to_nat i) (pieces p) 0) else UB.

(** [pieces[i] = x] for an index already read. For [removePiece], PiecesProgress.cpp:173-183. *)
Definition setPiece (p : progress) (i x : Z) : progress :=
  {| pieces := upd (Z.to_nat i) x (pieces p); selectedPieces := selectedPieces p;
     receivedPiecesCount := receivedPiecesCount p; selectedReceivedPiecesCount := selectedReceivedPiecesCount p |}.

(** Helper of [selectOne], PiecesProgress.cpp:129-149. *)
Definition addSelected (d : Z) (p : progress) : progress :=
  {| pieces := pieces p; selectedPieces := u64 (selectedPieces p + d);
     receivedPiecesCount := receivedPiecesCount p; selectedReceivedPiecesCount := selectedReceivedPiecesCount p |}.
(** Helper of [removePiece], PiecesProgress.cpp:173-183. *)
Definition addReceived (d : Z) (p : progress) : progress :=
  {| pieces := pieces p; selectedPieces := selectedPieces p;
     receivedPiecesCount := u64 (receivedPiecesCount p + d); selectedReceivedPiecesCount := selectedReceivedPiecesCount p |}.
(** Helper of [removePiece], PiecesProgress.cpp:173-183. *)
Definition addSelectedReceived (d : Z) (p : progress) : progress :=
  {| pieces := pieces p; selectedPieces := selectedPieces p;
     receivedPiecesCount := receivedPiecesCount p; selectedReceivedPiecesCount := u64 (selectedReceivedPiecesCount p + d) |}.

(** Helper of [getReceivedBytes], PiecesProgress.cpp:32-48. *)
Definition hasBit (x flag : Z) : bool := negb (Z.land x flag =? 0).

(** PiecesProgress.cpp:7-10 *)
Definition isEmpty (p : progress) : bool := receivedPiecesCount p =? 0.
(** PiecesProgress.cpp:22-25 *)
Definition finished (p : progress) : bool :=
  negb (zlen (pieces p) =? 0) && (receivedPiecesCount p =? zlen (pieces p)).
(** PiecesProgress.cpp:27-30 *)
Definition selectedFinished (p : progress) : bool :=
  negb (zlen (pieces p) =? 0) && (selectedReceivedPiecesCount p =? selectedPieces p).

(** PiecesProgress.cpp:32-48 *)
Definition getReceivedBytes (p : progress) (pieceSize fullSize : Z) : Z :=
  if zlen (pieces p) =? 0 then 0
  else if hasBit (last (pieces p) 0) HasFlag
  then u64 (fullSize mod pieceSize + u64 (u64 (receivedPiecesCount p - 1) * pieceSize))
  else u64 (receivedPiecesCount p * pieceSize).

(** PiecesProgress.cpp:50-66 *)
Definition getReceivedSelectedBytes (p : progress) (pieceSize fullSize : Z) : Z :=
  if zlen (pieces p) =? 0 then 0
  else if last (pieces p) 0 =? HasFlag
  then u64 (fullSize mod pieceSize + u64 (u64 (selectedReceivedPiecesCount p - 1) * pieceSize))
  else u64 (selectedReceivedPiecesCount p * pieceSize).

(** PiecesProgress.cpp:74-86: one pass of the loop *)
Definition countPiece (c : Z * Z * Z) (x : Z) : Z * Z * Z :=
  let '(recv, sel, selRecv) := c in
  let recv := if hasBit x HasFlag then u64 (recv + 1) else recv in
  if negb (hasBit x UnselectedFlag)
  then (recv, u64 (sel + 1), if hasBit x HasFlag then u64 (selRecv + 1) else selRecv)
  else (recv, sel, selRecv).

(** PiecesProgress.cpp:68-87 *)
Definition calculatePieces (p : progress) : progress :=
  let '(recv, sel, selRecv) := fold_left countPiece (pieces p) (0, 0, 0) in
  {| pieces := pieces p; selectedPieces := sel; receivedPiecesCount := recv; selectedReceivedPiecesCount := selRecv |}.

(** PiecesProgress.cpp:89-99 *)
Definition init (size : Z) (p : progress) : progress :=
  {| pieces := if zlen (pieces p) <? size
               then pieces p ++ repeat 0 (Z.to_nat (size - zlen (pieces p))) else pieces p;
     selectedPieces := size; receivedPiecesCount := 0; selectedReceivedPiecesCount := 0 |}.

(** PiecesProgress.cpp:101-114 *)
Definition resize (size : Z) (p : progress) : progress :=
  if zlen (pieces p) =? size then p
  else calculatePieces
    {| pieces := firstn (Z.to_nat size) (pieces p) ++ repeat 0 (Z.to_nat size - length (pieces p));
       selectedPieces := selectedPieces p; receivedPiecesCount := receivedPiecesCount p;
       selectedReceivedPiecesCount := selectedReceivedPiecesCount p |}.

(** PiecesProgress.cpp:185-188 *)
Definition selectedPiece (p : progress) (i : Z) : res bool :=
  bind (piece p i) (fun x => Ok (negb (hasBit x UnselectedFlag))).

(** PiecesProgress.cpp:190-193 *)
Definition wantedPiece (p : progress) (i : Z) : res bool := bind (piece p i) (fun x => Ok (x =? 0)).

(** PiecesProgress.cpp:168-171; [pieces[index]] is not read when all are received *)
Definition hasPiece (p : progress) (i : Z) : res bool :=
  if finished p then Ok true else bind (piece p i) (fun x => Ok (hasBit x HasFlag)).

(** PiecesProgress.cpp:173-183 *)
Definition removePiece (i : Z) (p : progress) : res progress :=
  bind (hasPiece p i) (fun h =>
  if h : bool then
    bind (selectedPiece p i) (fun s =>
    bind (piece p i) (fun x =>
    let p := if s : bool then addSelectedReceived (-1) p else p in
    Ok (addReceived (-1) (setPiece p i (Z.land x (Z.lxor 255 HasFlag))))))
  else Ok p).

(** PiecesProgress.cpp:153-166; [index + 1] is computed in 32 bits *)
Definition addPiece (i : Z) (p : progress) : res progress :=
  let p := if zlen (pieces p) <=? i then resize (u32 (i + 1)) p else p in
  bind (hasPiece p i) (fun h =>
  if h : bool then Ok p
  else
    bind (wantedPiece p i) (fun w =>
    bind (piece p i) (fun x =>
    let p := if w : bool then addSelectedReceived 1 p else p in
    Ok (addReceived 1 (setPiece p i (Z.lor x HasFlag)))))).

(** PiecesProgress.cpp:116-123: from [i] on, [n] pieces to go. [where] shorter than the pieces is read out of
    range. *)
Fixpoint removeReceivedFrom (n : nat) (i : Z) (wh : list bool) (p : progress) : res progress :=
  match n with
  | O => Ok p
  | S n' =>
    match nth_error wh (Z.to_nat i) with
    | None => UB
    | Some w => bind (if w then removePiece i p else Ok p) (removeReceivedFrom n' (i + 1) wh)
    end
  end.
(** Also PiecesProgress.cpp:116-123. *)
Definition removeReceived (wh : list bool) (p : progress) : res progress :=
  removeReceivedFrom (length (pieces p)) 0 wh p.

(** PiecesProgress.cpp:129-149: the body of the loop of [select] *)
Definition selectOne (i : Z) (selected : bool) (p : progress) : res progress :=
  bind (selectedPiece p i) (fun s =>
  if Bool.eqb s selected then Ok p
  else
    bind (piece p i) (fun x =>
    let p := if hasBit x HasFlag then addSelectedReceived (if selected then 1 else -1) p else p in
    if selected then Ok (setPiece (addSelected 1 p) i (Z.land x (Z.lxor 255 UnselectedFlag)))
    else Ok (setPiece (addSelected (-1) p) i (Z.lor x UnselectedFlag)))).

(** PiecesProgress.cpp:125-151: [n] indices from [i] on. The counter is 32 bits wide; it could only wrap after
    reading [pieces[2^32 - 1]], so the wrap is left out. *)
Fixpoint selectFrom (n : nat) (i : Z) (selected : bool) (p : progress) : res progress :=
  match n with
  | O => Ok p
  | S n' => bind (selectOne i selected p) (selectFrom n' (i + 1) selected)
  end.
(** Also PiecesProgress.cpp:125-151. *)
Definition select (start stop : Z) (selected : bool) (p : progress) : res progress :=
  selectFrom (Z.to_nat (stop + 1 - start)) start selected p.

(** The value of an integer converted to a 32-bit float: 24 significant bits, rounded to the
    nearest, ties to even. For [bitfieldPut], InterfaceImpl.cpp:208-228. *)
Definition f32 (n : Z) : Z :=
  if n <? 16777216 then n
  else
    let s := 2 ^ (Z.log2 n - 23) in
    let q := n / s in
    let r := n mod s in
    s * (if (s <? 2 * r) || ((2 * r =? s) && Z.odd q) then q + 1 else q).

(** [static_cast<...>(i / 8.0f)] and [ceil(size / 8.0f)]: a division by 8 is exact in floats. For [bitfieldPut], InterfaceImpl.cpp:208-228. *)
Definition byteIndex (i : Z) : Z := f32 i / 8.
(** Helper of [bitfieldInit], InterfaceImpl.cpp:208-228. *)
Definition byteCount (size : Z) : Z := (f32 size + 7) / 8.

(** [128 >> i % 8]. For [bitfieldPut], InterfaceImpl.cpp:208-228. *)
Definition bitMask (i : Z) : Z := Z.shiftr 128 (i mod 8).

(** InterfaceImpl.cpp:208-228 *)
Definition bitfieldInit (size : Z) : list Z := repeat 0 (Z.to_nat (byteCount size)).
(** Also InterfaceImpl.cpp:208-228. *)
Definition bitfieldPut (i : Z) (data : list Z) : res (list Z) :=
  match nth_error data (Z.to_nat (byteIndex i)) with
  | None => UB
  | Some x => Ok (upd (Z.to_nat (byteIndex i)) (Z.lor x (bitMask i)) data)
  end.
(** Also InterfaceImpl.cpp:208-228. *)
Definition bitfieldHas (i : Z) (data : list Z) : res bool :=
  match nth_error data (Z.to_nat (byteIndex i)) with
  | None => UB
  | Some x => Ok (hasBit x (bitMask i))
  end.

(** PiecesProgress.cpp:206-215: from [i] on, [n] pieces to go *)
Fixpoint fromBitfieldFrom (n : nat) (i : Z) (bitfield : list Z) (p : progress) : res progress :=
  match n with
  | O => Ok p
  | S n' =>
    match nth_error bitfield (Z.to_nat (byteIndex i)) with
    | None => UB
    | Some x =>
      let value := hasBit x (bitMask i) in
      bind (piece p i) (fun _ =>
      fromBitfieldFrom n' (i + 1) bitfield
        (addReceived (if value then 1 else 0) (setPiece p i (if value then HasFlag else 0))))
    end
  end.
(** PiecesProgress.cpp:200-216 *)
Definition fromBitfieldData (bitfield : list Z) (p : progress) : res progress :=
  let maxPiecesCount := if zlen (pieces p) =? 0 then zlen bitfield * 8 else zlen (pieces p) in
  fromBitfieldFrom (Z.to_nat maxPiecesCount) 0 bitfield (init maxPiecesCount p).

(** PiecesProgress.cpp:222-232: from [i] on *)
Fixpoint fromListFrom (i : Z) (l : list Z) (p : progress) : res progress :=
  match l with
  | [] => Ok p
  | x :: l' =>
    bind (piece p i) (fun old =>
    let p := if negb (x =? 0)
             then let p := addReceived 1 (setPiece p i (Z.lor old HasFlag)) in
                  if negb (hasBit (Z.lor old HasFlag) UnselectedFlag) then addSelectedReceived 1 p else p
             else setPiece p i (Z.land old (Z.lxor 255 HasFlag)) in
    fromListFrom (i + 1) l' p)
  end.
(** PiecesProgress.cpp:218-233 *)
Definition fromList (l : list Z) (p : progress) : res progress := fromListFrom 0 l (init (zlen l) p).

(** PiecesProgress.cpp:248-254: from [i] on, [n] pieces to go *)
Fixpoint toBitfieldFrom (n : nat) (i : Z) (p : progress) (data : list Z) : res (list Z) :=
  match n with
  | O => Ok data
  | S n' =>
    bind (hasPiece p i) (fun h =>
    bind (if h : bool then bitfieldPut i data else Ok data) (toBitfieldFrom n' (i + 1) p))
  end.
(** PiecesProgress.cpp:235-255 *)
Definition toBitfieldData (p : progress) : res (list Z) :=
  toBitfieldFrom (length (pieces p)) 0 p (bitfieldInit (zlen (pieces p))).
