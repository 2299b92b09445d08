(** Model of the address type of mtTorrent/utils/Network.cpp, Network.h. *)
From Verif Require Import Base PacketModel.

(** Network.h:27-29. Only the first 4 bytes of [addrBytes] are ever written for an IPv4
    address; the other 12 keep whatever was there (indeterminate for every constructor
    but the default one), so they are part of the state. *)
Record addr := { addrBytes : list Z; port : Z; ipv6 : bool }.

(** Helper of [parseAddr], Network.cpp:98-106. *)
Definition addrSize (v6 : bool) : nat := if v6 then 16 else 4.

(** [memcpy(addrBytes, src, n)]. For [parseAddr], Network.cpp:98-106. *)
Definition putBytes (old src : list Z) (n : nat) : list Z := firstn n src ++ skipn n old.

(** Network.cpp:98-106 [parse]: reads the address and a big-endian port from [b]; returns the
    new address and the number of bytes used. *)
Definition parseAddr (old : list Z) (b : list Z) (v6 : bool) : res (addr * Z) :=
  let n := addrSize v6 in
  if Nat.leb (n + 2) (length b) then
    Ok ({| addrBytes := putBytes old b n;
           port := bswap 2 (unle (slice n 2 b));
           ipv6 := v6 |}, 2 + Z.of_nat n)
  else UB.

(** Network.cpp:57-62 [set(ip, port, isIpv6)]. *)
Definition setAddr (old : list Z) (ip : list Z) (p : Z) (v6 : bool) : addr :=
  {| addrBytes := putBytes old ip (addrSize v6); port := p; ipv6 := v6 |}.

(** Network.cpp:175-184 [toData]. *)
Definition toData (a : addr) : list Z :=
  firstn (addrSize (ipv6 a)) (addrBytes a) ++ le 2 (bswap 2 (port a)).

(** Network.cpp:186-189 [valid]. *)
Definition validAddr (a : addr) : bool := negb (port a =? 0).

(** [memcmp(a, b, n)]: sign of the first difference of unsigned bytes. For [addrLt], Network.cpp:191-194. *)
Fixpoint memcmp (a b : list Z) (n : nat) : Z :=
  match n with
  | O => 0
  | S n' =>
    let x := hd 0 a in let y := hd 0 b in
    if x <? y then -1 else if y <? x then 1 else memcmp (tl a) (tl b) n'
  end.

(** Network.cpp:191-194 [operator<]. *)
Definition addrLt (l r : addr) : bool :=
  (port l <? port r) ||
  ((port l =? port r) && (memcmp (addrBytes l) (addrBytes r) (addrSize (ipv6 l)) <? 0)).

(** Network.cpp:196-199 [operator==]. *)
Definition addrEq (l r : addr) : bool :=
  (port l =? port r) && (memcmp (addrBytes l) (addrBytes r) (addrSize (ipv6 l)) =? 0).

(** Network.cpp:122-137 [iToString], [i] a byte. *)
Definition iToString (i : Z) : list Z :=
  let '(s1, i1) := if 99 <? i then ([48 + i / 100], i - i / 100 * 100) else ([], i) in
  let '(s2, i2) := if 9 <? i1 then ([48 + i1 / 10], i1 - i1 / 10 * 10) else ([], i1) in
  s1 ++ s2 ++ [48 + i2].

(** Network.cpp:152-160 the port, written backwards into a buffer of 5 characters; [UB] if
    more than 5 digits were needed (the write would precede the buffer). *)
Fixpoint portDigits (room : nat) (p : Z) (acc : list Z) : res (list Z) :=
  match room with
  | O => UB
  | S room' =>
    let acc' := (48 + p mod 10) :: acc in
    let p' := p / 10 in
    if p' =? 0 then Ok acc' else portDigits room' p' acc'
  end.

(** Network.cpp:139-163 [toIpv4String]. *)
Definition toIpv4String (b : list Z) (p : Z) : res (list Z) :=
  bind (portDigits 5 p []) (fun ps =>
  Ok (iToString (nth 0 b 0) ++ [46] ++ iToString (nth 1 b 0) ++ [46] ++
      iToString (nth 2 b 0) ++ [46] ++ iToString (nth 3 b 0) ++ [58] ++ ps)).
