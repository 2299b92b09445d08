(** Model of how an address typed in becomes a peer: mtTorrent/utils/Network.cpp [fromString] and [set],
    mtTorrent/Core/Api/PeersImpl.cpp and Peers.cpp [connect]. asio's make_address is a parameter: [Some (v6, bytes)], or
    [None] where it gives an error, in which case it returns address(), which is 0.0.0.0. A text is the characters before
    its terminating zero. *)
From Verif Require Import Base Dec AddrModel PeersModel.

Section AddrText.
(** asio::ip::make_address(str, ec) *)
Variable makeAddress : list Z -> option (bool * list Z).

(** Network.cpp:51-55 *)
Definition asioFromString (t : list Z) : bool * list Z := match makeAddress t with Some a => a | None => (false, [0; 0; 0; 0]) end.

(** asio's address::is_unspecified. For [setAsio], Network.cpp:78-96. *)
Definition isUnspecified (a : bool * list Z) : bool := forallb (fun b => b =? 0) (snd a).

(** Network.cpp:78-96; [a] the object before it. *)
Definition setAsio (a : addr) (x : bool * list Z) (p : Z) : addr :=
  if isUnspecified x then a else {| addrBytes := putBytes (addrBytes a) (snd x) (addrSize (fst x)); port := p; ipv6 := fst x |}.

(** Network.cpp:29-32 and Network.h:27-29: [old] is what the memory of addrBytes holds. *)
Definition newAddr (old : list Z) (x : bool * list Z) (p : Z) : addr := setAsio {| addrBytes := old; port := 0; ipv6 := false |} x p.

(** Network.cpp:36-41, from the end down; the character at 0 is not looked at. *)
Fixpoint portStart (t : list Z) (n : nat) : nat :=
  match n with
  | O => O
  | S m => if nth n (t ++ [0]) 0 =? 58 then n else portStart t m
  end.

(** Network.cpp:34-44; [UB] where strtoul reads past the terminating zero. Simplified: unsigned long has 64 bits. *)
Definition fromString (old t : list Z) : res addr :=
  match strtoull (skipn (portStart t (length t) + 1) (t ++ [0])) with
  | None => UB
  | Some (v, _) => Ok (newAddr old (asioFromString t) (u16 v))
  end.

(** Network.cpp:46-49 *)
Definition fromStringPort (old t : list Z) (p : Z) : addr := newAddr old (asioFromString t) p.

(** Network.cpp:71-76; [UB] where memcpy writes past the 16 bytes. *)
Definition setBuffer (old ip : list Z) (p : Z) : res addr :=
  if (length ip <=? 16)%nat then Ok {| addrBytes := putBytes old ip (length ip); port := p; ipv6 := (4 <? length ip)%nat |} else UB.

(** PeersImpl.cpp:28-31 with Peers.cpp:179-215; [None] is E_InvalidInput. *)
Definition connectText (tcpOut utpOut preferUtp : bool) (s : peers addr) (old t : list Z) (time : Z) : res (option (peers addr)) :=
  bind (fromString old t) (fun a =>
  if validAddr a then bind (connectAddr addr addrEq {| addrBytes := repeat 0 16; port := 0; ipv6 := false |} tcpOut utpOut preferUtp s a false time) (fun s' => Ok (Some s'))
  else Ok None).
End AddrText.
