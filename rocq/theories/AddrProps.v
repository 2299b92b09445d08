(** C10: peer addresses. *)
From Verif Require Import Base BaseLemmas AddrModel AddrSpec AddrProofs.

(** The compact form of an address (4 or 16 bytes and the port), followed by anything, reads
    back as an address with the same meaning, using exactly its own bytes. *)
Theorem C10_addr_round_trip : forall old a rest, addr_ok a ->
  exists a', parseAddr old (toData a ++ rest) (ipv6 a) = Ok (a', zlen (toData a))
    /\ meaning a' = meaning a.
Proof. exact parse_toData. Qed.
Print Assumptions C10_addr_round_trip.

(** Anything read from a large enough buffer is a proper address. *)
Theorem C10_addr_parse_ok : forall old b v6 a n, length old = 16%nat -> bytes_ok old -> bytes_ok b ->
  parseAddr old b v6 = Ok (a, n) -> addr_ok a.
Proof. exact parse_ok. Qed.
Print Assumptions C10_addr_parse_ok.

(** Within one family equality is equality of address and port (so an equivalence) ... *)
Theorem C10_addr_eq_partial : forall a b, addr_ok a -> addr_ok b -> ipv6 a = ipv6 b ->
  (addrEq a b = true <-> meaning a = meaning b).
Proof. exact addrEq_family. Qed.
Print Assumptions C10_addr_eq_partial.

(** ... and the order is a strict total order consistent with it. *)
Theorem C10_addr_order_partial :
  (forall a, addr_ok a -> addrLt a a = false) /\
  (forall a b c, addr_ok a -> addr_ok b -> addr_ok c -> ipv6 a = ipv6 b -> ipv6 b = ipv6 c ->
     addrLt a b = true -> addrLt b c = true -> addrLt a c = true) /\
  (forall a b, addr_ok a -> addr_ok b -> ipv6 a = ipv6 b ->
     addrEq a b = true \/ addrLt a b = true \/ addrLt b a = true).
Proof. exact (conj addrLt_irrefl (conj addrLt_trans addrLt_total)). Qed.
Print Assumptions C10_addr_order_partial.

(** Finding: across families equality is neither symmetric nor transitive, and calls
    addresses with different meanings equal ... *)
Theorem C10_addr_eq_refuted :
  exists a b c, addr_ok a /\ addr_ok b /\ addr_ok c /\
    (addrEq a b = true /\ addrEq b a = false /\ meaning a <> meaning b) /\
    (addrEq a b = true /\ addrEq a c = true /\ addrEq b c = false).
Proof. exact addrEq_refuted. Qed.
Print Assumptions C10_addr_eq_refuted.

(** ... and the order is not a strict weak order, as sorted containers require. *)
Theorem C10_addr_order_refuted :
  exists a b c, addr_ok a /\ addr_ok b /\ addr_ok c /\
    addrLt a b = false /\ addrLt b a = false /\ addrLt a c = false /\ addrLt c a = false /\
    addrLt c b = true.
Proof. exact addrLt_refuted. Qed.
Print Assumptions C10_addr_order_refuted.

(** The text form a.b.c.d:port is decimal notation when no byte is 100..109 or 200..209 ... *)
Theorem C10_addr_text_partial : forall a b c d p,
  is_byte a -> is_byte b -> is_byte c -> is_byte d -> 0 <= p < 65536 ->
  ~ zero_tens a -> ~ zero_tens b -> ~ zero_tens c -> ~ zero_tens d ->
  exists ta tb tc td tp,
    decimal a ta /\ decimal b tb /\ decimal c tc /\ decimal d td /\ decimal p tp /\
    toIpv4String [a;b;c;d] p = Ok (ta ++ [46] ++ tb ++ [46] ++ tc ++ [46] ++ td ++ [58] ++ tp).
Proof. exact toIpv4String_ok. Qed.
Print Assumptions C10_addr_text_partial.

(** ... and for such a byte it is not: the zero in the tens place is dropped ... *)
Theorem C10_addr_text_exact : forall i, is_byte i -> (decimal i (iToString i) <-> ~ zero_tens i).
Proof. exact iToString_decimal_iff. Qed.
Print Assumptions C10_addr_text_exact.

(** ... so 10.0.0.105 and 10.0.0.15 have the same text. *)
Theorem C10_addr_text_refuted :
  toIpv4String [10;0;0;105] 6881 = toIpv4String [10;0;0;15] 6881 /\ toIpv4String [10;0;0;105] 6881 <> UB.
Proof. exact toIpv4String_collision. Qed.
Print Assumptions C10_addr_text_refuted.

Example C10_ex1 : addr_ok v4a /\ addr_ok v6a /\ addr_ok v6b.
Proof. exact ex_ok. Qed.
Example C10_ex2 : parseAddr (repeat 0 16) [1;2;3;4;26;225;99] false = Ok (v4a, 6).
Proof. vm_compute; reflexivity. Qed.
Example C10_ex3 : toIpv4String [192;168;0;17] 6881
  = Ok [49;57;50;46;49;54;56;46;48;46;49;55;58;54;56;56;49].
Proof. vm_compute; reflexivity. Qed.
