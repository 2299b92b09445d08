(** The messages of the DHT as BEP 5 and BEP 32 describe them, as bencoded values. *)
From Verif Require Import Base Dec AddrModel BencodeSpec TfSpec NodeModel TableModel.
From Verif Require Import BencodeSpec DhtMsgModel.
From Coq Require Import String. From Coq Require Import List. Import ListNotations.
Local Close Scope string_scope.

Definition dict := list (list Z * bval).

(** A node on the wire: 20 bytes of id, 4 or 16 of address, the port with the high byte first. *)
Definition contact := (list Z * list Z * Z)%type.
Definition wire (c : contact) : list Z := fst (fst c) ++ snd (fst c) ++ be 2 (snd c).
Definition ip_length (v6 : bool) : nat := if v6 then 16 else 4.
Definition contact_ok (v6 : bool) (c : contact) : Prop :=
  length (fst (fst c)) = 20%nat /\ length (snd (fst c)) = ip_length v6 /\ 0 <= snd c < 65536.

(** What matters of a node and of an address: the rest of the 16 bytes of an IPv4 address is never looked at. *)
Definition node_view (n : nodeInfo) : bool * contact := (ipv6 n, (id n, firstn (ip_length (ipv6 n)) (addrBytes n), port n)).
Definition addr_view (a : addr) : bool * (list Z * Z) := (AddrModel.ipv6 a, (firstn (ip_length (AddrModel.ipv6 a)) (AddrModel.addrBytes a), AddrModel.port a)).

(** Of nodes with the same id only the first is kept. *)
Fixpoint firsts (have : list (list Z)) (l : list (bool * contact)) : list (bool * contact) :=
  match l with
  | [] => []
  | c :: l' => let i := fst (fst (snd c)) in
               if existsb (list_eqb i) have then firsts have l' else c :: firsts (i :: have) l'
  end.

(** The peers of an answer: texts of 6 or 18 bytes. *)
Definition peer_ok (v : bval) : Prop := match v with BStr s => length s = 6%nat \/ length s = 18%nat | _ => True end.
Definition peer_of (s : list Z) : bool * (list Z * Z) :=
  let n := (List.length s - 2)%nat in (Nat.eqb (List.length s) 18, (firstn n s, unbe (skipn n s))).

(** The code of an error: the first item of "e". *)
Definition error_ok (d : dict) : Prop :=
  match listOf (lit "e") d with Some (BInt n :: _) => n < 9223372036854775808 | Some (_ :: _) => False | _ => True end.
Definition error_of (d : dict) : Z := match listOf (lit "e") d with Some (BInt n :: _) => i32 n | _ => 0 end.

(** A message that fits a packet; the rest of the receive buffer follows it. *)
Definition message_ok (fuel : nat) (d : dict) : Prop :=
  bval_ok (BDict d) /\ Z.of_nat (nodes (BDict d)) < 65536 /\ zlen (bencode (BDict d)) < 2147483648 /\ (2 * nodes (BDict d) <= fuel)%nat.
