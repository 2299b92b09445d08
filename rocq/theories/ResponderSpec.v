(** Announces seen from outside. *)
From Coq Require Import Permutation.
From Verif Require Import Base AddrModel AddrSpec ResponderModel.

Inductive op := Announce (h : list Z) (peer : addr) (now : Z) | Refresh (now : Z).

Definition do_op (maxStored : Z) (m : values) (o : op) : values :=
  match o with Announce h p now => announcedPeer maxStored m h p now | Refresh now => refreshStoredValues m now end.
Definition run (maxStored : Z) (os : list op) (m : values) : values := fold_left (do_op maxStored) os m.

Definition time_of (o : op) : Z := match o with Announce _ _ t => t | Refresh t => t end.
(** Unix times. *)
Definition op_ok (o : op) : Prop := 1800 <= time_of o < 2 ^ 63 /\ match o with Announce _ p _ => addr_ok p | _ => True end.

Definition peers_of (os : list op) : list addr := flat_map (fun o => match o with Announce _ p _ => [p] | _ => [] end) os.

(** No IPv6 address begins with the bytes of an IPv4 address of the same port. *)
Definition no_clash (ps : list addr) : Prop :=
  forall a b, In a ps -> In b ps -> ipv6 a <> ipv6 b -> port a <> port b \/ firstn 4 (addrBytes a) <> firstn 4 (addrBytes b).

Definition stored (m : values) (h : list Z) : list storedValue := match lookup h m with Some l => l | None => [] end.
Definition sum (l : list Z) : Z := fold_right Z.add 0 l.
