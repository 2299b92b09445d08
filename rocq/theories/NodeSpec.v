(** The Kademlia metric on 160-bit numbers. *)
From Verif Require Import Base.

Definition id_ok (l : list Z) : Prop := length l = 20%nat /\ bytes_ok l.
Definition id_value (l : list Z) : Z := unbe l.
Definition xor_dist (a b : list Z) : Z := Z.lxor (id_value a) (id_value b).
(** The position of the top bit set, 0 for zero. *)
Definition top_bit (v k : Z) : Prop := (2 ^ k <= v < 2 ^ (k + 1)) \/ (v = 0 /\ k = 0).
