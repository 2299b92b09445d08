(** What a typed address is, for C107. *)
From Verif Require Import Base AddrModel AddrSpec.

(** How many colons a text has. *)
Definition colons (t : list Z) : nat := count_occ Z.eq_dec t 58.

(** "a.b.c.d", each number in decimal. *)
Definition quad (b : list Z) (t : list Z) : Prop := exists a1 a2 a3 a4 t1 t2 t3 t4,
  b = [a1; a2; a3; a4] /\ is_byte a1 /\ is_byte a2 /\ is_byte a3 /\ is_byte a4 /\
  decimal a1 t1 /\ decimal a2 t2 /\ decimal a3 t3 /\ decimal a4 t4 /\ t = t1 ++ [46] ++ t2 ++ [46] ++ t3 ++ [46] ++ t4.

(** A reader of addresses: IPv4 text is a dotted quad, so has no colon; IPv6 text has at least two. *)
Definition reader (make : list Z -> option (bool * list Z)) : Prop :=
  (forall b t, quad b t -> make t = Some (false, b)) /\
  (forall t b, make t = Some (false, b) -> quad b t) /\
  (forall t b, make t = Some (true, b) -> length b = 16%nat /\ bytes_ok b /\ (2 <= colons t)%nat).
