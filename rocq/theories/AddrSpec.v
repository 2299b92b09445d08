(** What a peer address is to a user: the address bytes, the port, the family. *)
From Verif Require Import Base AddrModel.

(** The meaning of an address: family, its 4 or 16 bytes, its port. *)
Definition meaning (a : addr) : bool * list Z * Z :=
  (ipv6 a, firstn (addrSize (ipv6 a)) (addrBytes a), port a).

Definition addr_ok (a : addr) : Prop :=
  length (addrBytes a) = 16%nat /\ bytes_ok (addrBytes a) /\ 0 <= port a < 65536.

(** Decimal text without leading zeros: most significant digit first. *)
Inductive decimal : Z -> list Z -> Prop :=
| dec_digit d : 0 <= d < 10 -> decimal d [48 + d]
| dec_more n d t : 0 < n -> decimal n t -> 0 <= d < 10 -> decimal (n * 10 + d) (t ++ [48 + d]).

(** Lexicographic order on byte strings. *)
Fixpoint lex_lt (a b : list Z) : Prop :=
  match a, b with
  | x :: a', y :: b' => x < y \/ (x = y /\ lex_lt a' b')
  | _, _ => False
  end.
