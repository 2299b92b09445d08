(** Decimal text as the C and C++ library writes and reads it. *)
From Verif Require Import Base.

(** [std::to_string] of a non-negative number. *)
Fixpoint decDigits (fuel : nat) (n : Z) : list Z :=
  match fuel with
  | O => []
  | S f => if n <? 10 then [48 + n] else decDigits f (n / 10) ++ [48 + n mod 10]
  end.
Definition toString (n : Z) : list Z := decDigits (S (Z.to_nat (Z.log2 n))) n.

Definition isDigit (c : Z) : bool := (48 <=? c) && (c <=? 57).

(** C [isspace] in the default locale. *)
Definition isSpace (c : Z) : bool := ((9 <=? c) && (c <=? 13)) || (c =? 32).

(** [strtol] with base 10 from the start of [l], where [l] is the readable memory from the
    pointer on: the digits after optional spaces and a sign, and how many characters were
    taken. [None]: it ran past readable memory. *)
Fixpoint readDigits (l : list Z) (acc : Z) (n : nat) : option (Z * nat) :=
  match l with
  | [] => None
  | c :: l' => if isDigit c then readDigits l' (acc * 10 + (c - 48)) (S n) else Some (acc, n)
  end.

Fixpoint skipSpaces (l : list Z) (n : nat) : list Z * nat :=
  match l with
  | [] => ([], n)
  | c :: l' => if isSpace c then skipSpaces l' (S n) else (l, n)
  end.

(** The value before it is limited to the result type, and the characters taken. *)
Definition strtoz (l : list Z) : option (Z * nat) :=
  let (l1, n1) := skipSpaces l 0 in
  match l1 with
  | [] => None
  | c :: l2 =>
    let '(neg, l3, n2) := if c =? 45 then (true, l2, S n1)
                          else if c =? 43 then (false, l2, S n1) else (false, l1, n1) in
    match readDigits l3 0 0 with
    | None => None
    | Some (_, O) => Some (0, O)
    | Some (v, n) => Some (if neg then - v else v, (n2 + n)%nat)
    end
  end.

(** [long] has 64 bits. *)
Definition clampLong (v : Z) : Z := Z.max (- 9223372036854775808) (Z.min 9223372036854775807 v).
Definition strtol (l : list Z) : option (Z * nat) :=
  match strtoz l with None => None | Some (v, n) => Some (clampLong v, n) end.

(** [strtoull]: too large gives the maximum, a minus sign negates modulo 2^64. *)
Definition strtoull (l : list Z) : option (Z * nat) :=
  match strtoz l with
  | None => None
  | Some (v, n) => Some (if 18446744073709551615 <? Z.abs v then 18446744073709551615 else u64 v, n)
  end.

(** Conversion of a wide integer to [int]. *)
Definition i32 (v : Z) : Z := (v + 2147483648) mod 4294967296 - 2147483648.
