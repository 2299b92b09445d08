(** Base32 text of RFC 4648 section 6, written from the RFC: a group of 5 bytes is the
    40-bit big-endian number whose 8 base-32 digits are spelled with "A".."Z","2".."7". *)
From Verif Require Import Base.

Definition b32_char (d : Z) : Z := if d <? 26 then 65 + d else 50 + (d - 26).

(** The [k]-th of the 8 digits of a 40-bit number. *)
Definition b32_digit (n : Z) (k : nat) : Z := n / 32 ^ (7 - Z.of_nat k) mod 32.

(** Number of significant characters for a group of [n] bytes. *)
Definition b32_used (n : nat) : nat :=
  match n with 1 => 2 | 2 => 4 | 3 => 5 | 4 => 7 | _ => 8 end%nat.

(** One group of 1..5 bytes, padded with zero bits on the right, and '=' if [pad]. *)
Definition b32_group (pad : bool) (g : list Z) : list Z :=
  let n := unbe (g ++ repeat 0 (5 - length g)) in
  map (fun k => b32_char (b32_digit n k)) (seq 0 (b32_used (length g)))
  ++ (if pad then repeat 61 (8 - b32_used (length g)) else []).

Fixpoint b32_encode (pad : bool) (fuel : nat) (l : list Z) : list Z :=
  match fuel, l with
  | S fuel', _ :: _ => b32_group pad (firstn 5 l) ++ b32_encode pad fuel' (skipn 5 l)
  | _, _ => []
  end.

Definition base32_text (pad : bool) (l : list Z) : list Z := b32_encode pad (length l) l.

(** Two characters equal up to letter case. *)
Definition same_letter (a b : Z) : Prop :=
  a = b \/ (65 <= a <= 90 /\ b = a + 32).
