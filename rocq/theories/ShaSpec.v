(** SHA-1 as in FIPS 180-4. *)
From Verif Require Import Base.

(** 3.2: rotation of a 32-bit word. *)
Definition ROTL (n x : Z) : Z := (x * 2 ^ n) mod 2 ^ 32 + x / 2 ^ (32 - n).

(** 4.1.1, 4.2.1 *)
Definition Ch x y z := Z.lxor (Z.land x y) (Z.land (Z.lnot x) z).
Definition Parity x y z := Z.lxor x (Z.lxor y z).
Definition Maj x y z := Z.lxor (Z.land x y) (Z.lxor (Z.land x z) (Z.land y z)).
Definition f (t : nat) : Z -> Z -> Z -> Z :=
  if (t <? 20)%nat then Ch else if (t <? 40)%nat then Parity else if (t <? 60)%nat then Maj else Parity.
Definition K (t : nat) : Z :=
  if (t <? 20)%nat then 0x5a827999 else if (t <? 40)%nat then 0x6ed9eba1 else if (t <? 60)%nat then 0x8f1bbcdc else 0xca62c1d6.

(** 5.1.1: 0x80, the fewest zeros that fill blocks of 64 bytes, the length in bits. *)
Definition padding (n : nat) : list Z :=
  0x80 :: repeat 0 (Z.to_nat ((55 - Z.of_nat n) mod 64)) ++ be 8 (8 * Z.of_nat n).

(** 5.2.1 *)
Definition word (b : list Z) (i : nat) : Z := unbe (slice (4 * i) 4 b).

(** 6.1.2 step 1: the first [n + 16] words of the message schedule. *)
Fixpoint schedule (b : list Z) (n : nat) : list Z :=
  match n with
  | O => map (word b) (seq 0 16)
  | S n' => let w := schedule b n' in let t := (n' + 16)%nat in
            w ++ [ROTL 1 (Z.lxor (Z.lxor (nth (t - 3) w 0) (nth (t - 8) w 0)) (Z.lxor (nth (t - 14) w 0) (nth (t - 16) w 0)))]
  end.

(** 6.1.2 steps 2 and 3. *)
Record vars := { va : Z; vb : Z; vc : Z; vd : Z; ve : Z }.
Definition hash_step (w : list Z) (v : vars) (t : nat) : vars :=
  {| va := (ROTL 5 (va v) + f t (vb v) (vc v) (vd v) + ve v + K t + nth t w 0) mod 2 ^ 32;
     vb := va v; vc := ROTL 30 (vb v); vd := vc v; ve := vd v |}.
(** step 4 *)
Definition hash_block (h : vars) (b : list Z) : vars :=
  let v := fold_left (hash_step (schedule b 64)) (seq 0 80) h in
  {| va := (va v + va h) mod 2 ^ 32; vb := (vb v + vb h) mod 2 ^ 32; vc := (vc v + vc h) mod 2 ^ 32;
     vd := (vd v + vd h) mod 2 ^ 32; ve := (ve v + ve h) mod 2 ^ 32 |}.

(** 5.3.1 *)
Definition H0 : vars := {| va := 0x67452301; vb := 0xefcdab89; vc := 0x98badcfe; vd := 0x10325476; ve := 0xc3d2e1f0 |}.

Definition blocks (m : list Z) : list (list Z) := map (fun i => slice (64 * i) 64 m) (seq 0 (length m / 64)).

Definition sha1 (m : list Z) : list Z :=
  let h := fold_left hash_block (blocks (m ++ padding (length m))) H0 in
  be 4 (va h) ++ be 4 (vb h) ++ be 4 (vc h) ++ be 4 (vd h) ++ be 4 (ve h).
