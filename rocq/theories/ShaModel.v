(** Model of mtTorrent/utils/SHA.cpp. *)
From Verif Require Import Base.

(** SHA.cpp:45-48; size_t bits is 1, 5 or 30 *)
Definition rol (value bits : Z) : Z := Z.lor (u32 (Z.shiftl value bits)) (Z.shiftr value (32 - bits)).

(** SHA.cpp:51-54; indices are taken & 15 *)
Definition blk (block : list Z) (i : nat) : Z :=
  let at_ j := nth (j mod 16)%nat block 0 in
  rol (Z.lxor (Z.lxor (Z.lxor (at_ (i + 13)%nat) (at_ (i + 8)%nat)) (at_ (i + 2)%nat)) (nth i block 0)) 1.

(** The functions R0..R4, and the names of the working variables a..e of [transform]. For [roundF], SHA.cpp:63, 71, 79. *)
Inductive round := R0 | R1 | R2 | R3 | R4.
(** Helper of [rounds], SHA.cpp:114-193. *)
Definition rA : nat := 0. Definition rB : nat := 1. Definition rC : nat := 2. Definition rD : nat := 3. Definition rE : nat := 4.

(** SHA.cpp:63, 71, 79, 87, 95: the bitwise function and the constant *)
Definition roundF (r : round) (w x y : Z) : Z :=
  match r with
  | R0 | R1 => Z.lxor (Z.land w (Z.lxor x y)) y
  | R2 | R4 => Z.lxor (Z.lxor w x) y
  | R3 => Z.lor (Z.land (Z.lor w x) y) (Z.land w x)
  end.
(** Also SHA.cpp:63, 71, 79, 87, 95. *)
Definition roundK (r : round) : Z :=
  match r with R0 | R1 => 0x5a827999 | R2 => 0x6ed9eba1 | R3 => 0x8f1bbcdc | R4 => 0xca62c1d6 end.

(** SHA.cpp:61-97: one call Rk(block, v, w, x, y, z, i); the arguments v..z are working variables, w and z
    references *)
Definition doRound (block regs : list Z) (op : round * (nat * nat * nat * nat * nat) * nat) : list Z * list Z :=
  let '(r, (v, w, x, y, z), i) := op in
  let block' := match r with R0 => block | _ => upd i (blk block i) block end in
  let reg n := nth n regs 0 in
  let z' := u32 (reg z + (roundF r (reg w) (reg x) (reg y) + nth i block' 0 + roundK r + rol (reg v) 5)) in
  (block', upd w (rol (reg w) 30) (upd z z' regs)).

(** SHA.cpp:114-193, line by line *)
Definition rounds : list (round * (nat * nat * nat * nat * nat) * nat) :=
  [
   (R0, (rA, rB, rC, rD, rE), 0%nat);
   (R0, (rE, rA, rB, rC, rD), 1%nat);
   (R0, (rD, rE, rA, rB, rC), 2%nat);
   (R0, (rC, rD, rE, rA, rB), 3%nat);
   (R0, (rB, rC, rD, rE, rA), 4%nat);
   (R0, (rA, rB, rC, rD, rE), 5%nat);
   (R0, (rE, rA, rB, rC, rD), 6%nat);
   (R0, (rD, rE, rA, rB, rC), 7%nat);
   (R0, (rC, rD, rE, rA, rB), 8%nat);
   (R0, (rB, rC, rD, rE, rA), 9%nat);
   (R0, (rA, rB, rC, rD, rE), 10%nat);
   (R0, (rE, rA, rB, rC, rD), 11%nat);
   (R0, (rD, rE, rA, rB, rC), 12%nat);
   (R0, (rC, rD, rE, rA, rB), 13%nat);
   (R0, (rB, rC, rD, rE, rA), 14%nat);
   (R0, (rA, rB, rC, rD, rE), 15%nat);
   (R1, (rE, rA, rB, rC, rD), 0%nat);
   (R1, (rD, rE, rA, rB, rC), 1%nat);
   (R1, (rC, rD, rE, rA, rB), 2%nat);
   (R1, (rB, rC, rD, rE, rA), 3%nat);
   (R2, (rA, rB, rC, rD, rE), 4%nat);
   (R2, (rE, rA, rB, rC, rD), 5%nat);
   (R2, (rD, rE, rA, rB, rC), 6%nat);
   (R2, (rC, rD, rE, rA, rB), 7%nat);
   (R2, (rB, rC, rD, rE, rA), 8%nat);
   (R2, (rA, rB, rC, rD, rE), 9%nat);
   (R2, (rE, rA, rB, rC, rD), 10%nat);
   (R2, (rD, rE, rA, rB, rC), 11%nat);
   (R2, (rC, rD, rE, rA, rB), 12%nat);
   (R2, (rB, rC, rD, rE, rA), 13%nat);
   (R2, (rA, rB, rC, rD, rE), 14%nat);
   (R2, (rE, rA, rB, rC, rD), 15%nat);
   (R2, (rD, rE, rA, rB, rC), 0%nat);
   (R2, (rC, rD, rE, rA, rB), 1%nat);
   (R2, (rB, rC, rD, rE, rA), 2%nat);
   (R2, (rA, rB, rC, rD, rE), 3%nat);
   (R2, (rE, rA, rB, rC, rD), 4%nat);
   (R2, (rD, rE, rA, rB, rC), 5%nat);
   (R2, (rC, rD, rE, rA, rB), 6%nat);
   (R2, (rB, rC, rD, rE, rA), 7%nat);
   (R3, (rA, rB, rC, rD, rE), 8%nat);
   (R3, (rE, rA, rB, rC, rD), 9%nat);
   (R3, (rD, rE, rA, rB, rC), 10%nat);
   (R3, (rC, rD, rE, rA, rB), 11%nat);
   (R3, (rB, rC, rD, rE, rA), 12%nat);
   (R3, (rA, rB, rC, rD, rE), 13%nat);
   (R3, (rE, rA, rB, rC, rD), 14%nat);
   (R3, (rD, rE, rA, rB, rC), 15%nat);
   (R3, (rC, rD, rE, rA, rB), 0%nat);
   (R3, (rB, rC, rD, rE, rA), 1%nat);
   (R3, (rA, rB, rC, rD, rE), 2%nat);
   (R3, (rE, rA, rB, rC, rD), 3%nat);
   (R3, (rD, rE, rA, rB, rC), 4%nat);
   (R3, (rC, rD, rE, rA, rB), 5%nat);
   (R3, (rB, rC, rD, rE, rA), 6%nat);
   (R3, (rA, rB, rC, rD, rE), 7%nat);
   (R3, (rE, rA, rB, rC, rD), 8%nat);
   (R3, (rD, rE, rA, rB, rC), 9%nat);
   (R3, (rC, rD, rE, rA, rB), 10%nat);
   (R3, (rB, rC, rD, rE, rA), 11%nat);
   (R4, (rA, rB, rC, rD, rE), 12%nat);
   (R4, (rE, rA, rB, rC, rD), 13%nat);
   (R4, (rD, rE, rA, rB, rC), 14%nat);
   (R4, (rC, rD, rE, rA, rB), 15%nat);
   (R4, (rB, rC, rD, rE, rA), 0%nat);
   (R4, (rA, rB, rC, rD, rE), 1%nat);
   (R4, (rE, rA, rB, rC, rD), 2%nat);
   (R4, (rD, rE, rA, rB, rC), 3%nat);
   (R4, (rC, rD, rE, rA, rB), 4%nat);
   (R4, (rB, rC, rD, rE, rA), 5%nat);
   (R4, (rA, rB, rC, rD, rE), 6%nat);
   (R4, (rE, rA, rB, rC, rD), 7%nat);
   (R4, (rD, rE, rA, rB, rC), 8%nat);
   (R4, (rC, rD, rE, rA, rB), 9%nat);
   (R4, (rB, rC, rD, rE, rA), 10%nat);
   (R4, (rA, rB, rC, rD, rE), 11%nat);
   (R4, (rE, rA, rB, rC, rD), 12%nat);
   (R4, (rD, rE, rA, rB, rC), 13%nat);
   (R4, (rC, rD, rE, rA, rB), 14%nat);
   (R4, (rB, rC, rD, rE, rA), 15%nat)].

(** SHA.cpp:104-204, without the count of transformations; 195-200 add the working variables *)
Definition transform (digest block : list Z) : list Z * list Z :=
  let '(block', regs) := fold_left (fun '(b, r) op => doRound b r op) rounds (block, digest) in
  (map (fun '(d, r) => u32 (d + r)) (combine digest regs), block').

(** SHA.cpp:207-217 *)
Definition buffer_to_block (buffer : list Z) : list Z :=
  map (fun i => Z.lor (Z.lor (Z.lor (nth (4 * i + 3) buffer 0) (Z.shiftl (nth (4 * i + 2) buffer 0) 8))
                             (Z.shiftl (nth (4 * i + 1) buffer 0) 16))
                      (Z.shiftl (nth (4 * i) buffer 0) 24)) (seq 0 16).

(** SHA.cpp:10-23 *)
Record sha := { digest : list Z; buffer : list Z; transforms : Z }.

(** SHA.cpp:30-42, 220-223 *)
Definition reset : sha :=
  {| digest := [0x67452301; 0xefcdab89; 0x98badcfe; 0x10325476; 0xc3d2e1f0]; buffer := []; transforms := 0 |}.

(** SHA.cpp:229-249; every turn reads at least a byte, so as many turns as bytes are enough *)
Fixpoint updateLoop (fuel : nat) (s : sha) (data : list Z) : sha :=
  match fuel, data with
  | O, _ => s
  | _, [] => s
  | S fuel', _ =>
    let readSize := Nat.min (64 - length (buffer s)) (length data) in
    let b := buffer s ++ firstn readSize data in
    if negb (length b =? 64)%nat then {| digest := digest s; buffer := b; transforms := transforms s |}
    else updateLoop fuel' {| digest := fst (transform (digest s) (buffer_to_block b)); buffer := []; transforms := u64 (transforms s + 1) |} (skipn readSize data)
  end.

(** SHA.cpp:225-250 *)
Definition update (s : sha) (data : list Z) : sha := updateLoop (length data) s data.

(** SHA.cpp:256-285; the digest at the end *)
Definition final (s : sha) : list Z :=
  let total_bits := u64 ((transforms s * 64 + zlen (buffer s)) * 8) in
  let b := buffer s ++ [0x80] in
  let orig_size := length b in
  let block := buffer_to_block (b ++ repeat 0 (64 - orig_size)) in
  let '(d, block) := if (56 <? orig_size)%nat
                     then let '(d, blk) := transform (digest s) block in (d, repeat 0 14 ++ skipn 14 blk)
                     else (digest s, block) in
  fst (transform d (upd 14 (u32 (Z.shiftr total_bits 32)) (upd 15 (u32 total_bits) block))).

(** SHA.cpp:287-298: swap32 and memcpy on a little-endian machine write the words big-endian *)
Definition SHA1 (d : list Z) : list Z := flat_map (be 4) (final (update reset d)).
