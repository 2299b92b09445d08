(** Model of mtTorrent/utils/RC4.cpp, RC4.h. *)
From Verif Require Import Base.

(** RC4.h:15-19 the cipher state. *)
Record rc4 := { xs : Z; ys : Z; buf : list Z }.

(** Helper of [swapAt], RC4.cpp:31. *)
Definition at_ (l : list Z) (k : Z) : Z := nth (Z.to_nat k) l 0.

(** RC4.cpp:31 (and 48, 71): tmp = s[x]; s[x] = s[y]; s[y] = tmp. *)
Definition swapAt (s : list Z) (x y : Z) : list Z :=
  let tmp := at_ s x in
  let s1 := upd (Z.to_nat x) (at_ s y) s in
  upd (Z.to_nat y) tmp s1.

(** RC4.cpp:26-32 key scheduling loop over the indices [idx]; [j] indexes the key. *)
Fixpoint ksaLoop (key : list Z) (idx : list nat) (s : list Z) (y : Z) (j : nat) : list Z :=
  match idx with
  | [] => s
  | x :: idx' =>
    let y' := Z.land (y + nth x s 0 + nth j key 0) 255 in
    let j' := if Nat.eqb (S j) (length key) then O else S j in
    ksaLoop key idx' (swapAt s (Z.of_nat x) y') y' j'
  end.

(** RC4.cpp:4-35 [init]. Lines 9-13 use at most the first 256 key bytes. With an empty key,
    line 27 adds bytes of [key] that were never initialised: undefined. *)
Definition rc4_init (k : list Z) : res rc4 :=
  let key := firstn 256 k in
  match key with
  | [] => UB
  | _ => Ok {| xs := 0; ys := 0; buf := ksaLoop key (seq 0 256) (map Z.of_nat (seq 0 256)) 0 O |}
  end.

(** RC4.cpp:45-51 one byte of [decode]: new state and the byte xored into the output. *)
Definition rc4_next (st : rc4) : rc4 * Z :=
  let x := Z.land (xs st + 1) 255 in
  let y := Z.land (ys st + at_ (buf st) x) 255 in
  let s := swapAt (buf st) x y in
  let tmp := Z.land (at_ s x + at_ s y) 255 in
  ({| xs := x; ys := y; buf := s |}, at_ s tmp).

(** RC4.cpp:37-54 [decode] (and [encode], 56-59, which calls it). [xs], [ys] are always
    in 0..255 so the initial masks of lines 42-43 are in [rc4_decode]. *)
Fixpoint decodeLoop (st : rc4) (out : list Z) : rc4 * list Z :=
  match out with
  | [] => (st, [])
  | b :: rest =>
    let (st1, k) := rc4_next st in
    let (st2, r) := decodeLoop st1 rest in
    (st2, Z.lxor b k :: r)
  end.

(** RC4.cpp:42-43, 66-67. *)
Definition maskIdx (st : rc4) : rc4 :=
  {| xs := Z.land (xs st) 255; ys := Z.land (ys st) 255; buf := buf st |}.

(** RC4.cpp:37-54 [decode]. *)
Definition rc4_decode (st : rc4) (out : list Z) : rc4 * list Z := decodeLoop (maskIdx st) out.
(** RC4.cpp:56-59 [encode]. *)
Definition rc4_encode := rc4_decode.

(** RC4.cpp:61-76 [skip]. *)
Fixpoint skipLoop (n : nat) (st : rc4) : rc4 :=
  match n with
  | O => st
  | S n' =>
    let x := Z.land (xs st + 1) 255 in
    let y := Z.land (ys st + at_ (buf st) x) 255 in
    skipLoop n' {| xs := x; ys := y; buf := swapAt (buf st) x y |}
  end.

(** RC4.cpp:61-76. *)
Definition rc4_skip (st : rc4) (n : nat) : rc4 := skipLoop n (maskIdx st).
