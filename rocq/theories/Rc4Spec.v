(** RC4 as published: key scheduling and generator over a permutation S of 0..255,
    written as a function. *)
From Verif Require Import Base.

Definition exch (S : Z -> Z) (a b : Z) : Z -> Z :=
  fun k => if k =? a then S b else if k =? b then S a else S k.

(** j := (j + S[i] + key[i mod keylength]) mod 256; swap S[i], S[j] *)
Definition ksa_step (key : list Z) (st : (Z -> Z) * Z) (i : nat) : (Z -> Z) * Z :=
  let (S, j) := st in
  let j' := (j + S (Z.of_nat i) + nth (i mod length key)%nat key 0) mod 256 in
  (exch S (Z.of_nat i) j', j').

Definition ksa (key : list Z) : Z -> Z :=
  fst (fold_left (ksa_step key) (seq 0 256) ((fun k => k), 0)).

(** i := i + 1; j := j + S[i]; swap; output S[S[i] + S[j]] (all mod 256) *)
Fixpoint prga (n : nat) (S : Z -> Z) (i j : Z) : list Z :=
  match n with
  | O => []
  | Datatypes.S n' =>
    let i' := (i + 1) mod 256 in
    let j' := (j + S i') mod 256 in
    let S' := exch S i' j' in
    S' ((S' i' + S' j') mod 256) :: prga n' S' i' j'
  end.

(** The first [n] keystream bytes of a key. *)
Definition keystream (key : list Z) (n : nat) : list Z := prga n (ksa key) 0 0.

Fixpoint xor_list (a b : list Z) : list Z :=
  match a, b with
  | x :: a', y :: b' => Z.lxor x y :: xor_list a' b'
  | _, _ => []
  end.
