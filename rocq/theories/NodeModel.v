(** Model of mtTorrent/Core/Dht/Node.cpp: node ids as 20 bytes. *)
From Verif Require Import Base.

(** Node.cpp:67-77 *)
Definition distance (l r : list Z) : list Z :=
  map (fun i => u8 (Z.lxor (nth i l 0) (nth i r 0))) (seq 0 20).

(** Node.cpp:88-89: [while (d >>= 1) l++;] with [d], [l] of 8 bits; a byte needs at most 8 rounds *)
Fixpoint bitLoop (fuel : nat) (d l : Z) : Z :=
  match fuel with
  | O => l
  | S fuel' => let d' := Z.shiftr d 1 in if d' =? 0 then l else bitLoop fuel' d' (u8 (l + 1))
  end.

(** Node.cpp:79-96, from index [i] on with [n] rounds left *)
Fixpoint lengthLoop (n i : nat) (data : list Z) : Z :=
  match n with
  | O => 0
  | S n' => if nth i data 0 =? 0 then lengthLoop n' (S i) data
            else bitLoop 8 (nth i data 0) (u8 ((19 - Z.of_nat i) * 8))
  end.
(** Also Node.cpp:79-96. *)
Definition idLength (data : list Z) : Z := lengthLoop 20 0 data.

(** Node.cpp:111-120, and the loop 26-30: the first difference decides *)
Fixpoint lessLoop (n i : nat) (l r : list Z) : bool :=
  match n with
  | O => false
  | S n' => if nth i l 0 =? nth i r 0 then lessLoop n' (S i) l r else nth i l 0 <? nth i r 0
  end.
(** Also Node.cpp:111-120, 26-30. *)
Definition idLess (l r : list Z) : bool := lessLoop 20 0 l r.

(** Node.cpp:20-33 *)
Definition closerToNodeThan (id maxDistance target : list Z) : bool :=
  let dist := distance id target in
  if negb (idLength dist =? 0) then lessLoop 20 0 dist maxDistance else false.

(** Node.cpp:35-40 *)
Definition closerThan (id other target : list Z) : bool := closerToNodeThan id (distance other target) target.

(** Node.cpp:52-60 memcmp of 20 bytes *)
Definition idEq (l r : list Z) : bool := list_eqb (firstn 20 l) (firstn 20 r).
