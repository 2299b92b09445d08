(** What the encryption handshake of two ends should do, stated without the model of the code. *)
From Verif Require Import Base.

(** The first 20 bytes of an unencrypted handshake: the length 19 and "BitTorrent protocol". *)
Definition plainStart : list Z := [19; 66; 105; 116; 84; 111; 114; 114; 101; 110; 116; 32; 112; 114; 111; 116; 111; 99; 111; 108].

(** [c] is the delivery with which the first [n] bytes of a stream are there. *)
Definition reaches (n : nat) (before : list (list Z)) (c : list Z) : Prop :=
  (length (concat before) < n)%nat /\ (n <= length (concat before ++ c))%nat.
