(** What a vector of digits means. *)
From Verif Require Import Base.

(** The number, least significant digit first. *)
Fixpoint value (l : list Z) : Z :=
  match l with
  | [] => 0
  | d :: l' => d + 18446744073709551616 * value l'
  end.
(** Every digit is a 64 bit word. *)
Definition digits_ok (l : list Z) : Prop := Forall (fun d => 0 <= d < 18446744073709551616) l.
