(** What protocol encryption should do, stated without the model of the code. *)
From Verif Require Import Base.

(** [pat] stands at position [k] of [d]. *)
Definition stands_at (pat : list Z) (k : nat) (d : list Z) : Prop :=
  exists a b, d = a ++ pat ++ b /\ length a = k.

(** A 96 byte secret and a 20 byte info hash. *)
Definition is_secret (s : list Z) : Prop := length s = 96%nat /\ bytes_ok s.
Definition is_info (t : list Z) : Prop := length t = 20%nat /\ bytes_ok t.

(** Bytes handed over: an event is a chunk and the reader's appetite; [views] what it saw. *)
Definition event : Type := list Z * (list Z -> nat).
Definition taken (ev : event) (view : list Z) : nat := snd ev view.

(** No reader takes more than it was shown. *)
Definition moderate (events : list event) (views : list (list Z)) : Prop :=
  Forall2 (fun ev v => (taken ev v <= length v)%nat) events views.

Fixpoint total_taken (events : list event) (views : list (list Z)) : nat :=
  match events, views with
  | ev :: es, v :: vs => (taken ev v + total_taken es vs)%nat
  | _, _ => 0%nat
  end.

(** The bytes taken, in order. *)
Fixpoint all_taken (events : list event) (views : list (list Z)) : list Z :=
  match events, views with
  | ev :: es, v :: vs => firstn (taken ev v) v ++ all_taken es vs
  | _, _ => []
  end.

Definition arrived (events : list event) : list Z := concat (map fst events).
