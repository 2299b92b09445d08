(** The routing table seen from outside: what happened, and which nodes it holds. *)
From Verif Require Import Base NodeModel NodeSpec TableModel.

Inductive event := Responded (n : nodeInfo) (time : Z) | Failed (n : nodeInfo) (time : Z).

Definition apply_event (own : list Z) (t : table) (e : event) : table :=
  match e with Responded n time => nodeResponded own t n time | Failed n time => nodeNotResponded own t n time end.
Definition after_events (own : list Z) (es : list event) (t : table) : table := fold_left (apply_event own) es t.

Definition about (e : event) : nodeInfo := match e with Responded n _ => n | Failed n _ => n end.
Definition time_of (e : event) : Z := match e with Responded _ t => t | Failed _ t => t end.
Definition event_ok (e : event) : Prop := id_ok (id (about e)) /\ 0 <= time_of e < 2 ^ 63.

(** The clock never goes back. *)
Fixpoint clock_ok (t0 : Z) (es : list event) : Prop :=
  match es with [] => True | e :: es' => t0 <= time_of e /\ clock_ok (time_of e) es' end.

Definition ids (ns : list node) : list (list Z) := map (fun n => id (info n)) ns.

Definition bucket_ok (own : list Z) (i : nat) (b : bucket) : Prop :=
  (length (nodes b) <= 8)%nat /\ (length (cache b) <= 8)%nat /\
  NoDup (ids (nodes b) ++ ids (cache b)) /\
  Forall (fun n => id_ok (id (info n)) /\ top_bit (xor_dist own (id (info n))) (Z.of_nat i)) (nodes b ++ cache b).

Definition table_ok (own : list Z) (t : table) : Prop :=
  length t = 160%nat /\ forall i, (i < 160)%nat -> bucket_ok own i (nth i t emptyBucket).

(** [n] is one of the nodes (not only a replacement in the cache). *)
Definition in_table (t : table) (n : node) : Prop := exists i, (i < 160)%nat /\ In n (nodes (nth i t emptyBucket)).
Definition has_id (t : table) (i : list Z) : Prop := exists n, in_table t n /\ id (info n) = i.

(** A node that answered last time it was asked. *)
Definition alive (t : table) (i : list Z) : Prop := exists n, in_table t n /\ id (info n) = i /\ active n = true.
Definition not_failed (i : list Z) (e : event) : Prop := match e with Failed n _ => id n <> i | _ => True end.
