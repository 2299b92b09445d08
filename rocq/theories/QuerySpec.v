(** What a lookup should do. *)
From Verif Require Import Base NodeModel NodeSpec TableModel QueryModel.

(** Two node records denote the same node when their 20 byte ids agree. *)
Definition key (n : nodeInfo) : list Z := firstn 20 (id n).

(** Every datagram that comes back belongs to the request it is delivered to. *)
Fixpoint proper (own : list Z) (es : list event) (q : query) : Prop :=
  match es with
  | [] => True
  | e :: es' =>
    match e with
    | Stop => False
    | Reply h None => True
    | Reply h (Some r) =>
        forall p, In p (q_pending q) -> p_handle p = h -> r_trans r = p_trans p
    end /\ proper own es' (fst (fst (step own e q)))
  end.
