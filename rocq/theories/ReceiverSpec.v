(** What is said of datagrams that come in *)
From Verif Require Import Base ReceiverModel.

(** The datagrams among what a socket gave *)
Fixpoint datagrams (rs : list recv) : list (Z * list Z) :=
  match rs with [] => [] | RGot e d :: rs' => (e, d) :: datagrams rs' | _ :: rs' => datagrams rs' end.

(** Every datagram has something in it and no more than [n] bytes, and no error comes between *)
Definition fits (n : Z) (r : recv) : Prop := match r with RGot _ d => d <> [] /\ Z.of_nat (length d) <= n | RInterrupted => True | RError => False end.

(** What was passed on, in order, without the senders *)
Definition passed (s : receiver) : list (list Z) := concat (map snd (calls s)).

(** What was passed on with the sender that was named *)
Definition passedFrom (s : receiver) : list (Z * list Z) := concat (map (fun c => map (fun d => (fst c, d)) (snd c)) (calls s)).

(** Whom a datagram from [e] is credited to when [ds] come behind it: the first other sender, if there is one *)
Fixpoint credit (e : Z) (ds : list (Z * list Z)) : Z :=
  match ds with [] => e | (f, _) :: ds' => if f =? e then credit e ds' else f end.
(** All of them credited so *)
Fixpoint credited (ds : list (Z * list Z)) : list (Z * list Z) :=
  match ds with [] => [] | (e, d) :: ds' => (credit e ds', d) :: credited ds' end.

(** The bytes of these buffers *)
Definition bytes (l : list (list Z)) : Z := fold_right (fun d n => Z.of_nat (length d) + n) 0 l.
