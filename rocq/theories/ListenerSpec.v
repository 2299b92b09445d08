(** What is said of peers that connect to us *)
From Verif Require Import Base ListenerModel.

(** Model only: the calls of the owner for this stream *)
Definition isHanded (id : nat) (o : out) : bool := match o with OHanded i _ _ _ => (i =? id)%nat | _ => false end.
(** Model only: how often the stream was handed over *)
Definition timesHanded (id : nat) (o : list out) : nat := length (filter (isHanded id) o).

(** The message every peer begins with, BEP 3: the name of the protocol, eight bytes, the hash of the torrent, the name of the peer *)
Definition greets (data hash : list Z) : Prop :=
  exists reserved peer rest, data = (19 :: protocolName) ++ reserved ++ hash ++ peer ++ rest /\
    length reserved = 8%nat /\ length hash = 20%nat /\ length peer = 20%nat.

(** The owner refuses none but those that greet unencrypted *)
Definition refusesPlain (e : event) : Prop := match e with EData _ data Refuses => startsAsHandshake data = true | _ => True end.

(** No one opens the port again *)
Definition staysStopped (e : event) : Prop := match e with EStart _ | EPort _ => False | _ => True end.
