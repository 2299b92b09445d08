(** For C110. *)
From Verif Require Import Base UtpModel UtpManagerModel.

(** A datagram that is uTP, with a header of [h] bytes; one that is not. *)
Definition utp (d : list Z) (h : Z) : Prop := getUtpPacketHeaderSize d = Ok h /\ h <> 0.
Definition notUtp (d : list Z) : Prop := getUtpPacketHeaderSize d = Ok 0.

(** [s] is the eldest of the streams with that id at that endpoint. *)
Definition owner (id e : Z) (l : list stream) (s : stream) : Prop :=
  exists a b, l = a ++ s :: b /\ key s = id /\ ep s = e /\ forall x, In x a -> ~ (key x = id /\ ep x = e).

(** A SYN and nothing with it. *)
Definition loneSyn (d : list Z) (h : Z) : Prop := Z.shiftr (nth 0 d 0) 4 = 4 /\ zlen d = h.

(** What a batch from [e] does. *)
Inductive served (e : Z) : manager -> list (list Z) -> list effect -> manager -> Prop :=
| served_nil m : served e m [] [] m
| served_other m d l o m' : notUtp d -> served e m l o m' -> served e m (d :: l) o m'
| served_read m d h s l o m' : utp d h -> owner (unbe (slice 2 2 d)) e (streams m) s -> served e m l o m' -> served e m (d :: l) (DRead (sid s) d :: o) m'
| served_new m d h l o m' : utp d h -> (forall s, In s (streams m) -> ~ (key s = unbe (slice 2 2 d) /\ ep s = e)) -> loneSyn d h -> enableUtpIn m = true ->
    served e {| streams := streams m ++ [{| sid := fresh m; key := (unbe (slice 2 2 d) + 1) mod 65536; ep := e |}]; fresh := S (fresh m); active := active m; enableUtpIn := true |} l o m' ->
    served e m (d :: l) (DNew (fresh m) :: o) m'
| served_drop m d h l o m' : utp d h -> (forall s, In s (streams m) -> ~ (key s = unbe (slice 2 2 d) /\ ep s = e)) -> ~ (loneSyn d h /\ enableUtpIn m = true) ->
    served e m l o m' -> served e m (d :: l) o m'.

(** A manager some history leads to, whatever the datagrams. *)
Definition reached (m : manager) : Prop := exists enable es lg, run es (newManager enable) = Ok (m, lg).

(** All the datagrams of a history are bytes. *)
Definition event_ok (ev : event) : Prop := match ev with EPackets _ l => Forall bytes_ok l | _ => True end.
