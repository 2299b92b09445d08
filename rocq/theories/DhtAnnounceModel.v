(** Model of the announce that follows an answer with peers in mtTorrent/Core/Dht. *)
From Verif Require Import Base AddrModel NodeModel DhtMsgModel.

(** Query.cpp:233-268 [GetPeers::onResponse], Communication.cpp:262-265 [announceTokenReceived], Query.cpp:686-714
    [AnnouncePeer]: the message sent to the node [nodeId], asked with the number tr, after its answer r was read. The hash of
    the announce is the id of the answer. An answer without an id is read as 20 undetermined bytes (C81); here nothing is sent then. *)
Definition announceAfter (own nodeId : list Z) (tr : Z) (r : dresponse) (tcpPort udpPort tr2 : Z) : option (list Z) :=
  match drId r with
  | Some i => if (drTrans r =? tr) && list_eqb nodeId i then
                match drToken r with [] => None | _ => Some (announceRequest own i (drToken r) tcpPort udpPort tr2) end
              else None
  | None => None
  end.
