(** Choke and interest as defined by the protocol (BEP 3): a side is choking the other unless
    its last choke message was 'unchoke', and interested if its last interest message was
    'interested'. *)
From Verif Require Import Base PeerMsgSpec.

Fixpoint choking_from (c : bool) (ms : list message) : bool :=
  match ms with
  | [] => c
  | Choke :: ms' => choking_from true ms'
  | Unchoke :: ms' => choking_from false ms'
  | _ :: ms' => choking_from c ms'
  end.

Fixpoint interested_from (i : bool) (ms : list message) : bool :=
  match ms with
  | [] => i
  | Interested :: ms' => interested_from true ms'
  | NotInterested :: ms' => interested_from false ms'
  | _ :: ms' => interested_from i ms'
  end.

(** A connection starts choked and not interested. *)
Definition choking (ms : list message) : bool := choking_from true ms.
Definition interested (ms : list message) : bool := interested_from false ms.

(** The life of one connection as its user sees it: the peer's messages mixed with our calls. *)
Inductive happening :=
| Opened | Incoming | FromPeer (m : message) | WeInterested (b : bool) | WeChoke (b : bool) | Closed.

Fixpoint from_peer (hs : list happening) : list message :=
  match hs with
  | [] => []
  | FromPeer m :: hs' => m :: from_peer hs'
  | _ :: hs' => from_peer hs'
  end.
