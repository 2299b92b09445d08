(** The UDP tracker protocol (BEP 15), independent of the code: [n] bytes at offset [off]. *)
From Verif Require Import Base HttpSpec.

Definition field_is (pkt : list Z) (off n : nat) (v : Z) : Prop := slice off n pkt = be n v.

(** 8 bytes 0x41727101980, action 0, transaction. *)
Definition is_connect_request (pkt : list Z) (transaction : Z) : Prop :=
  length pkt = 16%nat /\ field_is pkt 0 8 4497486125440 /\ field_is pkt 8 4 0 /\ field_is pkt 12 4 transaction.

Record announce_fields := { fconnection : Z; ftransaction : Z; fhash : list Z; fpeer : list Z; fdownloaded : Z; fleft : Z; fuploaded : Z;
                            fevent : Z; fip : Z; fkey : Z; fwant : Z; fport : Z }.
Definition is_announce_request (pkt : list Z) (f : announce_fields) : Prop :=
  length pkt = 98%nat /\ field_is pkt 0 8 (fconnection f) /\ field_is pkt 8 4 1 /\ field_is pkt 12 4 (ftransaction f) /\
  slice 16 20 pkt = fhash f /\ slice 36 20 pkt = fpeer f /\ field_is pkt 56 8 (fdownloaded f) /\ field_is pkt 64 8 (fleft f) /\
  field_is pkt 72 8 (fuploaded f) /\ field_is pkt 80 4 (fevent f) /\ field_is pkt 84 4 (fip f) /\ field_is pkt 88 4 (fkey f) /\
  field_is pkt 92 4 (fwant f) /\ field_is pkt 96 2 (fport f).

Definition connect_reply (transaction connection : Z) : list Z := be 4 0 ++ be 4 transaction ++ be 8 connection.
Definition announce_reply (transaction interval leechers seeders : Z) (ps : list (list Z * Z)) : list Z :=
  be 4 1 ++ be 4 transaction ++ be 4 interval ++ be 4 leechers ++ be 4 seeders ++ peers_text ps.
