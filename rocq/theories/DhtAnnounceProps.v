(** C87: After asking a node for the peers of a torrent the client announces itself there. *)
From Verif Require Import Base BaseLemmas Dec DecLemmas PacketModel PacketProofs AddrModel BencodeModel BencodeSpec BencodeProofs StateModel StateProps TfSpec TfProofs TfReads NodeModel TableModel.
From Verif Require ResponderModel ResponderSpec ResponderProofs ResponderProps.
From Verif Require Import BencodeSpec DhtMsgModel DhtMsgSpec DhtMsgProofs DhtMsgProps DhtAnswerProps DhtExchangeProps DhtAnnounceModel.
From Coq Require Import String. From Coq Require Import List. Import ListNotations.
Local Close Scope string_scope.

Section Announce.
Variables (fuel : nat) (own other junk junk2 junk3 rest rest2 rest3 : list Z) (c c2 c3 maxResponse maxStored now now2 tr tr2 tcpPort udpPort : Z) (s : source) (re : responder) (hash : list Z).
Hypothesis fuel_ok : (40 <= fuel)%nat.
Hypothesis own_ok : id20 own.
Hypothesis other_ok : id20 other.
Hypothesis hash_ok : id20 hash.
Hypothesis tr_ok : 0 <= tr < 65536.
Hypothesis tr2_ok : 0 <= tr2 < 65536.
Hypothesis port_ok : 0 < udpPort < 65536.
Hypothesis secret_ok : 0 <= ResponderModel.secret0 (reSecrets re) < 2 ^ 32.
Hypothesis stored_ok : stored_peers_ok maxResponse re (srcV6 s).
Hypothesis known : Forall known_ok (getClosestNodes other (reTable re) hash).
Hypothesis known4 : Forall (fun n => ipv6 n = false) (getClosestNodes other (reTable re) hash).
Hypothesis room : message_ok fuel (replies other (le 2 tr) (nodes_part (true, true) (getClosestNodes other (reTable re) hash) ++
  values_part (ResponderModel.answerPeers maxResponse (reValues re) hash (srcV6 s)) ++ [text_of "token" (le 4 (ResponderModel.tokenFor (reSecrets re) (srcText s)))])).

(** the exchange of the four messages: the request for peers, its answer, the announce, and what the other client has then *)
Definition exchange (re2 : responder) : Prop :=
  exists bytes re1 r announce bytes2,
    handlePacket fuel (getPeersRequest own hash true tr ++ c :: rest) (zlen (getPeersRequest own hash true tr)) junk other maxResponse maxStored now s re = Val (Some (bytes, re1)) /\
    parseResponse fuel (bytes ++ c2 :: rest2) (zlen bytes) junk2 DGetPeers = Val r /\
    announceAfter own other tr r tcpPort udpPort tr2 = Some announce /\
    handlePacket fuel (announce ++ c3 :: rest3) (zlen announce) junk3 other maxResponse maxStored now2 s re1 = Val (Some (bytes2, re2)).

Lemma exchanged : exists re2, exchange re2 /\
  reValues re2 = ResponderModel.announcedPeer maxStored (reValues re) other (setAddr junk3 (srcBytes s) (if tcpPort =? udpPort then srcPort s else udpPort) (srcV6 s)) now2.
Proof using All.
  destruct (C83_get_peers_partial fuel own other junk junk2 rest rest2 c c2 maxResponse maxStored now tr s re fuel_ok own_ok other_ok tr_ok stored_ok hash hash_ok known known4 room)
    as (bytes & re1 & r & H1 & H2 & H3 & H4 & _ & _ & _ & H5 & H6 & H7).
  destruct (C83_token (reSecrets re) (srcText s) 0 secret_ok) as (T1 & T2 & T3 & _). rewrite <- H5 in T1, T2, T3. rewrite <- H6 in T3.
  assert (S1 : stored_peers_ok maxResponse re1 (srcV6 s)) by (unfold stored_peers_ok; rewrite H7; exact stored_ok).
  destruct (C83_announce fuel own other junk3 rest3 c3 maxResponse maxStored now2 tr2 s re1 fuel_ok own_ok other_ok S1 other (drToken r) tcpPort udpPort other_ok T1 T2 port_ok T3) as (bytes2 & re2 & A1 & A2).
  exists re2. split; [|now rewrite A2, H7]. exists bytes, re1, r, (announceRequest own other (drToken r) tcpPort udpPort tr2), bytes2. split; [exact H1|]. split; [exact H2|]. split; [|exact A1].
  unfold announceAfter. rewrite H4, H3, Z.eqb_refl, list_eqb_refl. cbn [andb]. destruct (drToken r); [discriminate T1|reflexivity].
Qed.

(** The announce is sent and accepted: the token is right. What is missing is the torrent, see below. *)
Theorem C87_accepted_partial : exists re2, exchange re2.
Proof using All. destruct exchanged as (re2 & H & _). now exists re2. Qed.

(** Finding: the peer is stored under the id of the node that answered, not for the torrent: for every hash but this id the stored
    peers are the old ones, and whoever asks for the torrent is told what it would have been told before. *)
Theorem C87_announce_refuted : hash <> other -> forall re2, exchange re2 ->
  (forall k, k <> other -> ResponderSpec.stored (reValues re2) k = ResponderSpec.stored (reValues re) k) /\
  (forall limit v6, ResponderModel.answerPeers limit (reValues re2) hash v6 = ResponderModel.answerPeers limit (reValues re) hash v6) /\
  (zlen (ResponderSpec.stored (reValues re) other) < maxStored ->
   exists v, In v (ResponderSpec.stored (reValues re2) other) /\ ResponderModel.vaddr v = setAddr junk3 (srcBytes s) (if tcpPort =? udpPort then srcPort s else udpPort) (srcV6 s)).
Proof using All.
  intros Ne re2 (bytes & re1 & r & an & bytes2 & H1 & H2 & H3 & H4). destruct exchanged as (re2' & (bytes' & re1' & r' & an' & bytes2' & H1' & H2' & H3' & H4') & V).
  rewrite H1 in H1'. injection H1' as <- <-. rewrite H2 in H2'. injection H2' as <-. rewrite H3 in H3'. injection H3' as <-. rewrite H4 in H4'. injection H4' as _ <-. rewrite V.
  assert (K : forall k, k <> other -> ResponderSpec.stored (ResponderModel.announcedPeer maxStored (reValues re) other (setAddr junk3 (srcBytes s) (if tcpPort =? udpPort then srcPort s else udpPort) (srcV6 s)) now2) k = ResponderSpec.stored (reValues re) k).
  { intros k Q. rewrite ResponderProofs.announce_stored. destruct (list_eqb other k) eqn:X; [|reflexivity]. apply list_eqb_spec in X. congruence. }
  split; [exact K|]. split.
  - intros limit v6. unfold ResponderModel.answerPeers, ResponderModel.announcedPeer. rewrite ResponderProofs.lookup_store_other by congruence. reflexivity.
  - intros L. rewrite ResponderProofs.announce_stored, list_eqb_refl. set (v := {| ResponderModel.vaddr := _; ResponderModel.timestamp := now2 |}). exists v. split; [|reflexivity].
    destruct (ResponderModel.replaceValue v _) as [l|] eqn:R; [now apply replace_in in R as [R _]|]. destruct (Z.ltb_spec (zlen (ResponderSpec.stored (reValues re) other)) maxStored); [|lia]. apply in_or_app. right. now left.
Qed.

End Announce.
Print Assumptions C87_accepted_partial.
Print Assumptions C87_announce_refuted.

(** Non-vacuity, and the finding on bytes: two IPv4 nodes are known, nobody is stored; after the exchange the peer is stored for the
    id of the other node and the torrent has no peer. *)
Example C87_example : let hash := repeat 7 20 in let re := exRe [exNode 9 false; exNode 8 false] in let req := getPeersRequest (repeat 1 20) hash true 300 in
  match handlePacket 60 (req ++ [0]) (zlen req) (repeat 0 16) exOther 50 50 5 exSrc re with
  | Val (Some (bytes, re1)) =>
    match parseResponse 60 (bytes ++ [0]) (zlen bytes) (repeat 0 16) DGetPeers with
    | Val r => List.length (drNodes r) = 2%nat /\
      match announceAfter (repeat 1 20) exOther 300 r 6881 6881 400 with
      | Some a => match handlePacket 60 (a ++ [0]) (zlen a) (repeat 0 16) exOther 50 50 6 exSrc re1 with
                  | Val (Some (_, re2)) => List.length (ResponderSpec.stored (reValues re2) exOther) = 1%nat /\ ResponderSpec.stored (reValues re2) hash = []
                  | _ => False end
      | None => False end
    | _ => False end
  | _ => False end.
Proof. vm_compute. auto. Qed.

(** An answer with another number or from another id, or without a token, is followed by no announce. *)
Theorem C87_only_after_answer : forall own nodeId tr r tcpPort udpPort tr2, announceAfter own nodeId tr r tcpPort udpPort tr2 <> None <-> drTrans r = tr /\ drId r = Some nodeId /\ drToken r <> [].
Proof.
  intros own nodeId tr r tcpPort udpPort tr2. unfold announceAfter. destruct (drId r) as [i|]; [|split; [congruence|intros (_ & H & _); discriminate]].
  destruct (Z.eqb_spec (drTrans r) tr) as [E|E]; cbn [andb]; [|split; [congruence|tauto]]. destruct (list_eqb nodeId i) eqn:L.
  - apply list_eqb_spec in L. subst i. destruct (drToken r); split; try congruence; [tauto|]. intros _. split; [exact E|]. split; [reflexivity|discriminate].
  - split; [congruence|]. intros (_ & H & _). injection H as ->. rewrite list_eqb_refl in L. discriminate.
Qed.
Print Assumptions C87_only_after_answer.
