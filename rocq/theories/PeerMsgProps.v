(** C03, C04, C05: peer messages, stream framing, choke and interest. *)
From Verif Require Import Base BaseLemmas PeerMsgModel PeerMsgSpec PeerMsgProofs
  PeerStateModel PeerStateSpec PeerStateProofs.

(** Every message with fields in range, of at most 65535 bytes and followed by anything, is
    read as itself and takes exactly its own bytes. *)
Theorem C03_read_message_partial : forall m rest, message_ok m -> fits (encode m ++ rest) ->
  parseMsg (encode m ++ rest) = Ok (understood m).
Proof. exact parse_encode. Qed.
Print Assumptions C03_read_message_partial.

Example C03_read_message_meets :
  message_ok (Piece 7 16384 [1;2;3]) /\ fits (encode (Piece 7 16384 [1;2;3]) ++ [9]) /\
  message_ok (Handshake (repeat 1 8) (repeat 2 20) (repeat 3 20)).
Proof.
  unfold message_ok, fields_ok, is32, small, fits.
  repeat split; try lia; try discriminate; try reflexivity; repeat constructor; lia.
Qed.

(** The client's own writers produce these encodings. *)
Theorem C03_writers :
  (forall dht h p, bytes_ok h -> bytes_ok p -> length h = 20%nat -> length p = 20%nat ->
     createHandshake dht h p = encode (Handshake [0;0;0;0;0;16;0; if dht then 128 else 0] h p)) /\
  createStateMessage 0 = encode Choke /\ createStateMessage 1 = encode Unchoke /\
  createStateMessage 2 = encode Interested /\ createStateMessage 3 = encode NotInterested /\
  createKeepAlive = encode KeepAlive /\
  (forall i b l, createBlockRequest i b l = encode (Request i b l)) /\
  (forall i, createHave i = encode (Have i)) /\
  (forall p, createPort p = encode (Port p)) /\
  (forall b, zlen b < 4294967295 -> createBitfield b = encode (Bitfield b)) /\
  (forall i b d, zlen d < 4294967287 -> createPiece i b d = encode (Piece i b d)) /\
  (forall e d, is_byte e -> zlen d < 4294967294 -> createExtended e d = encode (Extended e d)).
Proof.
  exact (conj create_handshake (conj eq_refl (conj eq_refl (conj eq_refl (conj eq_refl (conj eq_refl
    (conj create_request (conj create_have (conj create_port (conj create_bitfield
    (conj create_piece create_extended))))))))))).
Qed.
Print Assumptions C03_writers.

(** No received bytes make the reader look outside its buffer. *)
Theorem C03_reader_in_bounds : forall b, bytes_ok b -> fits b -> parseMsg b <> UB.
Proof. exact parseMsg_in. Qed.
Print Assumptions C03_reader_in_bounds.

(** Finding: the size of a message is kept in 16 bits. A bitfield message of 65536 bytes (a
    torrent with 524248 pieces) is read with size 0, and the receive loop never ends. *)
Theorem C03_bitfield_65536_refuted : forall b rest, bytes_ok b -> zlen b = 65531 ->
  fits (encode (Bitfield b) ++ rest) ->
  parseMsg (encode (Bitfield b) ++ rest) = Ok {| mid := idBitfield; mfields := FBitfield b; messageSize := 0 |} /\
  forall fuel, dataReceivedLoop fuel (encode (Bitfield b) ++ rest) 0 = None.
Proof. exact big_frame. Qed.
Print Assumptions C03_bitfield_65536_refuted.

Example C03_bitfield_65536_meets : exists b, bytes_ok b /\ zlen b = 65531 /\ fits (encode (Bitfield b) ++ []).
Proof. exact big_frame_exists. Qed.

(** However a stream of such messages (and a last incomplete one) is cut into chunks, and
    whatever room each receive asks for, exactly those messages are handled, in order, once
    each, and the incomplete one is kept. *)
Theorem C04_fragmentation_partial : forall ms t chunks,
  Forall message_ok ms -> partial_of t -> fits (encodes ms ++ t) ->
  concat (map snd chunks) = encodes ms ++ t ->
  exists rb, receiveAll emptyReadBuffer chunks = Some (Ok (rb, map understood ms)) /\ content rb = t.
Proof. exact fragmentation. Qed.
Print Assumptions C04_fragmentation_partial.

Example C04_fragmentation_meets : exists ms t (chunks : list (nat * list Z)), Forall message_ok ms /\ partial_of t /\
  fits (encodes ms ++ t) /\ concat (map snd chunks) = encodes ms ++ t /\ length chunks = 3%nat /\ ms <> [] /\ t <> [].
Proof. exact fragmentation_example. Qed.

(** Finding: a message of 65536 bytes that arrives in more than one chunk is thrown away with
    everything received, and its remaining bytes are read as messages. *)
Theorem C04_fragmentation_65536_refuted : forall b n, zlen b = 65531 ->
  (4 <= n < length (encode (Bitfield b)))%nat ->
  forall fuel, dataReceivedLoop (S fuel) (firstn n (encode (Bitfield b))) 0 = Some (Ok ([], n)).
Proof. exact big_frame_dropped. Qed.
Print Assumptions C04_fragmentation_65536_refuted.

(** The receive loop never reads outside what was received. *)
Theorem C04_receive_in_bounds : forall fuel b c r, bytes_ok b -> fits b ->
  dataReceivedLoop fuel b c = Some r -> r <> UB.
Proof. exact loop_in. Qed.
Print Assumptions C04_receive_in_bounds.

(** The peer is recorded as choking us exactly when its last choke message was 'choke'. *)
Theorem C05_choke_follows_peer : forall e hs,
  peerChoking (fst (commRun e freshPeerState (map event_of hs))) = choking (from_peer hs).
Proof. exact (fun e hs => run_choking e hs freshPeerState). Qed.
Print Assumptions C05_choke_follows_peer.

Example C05_choke_example :
  choking (from_peer [Incoming; FromPeer Unchoke; WeChoke false; FromPeer (Have 3)]) = false /\
  choking (from_peer [Incoming; FromPeer Unchoke; FromPeer Choke; FromPeer KeepAlive]) = true.
Proof. split; reflexivity. Qed.

(** Finding: interest is recorded inverted, after every history with an interest message. *)
Theorem C05_interest_refuted : forall e hs l, last_interest None (from_peer hs) = Some l ->
  interested (from_peer hs) = l /\
  peerInterested (fst (commRun e freshPeerState (map event_of hs))) = negb l.
Proof. exact interest_inverted. Qed.
Print Assumptions C05_interest_refuted.

Example C05_interest_meets : last_interest None (from_peer [Incoming; FromPeer Interested; FromPeer Choke]) = Some true.
Proof. reflexivity. Qed.

(** What we tell the peer about ourselves: every byte string written is a valid message, and
    a peer that follows them sees exactly our recorded choke and interest state. *)
Theorem C05_own_state_told : forall e hs c, env_ok e ->
  commRun e freshPeerState (map event_of hs) = c ->
  exists ms, snd c = map encode ms /\ Forall message_ok ms /\
    amChoking (fst c) = choking ms /\ amInterested (fst c) = interested ms.
Proof. exact (fun e hs c He => tells_peer e hs freshPeerState c He eq_refl eq_refl). Qed.
Print Assumptions C05_own_state_told.

Example C05_own_state_meets :
  env_ok {| dhtEnabled := true; ourHash := repeat 1 20; ourId := repeat 2 20; udpPort := 6881; extPayload := [100;101] |}.
Proof. exact env_ok_example. Qed.

(** Connecting over an open connection forgets what the earlier peer said: both sides choke,
    nobody is interested, until the new peer's messages say otherwise. *)
Theorem C05_connect_again : forall e hs hs', let s := fst (commRun e freshPeerState (map event_of hs)) in act s <> Disconnected ->
  let t := fst (commRun e s (EvConnect :: map event_of hs')) in
  peerChoking t = choking (from_peer hs') /\ ext (fst (commStep e s EvConnect)) = ExtDisabled /\
  amChoking (fst (commStep e s EvConnect)) = true /\ amInterested (fst (commStep e s EvConnect)) = false.
Proof.
  intros e hs hs' s N t.
  assert (E : fst (commStep e s EvConnect) = setAction freshPeerState Connecting) by (cbn; destruct (act s); congruence || reflexivity).
  split; [|rewrite E; auto]. unfold t. cbn [commRun]. destruct (commStep e s EvConnect) as [s1 w1] eqn:X. cbn [fst] in E. subst s1.
  pose proof (run_choking e hs' (setAction freshPeerState Connecting)) as R. destruct (commRun e (setAction freshPeerState Connecting) (map event_of hs')). exact R.
Qed.
Print Assumptions C05_connect_again.

Example C05_connect_again_meets : act (fst (commRun {| dhtEnabled := true; ourHash := repeat 1 20; ourId := repeat 2 20; udpPort := 6881; extPayload := [100;101] |}
  freshPeerState (map event_of [Incoming; FromPeer Unchoke]))) <> Disconnected.
Proof. discriminate. Qed.
