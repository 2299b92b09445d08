(** C14: encrypted handshakes and torrents; C15: encrypted data; C57-C59. *)
From Verif Require Import Base BaseLemmas Rc4Model Rc4Spec Rc4Proofs ShaModel BigProofs2 PeModel PeSpec PeProofs.

Lemma occurs_stands pat k d : occurs pat k d -> (k <= length d)%nat -> stands_at pat k d.
Proof.
  intros O L. exists (firstn k d), (skipn (length pat) (skipn k d)).
  split; [|rewrite firstn_length; lia]. rewrite <- O at 1. rewrite firstn_skipn. symmetry. apply firstn_skipn.
Qed.

Lemma not_occurs pat k d : ~ stands_at pat k d -> (k <= length d)%nat -> ~ occurs pat k d.
Proof. intros N L O. apply N. now apply occurs_stands. Qed.

(** Whatever arrives, a connection is only accepted for a torrent that is registered, and then
    message 3 carried the marker of this connection's secret, and its verification constant
    decrypts to zeros under the key made of the secret and that torrent's hash. *)
Theorem C59_accepted : forall secret torrents data info type rcIn rcOut msg,
  readPe3 secret torrents data = Pe3Done info type rcIn rcOut msg ->
  In info torrents /\
  exists start, (start + 56 <= length data)%nat /\ stands_at (SHA1 (tagReq 49 ++ secret)) start data /\
    unbe (firstn 8 (snd (rc4_decode (rcStart invokerA secret info) (firstn 14 (skipn (start + 40) data))))) = 0 /\
    rcIn = fst (rc4_decode (rcStart invokerA secret info) (skipn (start + 40) data)) /\
    rcOut = rcStart invokerB secret info.
Proof.
  intros * H. apply readPe3_done in H. destruct H as (I & O & start & L & S1 & V & R).
  split; [exact I|]. exists start. split; [exact L|]. split; [apply occurs_stands; [exact S1|lia]|].
  exact (conj V (conj R O)).
Qed.
Print Assumptions C59_accepted.

(** A client without torrents accepts nobody. *)
Theorem C59_none : forall secret chunks o, listen secret [] [] chunks = Some o -> o = Pe3Fail.
Proof.
  intros secret chunks. generalize (@nil Z) as buffer. induction chunks as [|c cs IH]; intros buffer o H; [discriminate H|].
  cbn [listen] in H. destruct (readPe3 secret [] (buffer ++ c)) eqn:R.
  - eapply IH. exact H.
  - now injection H as <-.
  - apply readPe3_done in R. destruct R as ([] & _).
Qed.
Print Assumptions C59_none.

(** The lookup the listener makes for the handshake of [info]. *)
Definition lookup (secret info : list Z) (torrents : list (list Z)) : option (list Z) :=
  findByPe3Hash torrents (xorBytes (SHA1 (tagReq 51 ++ secret)) (req2Hash info)) (tagReq 51 ++ secret).

(** Whenever that lookup finds the torrent, the handshake of an honest peer, preceded by any
    padding in which the marker does not occur and cut into any pieces, is accepted for that
    torrent, with the peer's message, and with ciphers in step with the peer's. Missing: that
    the lookup finds it (see C14_refuted). *)
Theorem C14_handshake_partial : forall secret info torrents padding message out m3 p0 chunks,
  is_secret secret -> is_info info -> zlen padding < 512 -> zlen message < 65536 ->
  lookup secret info torrents = Some info ->
  createPe3 secret info padding message = (out, m3) ->
  (forall k, (k < length p0)%nat -> ~ stands_at (SHA1 (tagReq 49 ++ secret)) k (p0 ++ m3)) ->
  concat chunks = p0 ++ m3 ->
  listen secret torrents [] chunks = Some (Pe3Done info TypeRC4 out (rcStart invokerB secret info) message).
Proof.
  intros * S96 H20 Pad Msg Look M3 First E.
  assert (L3 : (56 <= length m3)%nat) by exact (m3_len secret info padding message torrents S96 H20 ltac:(lia) Msg Look out m3 M3).
  assert (F : forall k, (k < length p0)%nat -> ~ occurs (SHA1 (tagReq 49 ++ secret)) k (p0 ++ m3)).
  { intros k K. apply not_occurs; [apply First; exact K|]. rewrite app_length. lia. }
  apply (listen_ok secret info padding message torrents S96 H20 ltac:(lia) Msg Look out m3 M3 p0 chunks F 0).
  - rewrite app_length. lia.
  - exact E.
Qed.
Print Assumptions C14_handshake_partial.

(** For a client with exactly the wanted torrent the lookup succeeds when, and only when, the
    hash of "req3" and the secret differs from "req3" and the secret in each of the first 20
    bytes: the code compares with the unhashed text, and for inequality. *)
Theorem C14_lookup_partial : forall secret info, is_secret secret -> is_info info ->
  (lookup secret info [info] = Some info <->
   forall i, (i < 20)%nat -> nth i (SHA1 (tagReq 51 ++ secret)) 0 <> nth i (tagReq 51 ++ secret) 0).
Proof.
  intros secret info [Ls Bs] [Li Bi]. unfold lookup. cbn [findByPe3Hash].
  assert (L1 : length (SHA1 (tagReq 51 ++ secret)) = 20%nat) by (apply sha_req; try lia; exact Bs).
  assert (L2 : length (req2Hash info) = 20%nat) by (unfold req2Hash; apply sha_req; try lia; exact Bi).
  assert (X : forall i, (i < 20)%nat ->
    (nth i (xorBytes (SHA1 (tagReq 51 ++ secret)) (req2Hash info)) 0 <> Z.lxor (nth i (req2Hash info) 0) (nth i (tagReq 51 ++ secret) 0)
     <-> nth i (SHA1 (tagReq 51 ++ secret)) 0 <> nth i (tagReq 51 ++ secret) 0)).
  { intros i I. rewrite xorBytes_nth by (rewrite ?L1, ?L2; lia).
    rewrite (Z.lxor_comm (nth i (req2Hash info) 0)). split; intros N E; apply N.
    - rewrite E. reflexivity.
    - apply (f_equal (fun z => Z.lxor z (nth i (req2Hash info) 0))) in E.
      rewrite !Z.lxor_assoc, !Z.lxor_nilpotent, !Z.lxor_0_r in E. exact E. }
  destruct (sameLoop 20 _ _ _ 0) eqn:S.
  - split; [intros _ i I|reflexivity]. apply X; [exact I|]. apply (proj1 (sameLoop_spec _ _ _ _ _) S). lia.
  - split; [discriminate|]. intros H.
    assert (T : sameLoop 20 (xorBytes (SHA1 (tagReq 51 ++ secret)) (req2Hash info)) (req2Hash info) (tagReq 51 ++ secret) 0 = true).
    { apply sameLoop_spec. intros j J. apply X; [lia|]. apply H. lia. }
    rewrite S in T. discriminate T.
Qed.
Print Assumptions C14_lookup_partial.

Definition info1 := repeat 7 20.
Definition info2 := repeat 9 20.
Definition secret1 := repeat 1 96.
Definition secret2 := repeat 2 96.

Lemma repeat_bytes b n : 0 <= b < 256 -> bytes_ok (repeat b n).
Proof. intros B. apply Forall_forall. intros x X. apply repeat_spec in X. subst x. exact B. Qed.

(** With the secret of bytes 2, the only torrent of this client is asked for and refused. *)
Theorem C14_refuted : exists secret info, is_secret secret /\ is_info info /\
  listen secret [info] [] [snd (createPe3 secret info [] [])] = Some Pe3Fail.
Proof.
  exists secret2, info1. split; [|split].
  - split; [reflexivity|apply repeat_bytes; lia].
  - split; [reflexivity|apply repeat_bytes; lia].
  - vm_compute. reflexivity.
Qed.
Print Assumptions C14_refuted.

(** With two torrents, asking for the second is refused because the first is found. *)
Theorem C14_other_refuted : exists secret a b, is_secret secret /\ is_info a /\ is_info b /\ a <> b /\
  lookup secret b [a; b] = Some a /\ listen secret [a; b] [] [snd (createPe3 secret b [] [])] = Some Pe3Fail.
Proof.
  exists secret1, info1, info2. split; [|split; [|split; [|split; [|split]]]].
  - split; [reflexivity|apply repeat_bytes; lia].
  - split; [reflexivity|apply repeat_bytes; lia].
  - split; [reflexivity|apply repeat_bytes; lia].
  - discriminate.
  - vm_compute. reflexivity.
  - vm_compute. reflexivity.
Qed.
Print Assumptions C14_other_refuted.

(** The hypotheses of C14_handshake_partial are met. *)
Example C14_handshake_example : exists out m3,
  createPe3 secret1 info1 [3; 4; 5] (repeat 19 68) = (out, m3) /\ lookup secret1 info1 [info1] = Some info1 /\
  listen secret1 [info1] [] [[1; 2]; firstn 60 m3; skipn 60 m3] = Some (Pe3Done info1 TypeRC4 out (rcStart invokerB secret1 info1) (repeat 19 68)).
Proof. eexists. eexists. split; [vm_compute; reflexivity|]. split; vm_compute; reflexivity. Qed.

(** ** Data *)
Lemma firstn_plus {A} a b : forall l : list A, firstn (a + b) l = firstn a l ++ firstn b (skipn a l).
Proof. induction a as [|a IH]; intros l; [reflexivity|]. destruct l as [|x l]; [now rewrite !firstn_nil|]. cbn. now rewrite IH. Qed.

Lemma deliverAll_ok st0 events : forall c n st st' views,
  received st0 c n st -> deliverAll st events = (st', views) -> moderate events views ->
  received st0 (c ++ arrived events) (n + total_taken events views) st' /\
  length views = length events /\
  (forall i, (i < length events)%nat ->
     nth i views [] = skipn (n + total_taken (firstn i events) (firstn i views)) (snd (rc4_decode st0 (c ++ arrived (firstn (S i) events))))) /\
  firstn n (snd (rc4_decode st0 (c ++ arrived events))) ++ all_taken events views =
  firstn (n + total_taken events views) (snd (rc4_decode st0 (c ++ arrived events))).
Proof.
  induction events as [|[chunk takes] es IH]; intros c n st st' views R D M.
  - cbn [deliverAll] in D. injection D as <- <-. unfold arrived. cbn [map concat total_taken all_taken length].
    rewrite !app_nil_r, Nat.add_0_r. split; [exact R|]. split; [reflexivity|]. split; [intros i I; lia|reflexivity].
  - cbn [deliverAll] in D. destruct (deliver st chunk takes) as [st1 view] eqn:E1.
    destruct (deliverAll st1 es) as [st2 vs] eqn:E2. injection D as <- <-.
    inversion M as [|? ? ? ? M1 M2]; subst. cbn [taken snd] in M1.
    destruct (deliver_ok st0 c n st chunk takes st1 view R E1 M1) as (V & R1).
    destruct (IH (c ++ chunk) (n + takes view)%nat st1 st2 vs R1 E2 M2) as (A & B & C & F).
    unfold arrived in *. cbn [map concat fst total_taken all_taken taken snd length]. rewrite <- !app_assoc in *.
    rewrite Nat.add_assoc. split; [exact A|]. split; [lia|]. split.
    + intros [|i] I.
      * cbn [nth firstn total_taken map concat fst]. rewrite Nat.add_0_r, app_nil_r. exact V.
      * cbn [nth]. rewrite C by lia. cbn [firstn total_taken map concat fst taken snd]. rewrite <- !app_assoc, Nat.add_assoc. reflexivity.
    + rewrite <- F. rewrite app_assoc. f_equal.
      set (whole := snd (rc4_decode st0 (c ++ chunk ++ concat (map fst es)))) in *.
      assert (W : exists x, whole = snd (rc4_decode st0 (c ++ chunk)) ++ x).
      { unfold whole. rewrite app_assoc. rewrite rc4_decode_app. destruct (rc4_decode st0 (c ++ chunk)) as [s r].
        destruct (rc4_decode s _) as [s' r']. exists r'. reflexivity. }
      destruct W as (x & W). pose proof (snd_len st0 (c ++ chunk)) as L.
      destruct R1 as (L1 & _).
      rewrite W, !firstn_app, L. replace (n - length (c ++ chunk))%nat with 0%nat by lia.
      replace (n + takes view - length (c ++ chunk))%nat with 0%nat by lia. cbn [firstn]. rewrite !app_nil_r.
      set (p := snd (rc4_decode st0 (c ++ chunk))) in *. rewrite V.
      symmetry. apply firstn_plus.
Qed.

(** However the peer's encrypted bytes are cut into deliveries and however much the reader
    leaves unread each time: what it is shown in each delivery is the peer's plaintext from the
    first unread byte to the last byte that arrived; and what it has taken altogether is an
    initial part of the plaintext, no byte lost, repeated or altered. *)
Theorem C15_delivery : forall key plaintext events later st views,
  arrived events ++ later = snd (rc4_encode key plaintext) ->
  deliverAll {| ps_in := key; ps_unhandled := 0; ps_buffer := [] |} events = (st, views) ->
  moderate events views ->
  length views = length events /\
  (forall i, (i < length events)%nat ->
     let unread := total_taken (firstn i events) (firstn i views) in
     nth i views [] = skipn unread (firstn (length (arrived (firstn (S i) events))) plaintext)) /\
  all_taken events views = firstn (total_taken events views) plaintext /\
  (total_taken events views <= length (arrived events))%nat.
Proof.
  intros key plaintext events later st views A D M.
  assert (R : received key [] 0 {| ps_in := key; ps_unhandled := 0; ps_buffer := [] |}).
  { unfold received. rewrite decode_nil. cbn [ps_in ps_buffer ps_unhandled fst snd]. rewrite mask_mask. auto. }
  destruct (deliverAll_ok key events [] 0 _ _ _ R D M) as (R' & L & V & T). cbn [app Nat.add] in *. rewrite (firstn_O (snd (rc4_decode key (arrived events)))) in T. cbn [app] in T.
  assert (P : forall a b, a ++ b = snd (rc4_encode key plaintext) -> snd (rc4_decode key a) = firstn (length a) plaintext).
  { intros a b E. pose proof (encode_decode key plaintext) as ED. rewrite <- E, rc4_decode_app in ED.
    pose proof (snd_len key a) as La. destruct (rc4_decode key a) as [s1 r1]. cbn [snd] in *.
    destruct (rc4_decode s1 b) as [s2 r2]. injection ED as _ ED. rewrite <- ED, <- La. symmetry. apply firstn_app_exact. }
  split; [exact L|]. split; [|split].
  - intros i I. cbv zeta. rewrite V by exact I. f_equal. apply P with (b := arrived (skipn (S i) events) ++ later).
    rewrite app_assoc. unfold arrived. rewrite <- concat_app, <- map_app. etransitivity; [|exact A]. f_equal. apply (f_equal (fun l => concat (map fst l))). exact (firstn_skipn (S i) events).
  - rewrite T. rewrite (P _ _ A), firstn_firstn. f_equal. destruct R' as (R' & _). lia.
  - apply R'.
Qed.
Print Assumptions C15_delivery.

(** The key the initiator uses after reading message 4 whole is the one the listener encrypts
    with next, and the stream data that came in the same delivery are shown decrypted. *)
Theorem C15_after_message4 : forall rcIn padding p0 out m4 plaintext buffer chunk takes,
  zlen padding < 512 -> createPe4 rcIn TypeRC4 padding = (out, m4) ->
  (forall k, (k < length p0)%nat -> ~ stands_at (firstn 8 m4) k (p0 ++ m4 ++ snd (rc4_encode out plaintext))) ->
  buffer ++ chunk = p0 ++ m4 ++ snd (rc4_encode out plaintext) ->
  (takes plaintext <= length plaintext)%nat -> plaintext <> [] ->
  exists st, deliverPe4 rcIn buffer chunk takes = HsOpen st plaintext /\ received out (snd (rc4_encode out plaintext)) (takes plaintext) st.
Proof.
  intros * Pad C First E T Ne. unfold deliverPe4. rewrite E. set (ct := snd (rc4_encode out plaintext)) in *.
  rewrite (readPe4_whole rcIn TypeRC4 padding p0 ct out m4 ltac:(lia) C).
  2:{ intros k K. apply not_occurs; [apply First; exact K|]. rewrite app_length. lia. }
  assert (S1 : skipn (length p0 + length m4) (p0 ++ m4 ++ ct) = ct) by (rewrite <- skip_skip, !skipn_app_exact; reflexivity).
  rewrite S1. assert (Lc : length ct = length plaintext) by (unfold ct; apply encode_len).
  assert (DD : rc4_decode out ct = (fst (rc4_encode out plaintext), plaintext)) by (apply encode_decode).
  assert (R : received out [] 0 {| ps_in := out; ps_unhandled := 0; ps_buffer := [] |}).
  { unfold received. rewrite decode_nil. cbn [ps_in ps_buffer ps_unhandled fst snd]. rewrite mask_mask. auto. }
  clearbody ct. destruct ct as [|c0 ct']; [destruct plaintext; [contradiction|discriminate Lc]|].
  destruct (deliver {| ps_in := out; ps_unhandled := 0; ps_buffer := [] |} (c0 :: ct') takes) as [st view] eqn:D.
  assert (V : view = plaintext).
  { unfold deliver in D. cbn [ps_buffer ps_unhandled ps_in app skipn firstn] in D. rewrite DD in D. now injection D as _ <-. }
  subst view. exists st. split; [reflexivity|].
  destruct (deliver_ok out [] 0 _ (c0 :: ct') takes st plaintext R D T) as (_ & R1). exact R1.
Qed.
Print Assumptions C15_after_message4.

(** Both ends of a connection: after an accepted handshake the listener's outgoing cipher is
    the initiator's incoming one and the other way round, message 4 included. *)
Theorem C15_ciphers_match : forall secret info padding message out m3 torrents,
  is_secret secret -> is_info info -> zlen padding < 512 -> zlen message < 65536 ->
  lookup secret info torrents = Some info -> createPe3 secret info padding message = (out, m3) ->
  exists rcIn rcOut, readPe3 secret torrents m3 = Pe3Done info TypeRC4 rcIn rcOut message /\
    rcIn = out /\ rcOut = rcStart invokerB secret info /\
    forall pad4 out4 m4 rest, zlen pad4 < 512 -> createPe4 rcOut TypeRC4 pad4 = (out4, m4) ->
      readPe4 (rcStart invokerB secret info) (m4 ++ rest) = (out4, Pe4Done (length m4) TypeRC4).
Proof.
  intros * S96 H20 Pad Msg Look M3. exists out, (rcStart invokerB secret info).
  pose proof (readPe3_at secret info padding message torrents S96 H20 ltac:(lia) Msg Look out m3 M3 [] (length m3)) as R.
  cbn [app length] in R. rewrite firstn_all, Nat.eqb_refl in R. rewrite R by lia.
  split; [reflexivity|]. split; [reflexivity|]. split; [reflexivity|].
  intros * P4 C. apply (readPe4_whole _ TypeRC4 pad4 [] rest out4 m4); [lia|exact C|]. cbn [length]. lia.
Qed.
Print Assumptions C15_ciphers_match.

(** A stream of 5 bytes in three deliveries with a slow reader. *)
Example C15_example :
  let key := rcStart invokerA secret1 info1 in
  let c := snd (rc4_encode key [10; 20; 30; 40; 50]) in
  let ev := [(firstn 2 c, fun _ => 1%nat); (slice 2 1 c, fun _ => 0%nat); (skipn 3 c, fun v => length v)] in
  snd (deliverAll {| ps_in := key; ps_unhandled := 0; ps_buffer := [] |} ev) = [[10; 20]; [20; 30]; [20; 30; 40; 50]].
Proof. vm_compute. reflexivity. Qed.

(** ** Fragments of the handshake *)

(** Message 3 completes however it is cut. *)
Theorem C57_message3_partial : forall secret info torrents padding message out m3 chunks,
  is_secret secret -> is_info info -> zlen padding < 512 -> zlen message < 65536 ->
  lookup secret info torrents = Some info ->
  createPe3 secret info padding message = (out, m3) -> concat chunks = m3 ->
  exists rcIn rcOut, listen secret torrents [] chunks = Some (Pe3Done info TypeRC4 rcIn rcOut message).
Proof.
  intros * S96 H20 Pad Msg Look M3 E. exists out, (rcStart invokerB secret info).
  apply (C14_handshake_partial secret info torrents padding message out m3 [] chunks); auto.
  cbn [length]. intros; lia.
Qed.
Print Assumptions C57_message3_partial.

(** Message 4 completes when it comes whole in the delivery in which at least 14 bytes are
    there for the first time, whatever comes before and after in it. *)
Theorem C57_message4_partial : forall rcIn type padding p0 rest out m4 early,
  zlen padding < 512 -> createPe4 rcIn type padding = (out, m4) ->
  (forall k, (k < length p0)%nat -> ~ stands_at (firstn 8 m4) k (p0 ++ m4 ++ rest)) ->
  (length early < 14)%nat -> forall chunk, early ++ chunk = p0 ++ m4 ++ rest ->
  readPe4 rcIn early = (rcIn, Pe4Wait 0) /\
  readPe4 rcIn (early ++ chunk) = (out, Pe4Done (length p0 + length m4) type).
Proof.
  intros * Pad C First L chunk E. split.
  - unfold readPe4. destruct (Nat.ltb_spec (length early) 14); [reflexivity|lia].
  - rewrite E. apply (readPe4_whole _ _ padding); [lia|exact C|].
    intros k K. apply not_occurs; [apply First; exact K|]. rewrite app_length. lia.
Qed.
Print Assumptions C57_message4_partial.

(** Cut after 14 bytes of a message 4 of 20 bytes, the first half moves the cipher on, the
    constant is not found again, and the connection waits for ever. *)
Theorem C57_message4_refuted : exists rcIn m4, m4 = snd (createPe4 rcIn TypeRC4 (repeat 0 6)) /\
  awaitPe4 rcIn [] [firstn 14 m4; skipn 14 m4] = None /\ awaitPe4 rcIn [] [m4] <> None /\
  exists in1, awaitPe4 rcIn [] [firstn 14 m4; skipn 14 m4] = None /\
    deliverPe4 rcIn [] (firstn 14 m4) (fun _ => 0%nat) = HsWait in1 (firstn 14 m4).
Proof.
  exists (rcStart invokerB secret1 info1). eexists. split; [reflexivity|]. split; [vm_compute; reflexivity|].
  split; [vm_compute; discriminate|]. eexists. split; vm_compute; reflexivity.
Qed.
Print Assumptions C57_message4_refuted.

(** ** The negotiated kind of stream *)

(** The initiator goes on unencrypted when the answer says so. *)
Theorem C58_initiator_partial : forall rcIn padding p0 rest out m4 buffer chunk takes,
  zlen padding < 512 -> createPe4 rcIn TypePlain padding = (out, m4) ->
  (forall k, (k < length p0)%nat -> ~ stands_at (firstn 8 m4) k (p0 ++ m4 ++ rest)) ->
  buffer ++ chunk = p0 ++ m4 ++ rest ->
  deliverPe4 rcIn buffer chunk takes = HsPlain rest.
Proof.
  intros * Pad C First E. unfold deliverPe4. rewrite E, (readPe4_whole rcIn TypePlain padding p0 rest out m4 ltac:(lia) C).
  - rewrite <- skip_skip, !skipn_app_exact. reflexivity.
  - intros k K. apply not_occurs; [apply First; exact K|]. rewrite app_length. lia.
Qed.
Print Assumptions C58_initiator_partial.

(** Message 3 of a peer that offers only an unencrypted stream. *)
Definition plainOffer (secret info : list Z) : list Z :=
  SHA1 (tagReq 49 ++ secret) ++ xorBytes (SHA1 (tagReq 51 ++ secret)) (req2Hash info)
  ++ snd (rc4_encode (rcStart invokerA secret info) (repeat 0 8 ++ be 4 1 ++ be 2 0 ++ be 2 0)).

(** The listener agrees to an unencrypted stream and then decrypts it all the same. *)
Theorem C58_listener_refuted : exists secret info st rcIn rcOut,
  readPe3 secret [info] (plainOffer secret info) = Pe3Done info TypePlain rcIn rcOut [] /\
  acceptedStream (readPe3 secret [info] (plainOffer secret info)) = Some st /\
  snd (deliver st [0; 0; 0; 1; 2] (fun _ => 0%nat)) <> [0; 0; 0; 1; 2].
Proof.
  exists secret1, info1. eexists. eexists. eexists. split; [vm_compute; reflexivity|]. split; [vm_compute; reflexivity|].
  vm_compute. discriminate.
Qed.
Print Assumptions C58_listener_refuted.

Transparent rcStart rc4_encode rc4_decode.
(** C14: what each side sends is the plain text xored with the key stream of RC4 under
    SHA-1("key" side, secret, torrent) from its 1025th byte on, as the protocol wants it. *)
Theorem C14_key_stream : forall who secret info data, is_byte who -> bytes_ok secret -> length secret = 96%nat -> bytes_ok info -> length info = 20%nat ->
  snd (rc4_encode (rcStart who secret info) data) = xor_list data (skipn 1024 (keystream (SHA1 ([107; 101; 121; who] ++ secret ++ info)) (1024 + length data))).
Proof.
  intros who secret info data W BS LS BI LI. unfold rcStart. change (tagKey who) with [107; 101; 121; who].
  assert (L : length (SHA1 ([107; 101; 121; who] ++ secret ++ info)) = 20%nat).
  { apply SHA1_length; [|unfold zlen; rewrite !app_length, LS, LI; cbn; lia]. repeat (apply Forall_app; split); auto. repeat constructor; unfold is_byte in *; lia. }
  destruct (rc4_init_rep (SHA1 ([107; 101; 121; who] ++ secret ++ info))) as (st & E & _); [lia|]. rewrite E. apply rc4_stream; [lia|exact E].
Qed.
Print Assumptions C14_key_stream.
