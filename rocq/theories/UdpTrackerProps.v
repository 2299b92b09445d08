(** C41: the exchange with UDP trackers. *)
From Verif Require Import Base BaseLemmas PacketModel PacketProofs HttpModel HttpSpec HttpProps UdpTrackerModel UdpTrackerSpec.

Definition r32 (v : Z) : Prop := 0 <= v < 4294967296.
Definition r64 (v : Z) : Prop := 0 <= v < 18446744073709551616.

Lemma slice_pre {A} n (a b : list A) : length a = n -> slice 0 n (a ++ b) = a.
Proof. intros <-. unfold slice. cbn. apply firstn_app_exact. Qed.

Lemma slice_skip {A} k n (a b : list A) : (length a <= k)%nat -> slice k n (a ++ b) = slice (k - length a) n b.
Proof. intros H. unfold slice. rewrite skipn_app. rewrite skipn_all2 by lia. reflexivity. Qed.

Lemma slice_all {A} n (a : list A) : length a = n -> slice 0 n a = a.
Proof. intros <-. unfold slice. cbn. apply firstn_all. Qed.

Ltac bel := rewrite ?be_length; cbn [length]; try lia.

(** C41. The connect request. *)
Theorem C41_connect_request : forall x, is_connect_request (connectRequest x) x.
Proof.
  intros x. unfold connectRequest, is_connect_request, add32, add64, addN. rewrite !le_bswap. cbn [app].
  unfold field_is. repeat split.
Qed.
Print Assumptions C41_connect_request.

Ltac skips := repeat (rewrite slice_skip by bel; rewrite ?be_length).

(** C41. The announce request carries the connection, the transaction and the values of the
    torrent at the protocol's offsets. *)
Theorem C41_announce_request : forall c x v, length (vhash v) = 20%nat -> length (vpeerId v) = 20%nat ->
  is_announce_request (announceRequest c x v)
    {| fconnection := c; ftransaction := x; fhash := vhash v; fpeer := vpeerId v; fdownloaded := vdownloaded v; fleft := vleft v;
       fuploaded := vuploaded v; fevent := if vfinished v then 1 else 2; fip := 0; fkey := vkey v; fwant := vnumWant v; fport := vport v |}.
Proof.
  intros c x v LH LP. unfold announceRequest, is_announce_request, add32, add64, add16, addN, addRaw, field_is. rewrite !le_bswap. cbn [app].
  cbn [fconnection ftransaction fhash fpeer fdownloaded fleft fuploaded fevent fip fkey fwant fport].
  rewrite <- !app_assoc.
  refine (conj _ (conj _ (conj _ (conj _ (conj _ (conj _ (conj _ (conj _ (conj _ (conj _ (conj _ (conj _ (conj _ _))))))))))))).
  - rewrite !app_length, !be_length, LH, LP. reflexivity.
  - apply slice_pre. bel.
  - skips. cbn [Nat.sub]. apply slice_pre. bel.
  - skips. cbn [Nat.sub]. apply slice_pre. bel.
  - skips. cbn [Nat.sub]. apply slice_pre. exact LH.
  - do 4 (rewrite slice_skip by (bel; rewrite ?LH; lia); rewrite ?be_length, ?LH; cbn [Nat.sub]). apply slice_pre. exact LP.
  - do 5 (rewrite slice_skip by (bel; rewrite ?LH, ?LP; lia); rewrite ?be_length, ?LH, ?LP; cbn [Nat.sub]). apply slice_pre. bel.
  - do 6 (rewrite slice_skip by (bel; rewrite ?LH, ?LP; lia); rewrite ?be_length, ?LH, ?LP; cbn [Nat.sub]). apply slice_pre. bel.
  - do 7 (rewrite slice_skip by (bel; rewrite ?LH, ?LP; lia); rewrite ?be_length, ?LH, ?LP; cbn [Nat.sub]). apply slice_pre. bel.
  - do 8 (rewrite slice_skip by (bel; rewrite ?LH, ?LP; lia); rewrite ?be_length, ?LH, ?LP; cbn [Nat.sub]). unfold eCompleted, eStarted. apply slice_pre. bel.
  - do 9 (rewrite slice_skip by (bel; rewrite ?LH, ?LP; lia); rewrite ?be_length, ?LH, ?LP; cbn [Nat.sub]). apply slice_pre. bel.
  - do 10 (rewrite slice_skip by (bel; rewrite ?LH, ?LP; lia); rewrite ?be_length, ?LH, ?LP; cbn [Nat.sub]). apply slice_pre. bel.
  - do 11 (rewrite slice_skip by (bel; rewrite ?LH, ?LP; lia); rewrite ?be_length, ?LH, ?LP; cbn [Nat.sub]). apply slice_pre. bel.
  - do 12 (rewrite slice_skip by (bel; rewrite ?LH, ?LP; lia); rewrite ?be_length, ?LH, ?LP; cbn [Nat.sub]). apply slice_all. bel.
Qed.
Print Assumptions C41_announce_request.

(** ** Reading replies *)

Lemma popN_slice n b pos : (pos + n <= length b)%nat -> bytes_ok b ->
  popN n {| rbuf := b; rpos := pos |} = Ok (unbe (slice pos n b), {| rbuf := b; rpos := pos + n |}).
Proof.
  intros L B. unfold popN, readAt. cbn [rbuf rpos]. replace (Nat.leb (pos + n) (length b)) with true by lia. cbn [bind].
  rewrite bswap_unle; [reflexivity| |].
  - apply slice_length. lia.
  - unfold slice, bytes_ok in *. apply Forall_forall. intros y Y. rewrite Forall_forall in B. apply B.
    rewrite <- (firstn_skipn pos b). apply in_or_app. right. rewrite <- (firstn_skipn n (skipn pos b)). apply in_or_app. now left.
Qed.

Lemma popN_short n b pos : (length b < pos + n)%nat -> popN n {| rbuf := b; rpos := pos |} = UB.
Proof. intros L. unfold popN, readAt. cbn [rbuf rpos]. replace (Nat.leb (pos + n) (length b)) with false by lia. reflexivity. Qed.

Lemma popRawPeers_ok ps : Forall peer_ok ps -> forall pre post, popRawPeers (length ps) {| rbuf := pre ++ peers_text ps ++ post; rpos := length pre |} =
  Ok (map (fun p => (unle (fst p), snd p)) ps).
Proof.
  induction 1 as [|[a p] ps (LA & BA & PP) _ IH]; intros pre post; [reflexivity|]. cbn [fst snd] in *. cbn [length popRawPeers].
  unfold peers_text. cbn [map concat fst snd]. fold (peers_text ps). rewrite <- !app_assoc.
  unfold popBuffer. rewrite readAt_at by exact LA. cbn [bind fst snd adv rbuf rpos].
  pose proof (popN_at 2 (pre ++ a) p (peers_text ps ++ post) ltac:(cbn; lia)) as Y. rewrite app_length, LA in Y. rewrite <- app_assoc in Y. unfold pop16, adv. cbn [rbuf rpos]. rewrite Y. cbn [bind fst snd].
  specialize (IH ((pre ++ a) ++ be 2 p) post). rewrite !app_length, LA, be_length in IH. rewrite <- !app_assoc in IH. rewrite IH. reflexivity.
Qed.

Lemma announce_reply_read x i l s ps post : r32 x -> r32 i -> r32 l -> r32 s -> Forall peer_ok ps -> ps <> [] -> (length post < 6)%nat ->
  zlen ps < 1000000000 ->
  getAnnounceResponse (announce_reply x i l s ps ++ post) =
  Ok (1, x, {| ainterval := i; aleeches := l; aseeds := s; apeers := map (fun p => (unle (fst p), snd p)) ps |}).
Proof.
  unfold r32. intros X I L S P NE LP ZP. unfold announce_reply. rewrite <- !app_assoc. set (b := be 4 1 ++ _).
  assert (LB : zlen b = 20 + 6 * zlen ps + zlen post).
  { unfold b. rewrite !zlen_app, peers_text_length by assumption. unfold zlen. rewrite !be_length. lia. }
  assert (NP : 1 <= zlen ps) by (destruct ps; [congruence|unfold zlen; cbn [length]; lia]).
  assert (V : forall v, 0 <= v < 4294967296 -> 0 <= v < 256 ^ Z.of_nat 4) by (intros; cbn; lia).
  unfold getAnnounceResponse, newReader, pop32.
  pose proof (popN_at 4 [] 1 (be 4 x ++ be 4 i ++ be 4 l ++ be 4 s ++ peers_text ps ++ post) (V 1 ltac:(lia))) as E1. cbn [app length Nat.add] in E1. fold b in E1. rewrite E1. cbn [bind fst snd].
  pose proof (popN_at 4 (be 4 1) x (be 4 i ++ be 4 l ++ be 4 s ++ peers_text ps ++ post) (V x X)) as E2. rewrite be_length in E2. cbn [Nat.add] in E2. fold b in E2. rewrite E2. cbn [bind fst snd].
  unfold zlen in LP |- *. replace (Z.of_nat (length b) <? 26) with false by (unfold zlen in *; lia).
  pose proof (popN_at 4 (be 4 1 ++ be 4 x) i (be 4 l ++ be 4 s ++ peers_text ps ++ post) (V i I)) as E3. rewrite app_length, !be_length in E3. cbn [Nat.add] in E3. rewrite <- !app_assoc in E3. fold b in E3. rewrite E3. cbn [bind fst snd].
  pose proof (popN_at 4 (be 4 1 ++ be 4 x ++ be 4 i) l (be 4 s ++ peers_text ps ++ post) (V l L)) as E4. rewrite !app_length, !be_length in E4. cbn [Nat.add] in E4. rewrite <- !app_assoc in E4. fold b in E4. rewrite E4. cbn [bind fst snd].
  pose proof (popN_at 4 (be 4 1 ++ be 4 x ++ be 4 i ++ be 4 l) s (peers_text ps ++ post) (V s S)) as E5. rewrite !app_length, !be_length in E5. cbn [Nat.add] in E5. rewrite <- !app_assoc in E5. fold b in E5. rewrite E5. cbn [bind fst snd].
  replace (Z.to_nat (remaining {| rbuf := b; rpos := 20 |} / 6)) with (length ps).
  2:{ unfold remaining. cbn [rbuf rpos]. rewrite LB. unfold u64. unfold zlen in *. rewrite Z.mod_small by lia. clear - LP. lia. }
  pose proof (popRawPeers_ok ps P (be 4 1 ++ be 4 x ++ be 4 i ++ be 4 l ++ be 4 s) post) as E6. rewrite !app_length, !be_length in E6. cbn [Nat.add] in E6. rewrite <- !app_assoc in E6. fold b in E6.
  rewrite E6. reflexivity.
Qed.

(** C41. A reply to the last announce with peers gives exactly its interval, numbers and peers
    (an address is the number whose bytes in memory are the four bytes sent). *)
Theorem C41_peers_partial : forall t x i l s ps post, r32 x -> r32 i -> r32 l -> r32 s -> Forall peer_ok ps -> ps <> [] -> (length post < 6)%nat ->
  zlen ps < 1000000000 -> ulast t = (1, x) ->
  exists t' m, onAnnounceReply t (announce_reply x i l s ps ++ post) = Ok (true, t') /\ ustate t' = sAnnounced /\
    uresults t' = uresults t ++ [m] /\ ainterval m = i /\ aleeches m = l /\ aseeds m = s /\ map (fun p => (le 4 (fst p), snd p)) (apeers m) = ps /\
    uinterval t' = i /\ uleeches t' = l /\ useeds t' = s /\ upeers t' = zlen ps /\ usent t' = usent t /\ ufails t' = ufails t.
Proof.
  intros t x i l s ps post X I L S P NE LP ZP U. unfold onAnnounceReply.
  destruct (announce_reply x i l s ps ++ post) as [|b0 bs] eqn:EB; [exfalso; unfold announce_reply in EB; discriminate|]. rewrite <- EB. clear EB b0 bs.
  rewrite announce_reply_read by assumption. cbn [bind]. unfold uvalid. rewrite U. cbn [fst snd]. rewrite !Z.eqb_refl. cbn [andb].
  eexists. exists {| ainterval := i; aleeches := l; aseeds := s; apeers := map (fun p => (unle (fst p), snd p)) ps |}. split; [reflexivity|]. cbn [ustate uresults uinterval uleeches useeds upeers usent ufails ainterval aleeches aseeds apeers].
  refine (conj eq_refl (conj eq_refl (conj eq_refl (conj eq_refl (conj eq_refl (conj _ (conj eq_refl (conj eq_refl (conj eq_refl (conj _ (conj eq_refl eq_refl))))))))))).
  - rewrite map_map. cbn [fst snd]. clear - P. induction P as [|[a p] ps (LA & BA & _) _ IH]; [reflexivity|]. cbn [map fst snd] in *. rewrite IH. do 2 f_equal.
    rewrite <- LA. now apply le_unle.
  - unfold zlen. rewrite map_length. unfold u32. apply Z.mod_small. unfold zlen in ZP. lia.
Qed.
Print Assumptions C41_peers_partial.

(** Finding: a correct reply without peers has its interval and its numbers ignored. *)
Theorem C41_no_peers_refuted : forall t x i l s, r32 x -> r32 i -> r32 l -> r32 s -> ulast t = (1, x) ->
  exists t', onAnnounceReply t (announce_reply x i l s []) = Ok (true, t') /\ uinterval t' = 300 /\ uleeches t' = 0 /\ useeds t' = 0.
Proof.
  unfold r32. intros t x i l s X I L S U. unfold onAnnounceReply.
  destruct (announce_reply x i l s []) as [|b0 bs] eqn:EB; [exfalso; unfold announce_reply in EB; discriminate|]. rewrite <- EB. clear EB b0 bs.
  assert (E : getAnnounceResponse (announce_reply x i l s []) = Ok (1, x, noResp)).
  { unfold getAnnounceResponse, newReader, pop32, announce_reply.
    pose proof (popN_at 4 [] 1 (be 4 x ++ be 4 i ++ be 4 l ++ be 4 s ++ peers_text []) ltac:(cbn; lia)) as E1. cbn [app length Nat.add] in E1. rewrite E1. cbn [bind fst snd].
    pose proof (popN_at 4 (be 4 1) x (be 4 i ++ be 4 l ++ be 4 s ++ peers_text []) ltac:(cbn; lia)) as E2. rewrite be_length in E2. cbn [Nat.add] in E2. rewrite E2. cbn [bind fst snd].
    reflexivity. }
  rewrite E. cbn [bind]. unfold uvalid. rewrite U. cbn [fst snd]. rewrite !Z.eqb_refl. cbn [andb]. eexists. split; [reflexivity|]. cbn. auto.
Qed.
Print Assumptions C41_no_peers_refuted.

(** C41. A reply to the last connect request makes the announce be sent with its connection. *)
Theorem C41_connected : forall t x c post x2 v, r32 x -> r64 c -> ulast t = (0, x) -> length (vhash v) = 20%nat -> length (vpeerId v) = 20%nat ->
  exists t' msg, onConnectReply t (connect_reply x c ++ post) x2 v = Ok (true, t') /\ usent t' = usent t ++ [(true, msg)] /\
    uconn t' = c /\ ulast t' = (1, x2) /\ ustate t' = sAnnouncing /\
    is_announce_request msg {| fconnection := c; ftransaction := x2; fhash := vhash v; fpeer := vpeerId v; fdownloaded := vdownloaded v; fleft := vleft v;
       fuploaded := vuploaded v; fevent := if vfinished v then 1 else 2; fip := 0; fkey := vkey v; fwant := vnumWant v; fport := vport v |}.
Proof.
  unfold r32, r64. intros t x c post x2 v X C U LH LP. unfold onConnectReply.
  destruct (connect_reply x c ++ post) as [|b0 bs] eqn:EB; [exfalso; unfold connect_reply in EB; discriminate|]. rewrite <- EB. clear EB b0 bs.
  assert (E : getConnectResponse (connect_reply x c ++ post) = Ok (0, x, c)).
  { unfold getConnectResponse, newReader, pop32, pop64, connect_reply. rewrite <- !app_assoc.
    replace (16 <=? zlen (be 4 0 ++ be 4 x ++ be 8 c ++ post)) with true by (unfold zlen; rewrite !app_length, !be_length; lia).
    pose proof (popN_at 4 [] 0 (be 4 x ++ be 8 c ++ post) ltac:(cbn; lia)) as E1. cbn [app length Nat.add] in E1. rewrite E1. cbn [bind fst snd].
    pose proof (popN_at 4 (be 4 0) x (be 8 c ++ post) ltac:(cbn; lia)) as E2. rewrite be_length in E2. cbn [Nat.add] in E2. rewrite E2. cbn [bind fst snd].
    pose proof (popN_at 8 (be 4 0 ++ be 4 x) c post ltac:(cbn; lia)) as E3. rewrite !app_length, !be_length in E3. cbn [Nat.add] in E3. rewrite <- app_assoc in E3. rewrite E3. cbn [bind fst snd].
    reflexivity. }
  rewrite E. cbn [bind]. unfold uvalid. rewrite U. cbn [fst snd]. rewrite !Z.eqb_refl. cbn [andb]. unfold uannounce. cbn [ustate].
  change (sConnected <? sConnected) with false. cbn iota. eexists. eexists. split; [reflexivity|]. cbn [usend usent uconn ulast ustate].
  refine (conj eq_refl (conj eq_refl (conj eq_refl (conj eq_refl _)))). now apply C41_announce_request.
Qed.
Print Assumptions C41_connected.

(** ** Only replies to the last request *)

Definition event_values (e : uevent) : Prop :=
  match e with
  | UAnnounce x v | UConnectReply _ x v => r32 x
  | UAnnounceReply b => True
  end.

(** What is remembered is what the last message sent carries. *)
Definition remembers (t : utracker) : Prop :=
  usent t = [] \/ exists pre f msg, usent t = pre ++ [(f, msg)] /\ field_is msg 8 4 (fst (ulast t)) /\ field_is msg 12 4 (snd (ulast t)) /\
    (fst (ulast t) = 0 \/ fst (ulast t) = 1) /\ r32 (snd (ulast t)).

Lemma uannounce_remembers t x v : r32 x -> remembers (uannounce t x v).
Proof.
  intros X. right. unfold uannounce. destruct (ustate t <? sConnected); cbn [usend usent ulast fst snd].
  - exists (usent t), false, (connectRequest x). destruct (C41_connect_request x) as (_ & _ & A & B). auto 7.
  - exists (usent t), true, (announceRequest (uconn t) x v).
    assert (A : field_is (announceRequest (uconn t) x v) 8 4 1 /\ field_is (announceRequest (uconn t) x v) 12 4 x).
    { unfold announceRequest, add32, add64, add16, addN, addRaw, field_is. rewrite !le_bswap. cbn [app]. rewrite <- !app_assoc. split; skips; cbn [Nat.sub]; apply slice_pre; bel. }
    destruct A. auto 7.
Qed.

Lemma ustep_remembers t e t' : event_values e -> remembers t -> ustep t e = Ok t' -> remembers t'.
Proof.
  intros EV R H. destruct e as [x v|b x v|b]; cbn [ustep event_values] in *.
  - injection H as <-. now apply uannounce_remembers.
  - destruct (onConnectReply t b x v) as [[ok t1]|] eqn:E; [|discriminate]. injection H as <-. cbn [snd]. unfold onConnectReply in E.
    destruct b as [|b0 bs]; [injection E as _ <-; exact R|]. destruct (getConnectResponse (b0 :: bs)) as [[[a y] c]|]; [|discriminate]. cbn [bind] in E.
    destruct (uvalid t a y); [injection E as _ <-; now apply uannounce_remembers|]. destruct (y =? snd (ulast t)); injection E as _ <-; exact R.
  - destruct (onAnnounceReply t b) as [[ok t1]|] eqn:E; [|discriminate]. injection H as <-. cbn [snd]. unfold onAnnounceReply in E.
    destruct b as [|b0 bs]; [injection E as _ <-; exact R|]. destruct (getAnnounceResponse (b0 :: bs)) as [[[a y] m]|]; [|discriminate]. cbn [bind] in E.
    destruct (uvalid t a y); [injection E as _ <-; exact R|]. destruct (y =? snd (ulast t)); injection E as _ <-; exact R.
Qed.

Lemma urun_remembers es : forall t t', Forall event_values es -> remembers t -> urun t es = Ok t' -> remembers t'.
Proof.
  induction es as [|e es IH]; intros t t' EV R H; cbn in H; [injection H as <-; exact R|]. inversion EV; subst.
  destruct (ustep t e) as [t1|] eqn:E; [|discriminate]. cbn [bind] in H. exact (IH t1 t' H3 (ustep_remembers _ _ _ H2 R E) H).
Qed.

Lemma be_unbe_n n l : length l = n -> bytes_ok l -> be n (unbe l) = l.
Proof. intros <-. apply be_unbe. Qed.

Lemma slice_bytes off n b : bytes_ok b -> bytes_ok (slice off n b).
Proof.
  intros B. unfold slice, bytes_ok in *. apply Forall_forall. intros y Y. rewrite Forall_forall in B. apply B.
  rewrite <- (firstn_skipn off b). apply in_or_app. right. rewrite <- (firstn_skipn n (skipn off b)). apply in_or_app. now left.
Qed.

Lemma getAnnounce_head b a x m : bytes_ok b -> getAnnounceResponse b = Ok (a, x, m) -> slice 0 4 b = be 4 a /\ slice 4 4 b = be 4 x.
Proof.
  intros B H. unfold getAnnounceResponse, newReader, pop32 in H.
  destruct (Nat.leb 8 (length b)) eqn:L.
  2:{ exfalso. destruct (Nat.leb 4 (length b)) eqn:L4.
      - rewrite popN_slice in H by (assumption || lia). cbn [bind fst snd] in H. rewrite popN_short in H by lia. discriminate.
      - rewrite popN_short in H by lia. discriminate. }
  rewrite popN_slice in H by (assumption || lia). cbn [bind fst snd] in H. rewrite popN_slice in H by (assumption || lia). cbn [bind fst snd] in H.
  assert (H' : unbe (slice 0 4 b) = a /\ unbe (slice (0 + 4) 4 b) = x).
  { destruct (zlen b <? 26); [injection H as <- <- _; auto|].
    repeat match type of H with bind ?r _ = _ => let E := fresh in destruct r as [[? ?]|] eqn:E; [|discriminate H]; cbn [bind fst snd] in H end.
    match type of H with bind ?r _ = _ => destruct r; [|discriminate H] end. cbn [bind] in H. injection H as <- <- _. auto. }
  destruct H' as [<- <-]. split; symmetry; apply be_unbe_n; try (apply slice_length; lia); apply slice_bytes; assumption.
Qed.

(** C41. In every exchange, an announce reply is used only if it carries the action and the
    transaction of the message sent last. *)
Theorem C41_only_last : forall es t b t', Forall event_values es -> urun newTracker es = Ok t -> usent t <> [] -> bytes_ok b ->
  onAnnounceReply t b = Ok (true, t') -> uresults t' <> uresults t ->
  exists pre f msg, usent t = pre ++ [(f, msg)] /\ slice 0 4 b = slice 8 4 msg /\ slice 4 4 b = slice 12 4 msg.
Proof.
  intros es t b t' EV R NS B H NE. destruct (urun_remembers es newTracker t EV (or_introl eq_refl) R) as [E|(pre & f & msg & E & A & X & _)]; [contradiction|].
  exists pre, f, msg. split; [exact E|]. unfold onAnnounceReply in H. destruct b as [|b0 bs]; [discriminate|].
  destruct (getAnnounceResponse (b0 :: bs)) as [[[a x] m]|] eqn:G; [|discriminate]. cbn [bind] in H. apply getAnnounce_head in G as [G1 G2]; [|assumption].
  destruct (uvalid t a x) eqn:UV.
  - unfold uvalid in UV. apply andb_prop in UV as [U1 U2]. apply Z.eqb_eq in U1, U2. subst a x. unfold field_is in *. now rewrite G1, G2, A, X.
  - destruct (x =? snd (ulast t)); [|discriminate H]. injection H as <-. exfalso. apply NE. reflexivity.
Qed.
Print Assumptions C41_only_last.

(** C41. Likewise a connect reply makes a message be sent only if it carries the action and the
    transaction of the message sent last (a message shorter than 16 bytes counts as one with
    zeros), and the message then sent carries bytes 8 to 16 of the reply as its connection. *)
Theorem C41_connect_only_last : forall es t b x v ok t', Forall event_values es -> urun newTracker es = Ok t -> usent t <> [] -> bytes_ok b ->
  onConnectReply t b x v = Ok (ok, t') -> usent t' <> usent t ->
  exists pre f msg msg', usent t = pre ++ [(f, msg)] /\ usent t' = usent t ++ [(true, msg')] /\
    ((slice 0 4 b = slice 8 4 msg /\ slice 4 4 b = slice 12 4 msg /\ slice 0 8 msg' = slice 8 8 b) \/
     (zlen b < 16 /\ field_is msg 8 4 0 /\ field_is msg 12 4 0)).
Proof.
  intros es t b x v ok t' EV R NS B H NE. destruct (urun_remembers es newTracker t EV (or_introl eq_refl) R) as [E|(pre & f & msg & E & A & X & _)]; [contradiction|].
  unfold onConnectReply in H. destruct b as [|b0 bs]; [injection H as _ <-; exfalso; apply NE; reflexivity|]. set (b := b0 :: bs) in *.
  destruct (getConnectResponse b) as [[[a y] c]|] eqn:G; [|discriminate]. cbn [bind] in H.
  destruct (uvalid t a y) eqn:UV.
  2:{ destruct (y =? snd (ulast t)); injection H as _ <-; exfalso; apply NE; reflexivity. }
  unfold uvalid in UV. apply andb_prop in UV as [U1 U2]. apply Z.eqb_eq in U1, U2. injection H as _ <-.
  unfold uannounce in *. cbn [ustate] in *. change (sConnected <? sConnected) with false in *. cbn iota in *. cbn [usend usent uconn] in *.
  exists pre, f, msg, (announceRequest c x v). split; [exact E|]. split; [reflexivity|].
  unfold getConnectResponse in G. destruct (Z.leb_spec 16 (zlen b)) as [L|L].
  - left. unfold newReader, pop32, pop64 in G. unfold zlen in L.
    rewrite popN_slice in G by (assumption || lia). cbn [bind fst snd] in G. rewrite popN_slice in G by (assumption || lia). cbn [bind fst snd] in G.
    rewrite popN_slice in G by (assumption || lia). cbn [bind fst snd] in G. injection G as G1 G2 G3. cbn [Nat.add] in *.
    assert (L4 : forall off, (off + 4 <= length b)%nat -> be 4 (unbe (slice off 4 b)) = slice off 4 b) by (intros; apply be_unbe_n; [apply slice_length; lia|now apply slice_bytes]).
    unfold field_is in *. rewrite A, X, <- U1, <- U2, <- G1, <- G2. rewrite !L4 by lia. refine (conj eq_refl (conj eq_refl _)).
    unfold announceRequest, add32, add64, add16, addN, addRaw. rewrite !le_bswap. cbn [app]. rewrite <- !app_assoc.
    rewrite slice_pre by apply be_length. rewrite <- G3. apply be_unbe_n; [apply slice_length; lia|now apply slice_bytes].
  - right. injection G as <- <- _. rewrite <- U1 in A. rewrite <- U2 in X. auto.
Qed.
Print Assumptions C41_connect_only_last.

(** C41, safety: replies of at least eight bytes, and the absence of a reply, are handled. *)
Lemma remaining_fits b pos n : (pos <= length b)%nat -> zlen b < 18446744073709551616 -> n = Z.to_nat (remaining {| rbuf := b; rpos := pos |} / 6) -> (pos + 6 * n <= length b)%nat.
Proof. intros H Z ->. unfold remaining. cbn [rbuf rpos]. unfold u64, zlen in *. rewrite Z.mod_small by lia. lia. Qed.

Lemma popRawPeers_safe n : forall b pos, (pos + 6 * n <= length b)%nat -> popRawPeers n {| rbuf := b; rpos := pos |} <> UB.
Proof.
  induction n as [|n IH]; intros b pos L; [discriminate|]. cbn [popRawPeers]. unfold popBuffer, pop16, popN, readAt, adv. cbn [rbuf rpos].
  replace (Nat.leb (pos + 4) (length b)) with true by lia. cbn [bind fst snd rbuf rpos]. replace (Nat.leb (pos + 4 + 2) (length b)) with true by lia. cbn [bind fst snd].
  specialize (IH b (pos + 4 + 2)%nat ltac:(lia)). destruct (popRawPeers n _); [discriminate|contradiction].
Qed.

Theorem C41_safe_partial : forall t b, b = [] \/ (8 <= length b)%nat -> zlen b < 18446744073709551616 -> bytes_ok b ->
  (forall x v, onConnectReply t b x v <> UB) /\ onAnnounceReply t b <> UB.
Proof.
  intros t b L Z B. split.
  - intros x v. unfold onConnectReply. destruct b as [|b0 bs]; [discriminate|]. set (b := b0 :: bs) in *.
    assert (G : getConnectResponse b <> UB).
    { unfold getConnectResponse, newReader, pop32, pop64. destruct (Z.leb_spec 16 (zlen b)) as [L16|]; [|discriminate]. unfold zlen in L16.
      rewrite popN_slice by (assumption || lia). cbn [bind fst snd]. rewrite popN_slice by (assumption || lia). cbn [bind fst snd].
      rewrite popN_slice by (assumption || lia). discriminate. }
    destruct (getConnectResponse b) as [[[a y] c]|]; [|contradiction]. cbn [bind]. destruct (uvalid t a y); [discriminate|]. destruct (y =? _); discriminate.
  - unfold onAnnounceReply. destruct b as [|b0 bs]; [discriminate|]. set (b := b0 :: bs) in *. assert (L8 : (8 <= length b)%nat) by (destruct L; [discriminate|assumption]).
    assert (G : getAnnounceResponse b <> UB).
    { unfold getAnnounceResponse, newReader, pop32. rewrite popN_slice by (assumption || lia). cbn [bind fst snd]. rewrite popN_slice by (assumption || lia). cbn [bind fst snd].
      destruct (Z.ltb_spec (zlen b) 26) as [|L26]; [discriminate|]. unfold zlen in L26. do 3 (rewrite popN_slice by (assumption || lia); cbn [bind fst snd]).
      match goal with |- bind (popRawPeers ?n ?r) _ <> _ => pose proof (popRawPeers_safe n b 20) as S; destruct (popRawPeers n r) eqn:EP end; [discriminate|].
      exfalso. apply S; [|exact EP]. eapply remaining_fits; [|exact Z|reflexivity]. lia. }
    destruct (getAnnounceResponse b) as [[[a y] m]|]; [|contradiction]. cbn [bind]. destruct (uvalid t a y); [discriminate|]. destruct (y =? _); discriminate.
Qed.
Print Assumptions C41_safe_partial.

(** Finding: an announce reply of one to seven bytes is read past its end. *)
Theorem C41_short_refuted : forall t b, bytes_ok b -> (1 <= length b <= 7)%nat -> onAnnounceReply t b = UB.
Proof.
  intros t b B L. unfold onAnnounceReply. destruct b as [|b0 bs]; [cbn in L; lia|]. set (b := b0 :: bs) in *.
  assert (G : getAnnounceResponse b = UB); [|now rewrite G].
  unfold getAnnounceResponse, newReader, pop32. destruct (Nat.leb 4 (length b)) eqn:L4.
  - rewrite popN_slice by (assumption || lia). cbn [bind fst snd]. rewrite popN_short by lia. reflexivity.
  - rewrite popN_short by lia. reflexivity.
Qed.
Print Assumptions C41_short_refuted.

(** Finding: when an announce is asked for twice while connecting, the first connect reply
    leaves the second connect callback waiting; the reply to the announce then reaches that
    callback first, is taken for a connect reply because its action and transaction are those
    sent last, and its interval and number of leechers become the connection of a further
    announce. *)
Definition exTV : tvalues := {| vhash := repeat 1 20; vpeerId := repeat 2 20; vdownloaded := 10; vleft := 20; vuploaded := 30; vfinished := false; vkey := 4; vnumWant := 50; vport := 6881 |}.
Theorem C41_mixed_reply_refuted : exists t t' msg,
  urun newTracker [UAnnounce 11 exTV; UAnnounce 12 exTV; UConnectReply (connect_reply 12 777) 13 exTV] = Ok t /\
  onConnectReply t (announce_reply 13 1800 5 6 [([1; 2; 3; 4], 80)]) 14 exTV = Ok (true, t') /\
  uconn t' = 1800 * 4294967296 + 5 /\ usent t' = usent t ++ [(true, msg)] /\ field_is msg 0 8 (1800 * 4294967296 + 5).
Proof. eexists. eexists. eexists. split; [vm_compute; reflexivity|]. split; [vm_compute; reflexivity|]. repeat split; vm_compute; reflexivity. Qed.
Print Assumptions C41_mixed_reply_refuted.

(** Finding: once connected the connection id is never renewed: after a failure the tracker is
    "connected" again, and every later message is an announce (trackers forget an id after two
    minutes). *)
Theorem C41_never_reconnects_refuted : forall es t t', sConnected <= ustate t -> (forall e, In e es -> match e with UConnectReply _ _ _ => False | _ => True end) ->
  urun t es = Ok t' -> sConnected <= ustate t' /\ uconn t' = uconn t /\ exists more, usent t' = usent t ++ more /\ Forall (fun m => fst m = true) more.
Proof.
  induction es as [|e es IH]; intros t t' S NC R; cbn in R.
  - injection R as <-. refine (conj S (conj eq_refl _)). exists []. split; [now rewrite app_nil_r|constructor].
  - destruct (ustep t e) as [t1|] eqn:E; [|discriminate]. cbn [bind] in R.
    assert (A : sConnected <= ustate t1 /\ uconn t1 = uconn t /\ exists more, usent t1 = usent t ++ more /\ Forall (fun m => fst m = true) more).
    { pose proof (NC e (or_introl eq_refl)) as NE. unfold sConnected in *. destruct e as [x v|b x v|b]; [|contradiction|]; cbn [ustep] in E.
      - injection E as <-. unfold uannounce, sConnected. replace (ustate t <? 5) with false by lia. cbn [usend ustate uconn usent]. unfold sAnnouncing. refine (conj _ (conj eq_refl _)); [lia|].
        eexists. split; [reflexivity|]. repeat constructor.
      - assert (N : exists more, usent t = usent t ++ more /\ Forall (fun m : bool * list Z => fst m = true) more) by (exists []; split; [now rewrite app_nil_r|constructor]).
        assert (FA : 5 <= ustate (ufail t)).
        { unfold ufail, sConnected, sAnnounced, sOffline. cbn [ustate]. replace (ustate t <? 5) with false by lia. destruct (ustate t <? 7); lia. }
        destruct (onAnnounceReply t b) as [[ok t2]|] eqn:O; [|discriminate]. injection E as <-. cbn [snd]. unfold onAnnounceReply in O.
        destruct b as [|b0 bs]; [injection O as _ <-; auto|]. destruct (getAnnounceResponse (b0 :: bs)) as [[[a y] m]|]; [|discriminate]. cbn [bind] in O.
        destruct (uvalid t a y); [injection O as _ <-; cbn; unfold sAnnounced; refine (conj _ (conj eq_refl N)); lia|]. destruct (y =? _); injection O as _ <-; auto. }
    destruct A as (A1 & A2 & more & A3 & A4). destruct (IH t1 t' A1 (fun e' I => NC e' (or_intror I)) R) as (B1 & B2 & more2 & B3 & B4).
    refine (conj B1 (conj (eq_trans B2 A2) _)). exists (more ++ more2). split; [now rewrite B3, A3, app_assoc|]. apply Forall_app. auto.
Qed.
Print Assumptions C41_never_reconnects_refuted.

(** A whole exchange: connect, announce, reply. *)
Example C41_meets : Forall event_values [UAnnounce 11 exTV; UConnectReply (connect_reply 11 777) 13 exTV] /\
  match urun newTracker [UAnnounce 11 exTV; UConnectReply (connect_reply 11 777) 13 exTV; UAnnounceReply (announce_reply 13 1800 5 6 [([1; 2; 3; 4], 80)])] with
  | Ok t => (ustate t =? sAnnounced) && (useeds t =? 6) && (uleeches t =? 5) && (upeers t =? 1) && Nat.eqb (length (usent t)) 2
  | UB => false
  end = true.
Proof. split; [repeat constructor; unfold r32; cbn; lia|vm_compute; reflexivity]. Qed.

(** C41: a connection which could not be made is tried again: when the connect request got no
    answer, or one with another action, the next announce sends a connect request, never an
    announce with a connection number the tracker did not give. *)
Theorem C41_connect_again : forall t b x v x' v' ok t1, ustate t < sConnected -> onConnectReply t b x v = Ok (ok, t1) -> usent t1 = usent t ->
  exists msg, usent (uannounce t1 x' v') = usent t1 ++ [(false, msg)] /\ is_connect_request msg x'.
Proof.
  intros t b x v x' v' ok t1 L E S. assert (K : ustate t1 < sConnected).
  { unfold onConnectReply in E. destruct b as [|b0 bs].
    - injection E as _ <-. unfold ufail. cbn [ustate]. replace (ustate t <? sConnected) with true by lia. reflexivity.
    - destruct (getConnectResponse (b0 :: bs)) as [[[a y] c]|]; [|discriminate]. cbn [bind] in E. destruct (uvalid t a y).
      + injection E as _ <-. unfold uannounce in S. cbn [ustate] in S. change (sConnected <? sConnected) with false in S. cbn iota in S. cbn [usend usent] in S.
        apply (f_equal (@length _)) in S. rewrite app_length in S. cbn in S. lia.
      + destruct (y =? snd (ulast t)); injection E as _ <-; [|exact L]. unfold ufail. cbn [ustate]. replace (ustate t <? sConnected) with true by lia. reflexivity. }
  unfold uannounce. replace (ustate t1 <? sConnected) with true by lia. eexists. split; [reflexivity|]. apply C41_connect_request.
Qed.
Print Assumptions C41_connect_again.

(** C41: an announce which got no answer does not give up the connection: the next announce is
    sent with the same connection number. *)
Theorem C41_announce_again : forall t x' v', sConnected <= ustate t -> length (vhash v') = 20%nat -> length (vpeerId v') = 20%nat ->
  exists t1 msg, onAnnounceReply t [] = Ok (false, t1) /\ ufails t1 = S (ufails t) /\ (ustate t1 = sAnnounced <-> sAnnounced <= ustate t) /\
    usent (uannounce t1 x' v') = usent t ++ [(true, msg)] /\ msg = announceRequest (uconn t) x' v'.
Proof.
  intros t x' v' L H1 H2. exists (ufail t). eexists. split; [reflexivity|]. split; [reflexivity|].
  assert (U : ustate (ufail t) = if ustate t <? sAnnounced then sConnected else sAnnounced) by (unfold ufail; cbn [ustate]; replace (ustate t <? sConnected) with false by lia; reflexivity).
  split; [rewrite U; destruct (Z.ltb_spec (ustate t) sAnnounced); unfold sConnected, sAnnounced in *; lia|].
  unfold uannounce. replace (ustate (ufail t) <? sConnected) with false by (rewrite U; destruct (ustate t <? sAnnounced); reflexivity). split; reflexivity.
Qed.
Print Assumptions C41_announce_again.

Example ex_again : exists t t1, urun newTracker [UAnnounce 11 exTV] = Ok t /\ ustate t < sConnected /\ onConnectReply t [] 12 exTV = Ok (false, t1) /\ usent t1 = usent t /\
  ustate t1 = sOffline.
Proof. eexists. eexists. split; [reflexivity|]. repeat split. Qed.
