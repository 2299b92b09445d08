From Verif Require Import Base BaseLemmas PacketModel PacketSpec PacketProofs PeerMsgModel PeerMsgSpec.

(** ** Reader primitives at a known position *)

Definition rd (pre rest : list Z) : reader := {| rbuf := pre ++ rest; rpos := length pre |}.

Lemma rd_pop8 pre b rest : pop8 (rd pre (b :: rest)) = Ok (b, rd (pre ++ [b]) rest).
Proof.
  unfold rd. pose proof (readAt_at pre [b] rest 1 eq_refl) as E. cbn [app] in E. unfold pop8. rewrite E. cbn [bind nth].
  unfold adv. cbn [rbuf rpos]. rewrite app_length. rewrite <- app_assoc. reflexivity.
Qed.

Lemma rd_popN n pre v rest : 0 <= v < 256 ^ Z.of_nat n ->
  popN n (rd pre (be n v ++ rest)) = Ok (v, rd (pre ++ be n v) rest).
Proof.
  intros H. unfold rd. rewrite popN_at by assumption. rewrite app_length, be_length, <- app_assoc. reflexivity.
Qed.

Lemma rd_pop32 pre v rest : is32 v -> pop32 (rd pre (be 4 v ++ rest)) = Ok (v, rd (pre ++ be 4 v) rest).
Proof. intros H. apply rd_popN. change (256 ^ Z.of_nat 4) with 4294967296. exact H. Qed.

Lemma rd_pop16 pre v rest : 0 <= v < 65536 -> pop16 (rd pre (be 2 v ++ rest)) = Ok (v, rd (pre ++ be 2 v) rest).
Proof. intros H. apply rd_popN. change (256 ^ Z.of_nat 2) with 65536. exact H. Qed.

Lemma rd_popBuffer n pre d rest : length d = n ->
  popBuffer n (rd pre (d ++ rest)) = Ok (d, rd (pre ++ d) rest).
Proof.
  intros H. unfold popBuffer, rd. rewrite readAt_at by assumption. cbn [bind]. unfold adv. cbn [rbuf rpos].
  rewrite app_length, H, <- app_assoc. reflexivity.
Qed.

Lemma rd_remaining pre rest : remaining (rd pre rest) = u64 (zlen rest).
Proof. unfold remaining, rd. cbn [rbuf rpos]. rewrite zlen_app. unfold zlen at 1. f_equal. lia. Qed.

(** ** A framed message is not mistaken for a handshake *)

Lemma be4_hd v : is32 v -> be 4 v = [v / 16777216; v / 65536 mod 256; v / 256 mod 256; v mod 256].
Proof. intros H. unfold is32 in H. pose proof (wire_be (F32 v) H) as W. exact (eq_sym W). Qed.

Lemma framed_not_handshake body rest : zlen body < 65536 ->
  startsAsHandshake (framed body ++ rest) = false.
Proof.
  intros H. unfold startsAsHandshake, framed. rewrite be4_hd by (unfold is32; pose proof (zlen_nonneg body); lia).
  cbn [app nth]. pose proof (zlen_nonneg body).
  replace (zlen body / 16777216) with 0 by lia. cbn [Z.eqb]. now rewrite andb_false_r.
Qed.

(** ** Parsing a framed body *)

Lemma parse_framed body rest id f : bytes_ok body -> zlen body < 65532 ->
  fits (framed body ++ rest) ->
  (body = [] -> id = idKeepAlive /\ f = FNone) ->
  (body <> [] -> parseBody (rd (be 4 (zlen body)) (body ++ rest)) (zlen body) = Ok (id, f)) ->
  id < idInvalid ->
  parseMsg (framed body ++ rest) = Ok {| mid := id; mfields := f; messageSize := zlen (framed body) |}.
Proof.
  intros Hb Hs Hf H0 H1 Hid. unfold parseMsg.
  pose proof (zlen_nonneg body) as Z0.
  rewrite (framed_not_handshake body rest) by lia. rewrite andb_false_r.
  replace (Nat.ltb (length (framed body ++ rest)) 4) with false.
  2:{ symmetry. apply Nat.ltb_ge. unfold framed. rewrite !app_length, be_length. lia. }
  unfold framed. rewrite <- app_assoc.
  change (newReader (be 4 (zlen body) ++ body ++ rest)) with (rd [] (be 4 (zlen body) ++ body ++ rest)).
  rewrite rd_pop32 by (unfold is32; lia). cbn [bind app].
  rewrite rd_remaining.
  assert (E : u64 (zlen (body ++ rest)) = zlen (body ++ rest)).
  { unfold u64. apply Z.mod_small. pose proof (zlen_nonneg (body ++ rest)).
    unfold fits, framed in Hf. rewrite <- app_assoc, zlen_app in Hf. unfold zlen at 1 in Hf.
    rewrite be_length in Hf. lia. }
  rewrite E. rewrite zlen_app. pose proof (zlen_nonneg rest).
  destruct (Z.ltb_spec (zlen body + zlen rest) (zlen body)); [lia|].
  assert (MS : u16 (u32 (zlen body + 4)) = zlen (be 4 (zlen body) ++ body)).
  { rewrite zlen_app. unfold zlen at 2. rewrite be_length. unfold u16, u32. lia. }
  rewrite MS.
  destruct (Z.eqb_spec (zlen body) 0) as [E0|E0].
  - assert (body = []) by (destruct body; [reflexivity|rewrite zlen_cons in E0; pose proof (zlen_nonneg body); lia]).
    subst body. destruct (H0 eq_refl) as [-> ->]. reflexivity.
  - rewrite H1 by (intros ->; apply E0; reflexivity). cbn [bind fst snd].
    destruct (Z.leb_spec idInvalid id); [lia|]. reflexivity.
Qed.

Lemma zlen_be n v : zlen (be n v) = Z.of_nat n.
Proof. unfold zlen. now rewrite be_length. Qed.

Lemma bytes_ok_cons_i a b : is_byte a -> bytes_ok b -> bytes_ok (a :: b).
Proof. intros; apply bytes_ok_cons; auto. Qed.

Lemma app_eq_nil_r {A} (d rest : list A) : d ++ rest = d ++ rest. Proof. reflexivity. Qed.

Ltac one := unfold is_byte; lia.

Lemma parse_encode m rest : message_ok m -> fits (encode m ++ rest) ->
  parseMsg (encode m ++ rest) = Ok (understood m).
Proof.
  intros [Hf Hs] Hfit. unfold small in Hs.
  assert (SB : forall body, encode m = framed body -> zlen body < 65532).
  { intros body E. rewrite E in Hs. unfold framed in Hs. rewrite zlen_app, zlen_be in Hs. lia. }
  destruct m as [| | | | |i|b|i b l|i b d|i b l|p|e d|r h p];
    cbn [fields_ok] in Hf.
  - refine (parse_framed [] rest idKeepAlive FNone _ (SB [] eq_refl) Hfit _ _ _); [constructor|auto|congruence|reflexivity].
  - refine (parse_framed _ rest _ _ _ (SB _ eq_refl) Hfit _ _ _); [apply bytes_ok_cons_i; [one|constructor]| discriminate | | reflexivity].
    intros _. unfold parseBody. cbn [app]. rewrite rd_pop8. reflexivity.
  - refine (parse_framed _ rest _ _ _ (SB _ eq_refl) Hfit _ _ _); [apply bytes_ok_cons_i; [one|constructor]| discriminate | | reflexivity].
    intros _. unfold parseBody. cbn [app]. rewrite rd_pop8. reflexivity.
  - refine (parse_framed _ rest _ _ _ (SB _ eq_refl) Hfit _ _ _); [apply bytes_ok_cons_i; [one|constructor]| discriminate | | reflexivity].
    intros _. unfold parseBody. cbn [app]. rewrite rd_pop8. reflexivity.
  - refine (parse_framed _ rest _ _ _ (SB _ eq_refl) Hfit _ _ _); [apply bytes_ok_cons_i; [one|constructor]| discriminate | | reflexivity].
    intros _. unfold parseBody. cbn [app]. rewrite rd_pop8. reflexivity.
  - refine (parse_framed _ rest _ _ _ (SB _ eq_refl) Hfit _ _ _); [apply bytes_ok_cons_i; [one|apply be_bytes]| discriminate | | reflexivity].
    intros _. unfold parseBody. cbn [app]. rewrite rd_pop8. cbn [bind].
    change ((4 =? idHave) && (zlen (4 :: be 4 i) =? 5)) with (zlen (4 :: be 4 i) =? 5).
    rewrite zlen_cons, zlen_be. cbn [Z.of_nat]. change (1 + Z.of_nat 4 =? 5) with true. cbv iota.
    rewrite rd_pop32 by assumption. reflexivity.
  - refine (parse_framed _ rest _ _ _ (SB _ eq_refl) Hfit _ _ _); [apply bytes_ok_cons_i; [one|assumption]| discriminate | | reflexivity].
    intros _. unfold parseBody. cbn [app]. rewrite rd_pop8. cbn [bind].
    change (5 =? idHave) with false. change (5 =? idBitfield) with true. cbn [andb].
    rewrite rd_popBuffer; [reflexivity|]. rewrite zlen_cons. unfold zlen. lia.
  - destruct Hf as (Hi & Hb & Hl).
    refine (parse_framed _ rest _ _ _ (SB _ eq_refl) Hfit _ _ _); [apply bytes_ok_cons_i; [one|rewrite !bytes_ok_app; auto using be_bytes]| discriminate | | reflexivity].
    intros _. unfold parseBody. cbn [app]. rewrite rd_pop8. cbn [bind].
    change (6 =? idHave) with false. change (6 =? idBitfield) with false. change (6 =? idRequest) with true. cbn [andb].
    rewrite zlen_cons, !zlen_app, !zlen_be. change (1 + (Z.of_nat 4 + (Z.of_nat 4 + Z.of_nat 4)) =? 13) with true. cbv iota.
    rewrite <- !app_assoc. rewrite rd_pop32 by assumption. cbn [bind fst snd].
    rewrite rd_pop32 by assumption. cbn [bind fst snd]. rewrite rd_pop32 by assumption. reflexivity.
  - destruct Hf as (Hi & Hb & Hd & Hn).
    refine (parse_framed _ rest _ _ _ (SB _ eq_refl) Hfit _ _ _); [apply bytes_ok_cons_i; [one|rewrite !bytes_ok_app; auto using be_bytes]| discriminate | | reflexivity].
    intros _. unfold parseBody. cbn [app]. rewrite rd_pop8. cbn [bind].
    change (7 =? idHave) with false. change (7 =? idBitfield) with false. change (7 =? idRequest) with false.
    change (7 =? idPiece) with true. cbn [andb].
    rewrite zlen_cons, !zlen_app, !zlen_be.
    assert (0 < zlen d) by (destruct d; [congruence|rewrite zlen_cons; pose proof (zlen_nonneg d); lia]).
    destruct (Z.ltb_spec 9 (1 + (Z.of_nat 4 + (Z.of_nat 4 + zlen d)))); [|lia].
    rewrite <- !app_assoc. rewrite rd_pop32 by assumption. cbn [bind fst snd].
    rewrite rd_pop32 by assumption. cbn [bind fst snd].
    rewrite rd_popBuffer by (unfold zlen; lia). cbn [bind fst snd].
    assert (zlen d < 65536).
    { pose proof (SB _ eq_refl) as X. rewrite zlen_cons, !zlen_app, !zlen_be in X. lia. }
    unfold u32. rewrite Z.mod_small by lia. reflexivity.
  - destruct Hf as (Hi & Hb & Hl).
    refine (parse_framed _ rest _ _ _ (SB _ eq_refl) Hfit _ _ _); [apply bytes_ok_cons_i; [one|rewrite !bytes_ok_app; auto using be_bytes]| discriminate | | reflexivity].
    intros _. unfold parseBody. cbn [app]. rewrite rd_pop8. cbn [bind].
    change (8 =? idHave) with false. change (8 =? idBitfield) with false. change (8 =? idRequest) with false.
    change (8 =? idPiece) with false. change (8 =? idCancel) with true. cbn [andb].
    rewrite zlen_cons, !zlen_app, !zlen_be. change (1 + (Z.of_nat 4 + (Z.of_nat 4 + Z.of_nat 4)) =? 13) with true. cbv iota.
    rewrite <- !app_assoc. rewrite rd_pop32 by assumption. cbn [bind fst snd].
    rewrite rd_pop32 by assumption. cbn [bind fst snd]. rewrite rd_pop32 by assumption. reflexivity.
  - refine (parse_framed _ rest _ _ _ (SB _ eq_refl) Hfit _ _ _); [apply bytes_ok_cons_i; [one|apply be_bytes]| discriminate | | reflexivity].
    intros _. unfold parseBody. cbn [app]. rewrite rd_pop8. cbn [bind].
    change (9 =? idHave) with false. change (9 =? idBitfield) with false. change (9 =? idRequest) with false.
    change (9 =? idPiece) with false. change (9 =? idCancel) with false. change (9 =? idPort) with true. cbn [andb].
    rewrite zlen_cons, !zlen_be. change (1 + Z.of_nat 2 =? 3) with true. cbv iota.
    rewrite rd_pop16 by assumption. reflexivity.
  - destruct Hf as (He & Hd & Hn).
    refine (parse_framed _ rest _ _ _ (SB _ eq_refl) Hfit _ _ _); [apply bytes_ok_cons_i; [one|apply bytes_ok_cons_i; assumption]| discriminate | | reflexivity].
    intros _. unfold parseBody. cbn [app]. rewrite rd_pop8. cbn [bind].
    change (20 =? idHave) with false. change (20 =? idBitfield) with false. change (20 =? idRequest) with false.
    change (20 =? idPiece) with false. change (20 =? idCancel) with false. change (20 =? idPort) with false.
    change (20 =? idExtended) with true. cbn [andb].
    rewrite !zlen_cons.
    assert (0 < zlen d) by (destruct d; [congruence|rewrite zlen_cons; pose proof (zlen_nonneg d); lia]).
    destruct (Z.ltb_spec 2 (1 + (1 + zlen d))); [|lia].
    rewrite rd_pop8. cbn [bind fst snd]. rewrite rd_popBuffer by (unfold zlen; lia). reflexivity.
  - destruct Hf as (Br & Bh & Bp & Lr & Lh & Lp).
    unfold parseMsg.
    assert (L : (68 <= length (encode (Handshake r h p) ++ rest))%nat).
    { cbn [encode app length]. rewrite !app_length. lia. }
    replace (Nat.ltb _ 4) with false by (symmetry; apply Nat.ltb_ge; lia).
    replace (Nat.leb 68 _) with true by (symmetry; apply Nat.leb_le; lia).
    assert (S : startsAsHandshake (encode (Handshake r h p) ++ rest) = true).
    { unfold startsAsHandshake. replace (Nat.leb 20 _) with true by (symmetry; apply Nat.leb_le; lia).
      cbn. reflexivity. }
    rewrite S. cbn [andb].
    unfold understood. f_equal.
    replace (zlen (encode (Handshake r h p))) with 68.
    2:{ cbn [encode app]. unfold zlen. cbn [length]. rewrite !app_length, Lr, Lh, Lp. reflexivity. }
    change (encode (Handshake r h p)) with ((19 :: protocolName) ++ r ++ h ++ p).
    f_equal. rewrite <- !app_assoc. f_equal.
    + apply slice_at; [reflexivity|lia].
    + rewrite (app_assoc _ r). apply slice_at; [rewrite app_length, Lr; reflexivity|lia].
    + rewrite (app_assoc _ r), (app_assoc _ h). apply slice_at; [rewrite !app_length, Lr, Lh; reflexivity|lia].
Qed.

(** ** Incomplete messages *)

Definition waits (p : pmsg) : Prop := mid p = idInvalid /\ messageSize p <> 0.

Lemma parse_short b : (length b < 4)%nat -> exists p, parseMsg b = Ok p /\ waits p.
Proof.
  intros H. unfold parseMsg. replace (Nat.ltb (length b) 4) with true by (symmetry; apply Nat.ltb_lt; lia).
  eexists. split; [reflexivity|]. split; [reflexivity|discriminate].
Qed.

Lemma firstn_app_ge {A} n (a b : list A) : (length a <= n)%nat -> firstn n (a ++ b) = a ++ firstn (n - length a) b.
Proof. intros H. rewrite firstn_app, firstn_all2 by lia. reflexivity. Qed.

Lemma parse_prefix_framed body n : zlen body < 65532 -> (n < length (framed body))%nat ->
  exists p, parseMsg (firstn n (framed body)) = Ok p /\ waits p.
Proof.
  intros Hs Hn.
  assert (Ln : length (firstn n (framed body)) = n) by (rewrite firstn_length; lia).
  destruct (Nat.lt_ge_cases n 4) as [L4|L4]; [apply parse_short; lia|].
  unfold framed in *. rewrite app_length, be_length in Hn.
  rewrite firstn_app_ge by (rewrite be_length; lia). rewrite be_length.
  set (part := firstn (n - 4) body) in *.
  assert (Lp : (length part < length body)%nat) by (unfold part; rewrite firstn_length; lia).
  unfold parseMsg.
  pose proof (zlen_nonneg body) as Z0.
  replace (Nat.ltb _ 4) with false by (symmetry; apply Nat.ltb_ge; rewrite app_length, be_length; lia).
  assert (NH : startsAsHandshake (be 4 (zlen body) ++ part) = false).
  { unfold startsAsHandshake. rewrite be4_hd by (unfold is32; lia). cbn [app nth].
    replace (zlen body / 16777216) with 0 by lia. cbn [Z.eqb]. now rewrite andb_false_r. }
  rewrite NH, andb_false_r.
  change (newReader (be 4 (zlen body) ++ part)) with (rd [] (be 4 (zlen body) ++ part)).
  rewrite rd_pop32 by (unfold is32; lia). cbn [bind app].
  rewrite rd_remaining.
  assert (zlen part < zlen body) by (unfold zlen; lia). pose proof (zlen_nonneg part).
  assert (E : u64 (zlen part) = zlen part) by (unfold u64; apply Z.mod_small; lia).
  rewrite E. destruct (Z.ltb_spec (zlen part) (zlen body)); [|lia].
  eexists. split; [reflexivity|]. split; [reflexivity|]. cbn [messageSize]. unfold u16, u32. lia.
Qed.

Lemma parse_prefix_handshake r h p n : fields_ok (Handshake r h p) -> (n < 68)%nat ->
  exists q, parseMsg (firstn n (encode (Handshake r h p))) = Ok q /\ waits q.
Proof.
  intros (_ & _ & _ & Lr & Lh & Lp) Hn.
  assert (L68 : length (encode (Handshake r h p)) = 68%nat) by (cbn [encode app length]; rewrite !app_length; lia).
  assert (Ln : length (firstn n (encode (Handshake r h p))) = n) by (rewrite firstn_length; lia).
  destruct (Nat.lt_ge_cases n 4) as [L4|L4]; [apply parse_short; lia|].
  set (b := firstn n (encode (Handshake r h p))) in *.
  unfold parseMsg. rewrite Ln.
  replace (Nat.ltb n 4) with false by (symmetry; apply Nat.ltb_ge; lia).
  replace (Nat.leb 68 n) with false by (symmetry; apply Nat.leb_gt; lia). cbn [andb].
  assert (E : exists t, b = be 4 323119476 ++ t /\ (length t < 64)%nat).
  { exists (skipn 4 b). split; [|rewrite skipn_length; lia].
    rewrite <- (firstn_skipn 4 b) at 1. f_equal. unfold b. rewrite firstn_firstn.
    replace (Nat.min 4 n) with 4%nat by lia. reflexivity. }
  destruct E as (t & -> & Lt).
  change (newReader (be 4 323119476 ++ t)) with (rd [] (be 4 323119476 ++ t)).
  rewrite rd_pop32 by (unfold is32; lia). cbn [bind app]. rewrite rd_remaining.
  assert (zlen t < 64) by (unfold zlen; lia). pose proof (zlen_nonneg t).
  unfold u64. rewrite Z.mod_small by lia. destruct (Z.ltb_spec (zlen t) 323119476); [|lia].
  eexists. split; [reflexivity|]. split; [reflexivity|]. vm_compute. discriminate.
Qed.

Definition framed_body (m : message) : option (list Z) :=
  match m with
  | KeepAlive => Some []
  | Choke => Some [0] | Unchoke => Some [1] | Interested => Some [2] | NotInterested => Some [3]
  | Have i => Some (4 :: be 4 i)
  | Bitfield b => Some (5 :: b)
  | Request i b l => Some (6 :: be 4 i ++ be 4 b ++ be 4 l)
  | Piece i b d => Some (7 :: be 4 i ++ be 4 b ++ d)
  | Cancel i b l => Some (8 :: be 4 i ++ be 4 b ++ be 4 l)
  | Port p => Some (9 :: be 2 p)
  | Extended e d => Some (20 :: e :: d)
  | Handshake _ _ _ => None
  end.

Lemma encode_framed m body : framed_body m = Some body -> encode m = framed body.
Proof. destruct m; cbn [framed_body]; intros E; try discriminate E; injection E as <-; reflexivity. Qed.

Lemma parse_prefix m n : message_ok m -> (n < length (encode m))%nat ->
  exists p, parseMsg (firstn n (encode m)) = Ok p /\ waits p.
Proof.
  intros [Hf Hs] Hn. destruct (framed_body m) as [body|] eqn:E.
  - apply encode_framed in E. rewrite E in *. apply parse_prefix_framed; [|assumption].
    unfold small in Hs. rewrite E in Hs. unfold framed in Hs. rewrite zlen_app, zlen_be in Hs. lia.
  - destruct m; try discriminate E. apply parse_prefix_handshake; [assumption|].
    assert (L : length (encode (Handshake reserved hash peer)) = 68%nat).
    { destruct Hf as (_ & _ & _ & Lr & Lh & Lp). cbn [encode app length]; rewrite !app_length; lia. }
    lia.
Qed.

Lemma encode_len m : message_ok m -> (1 <= length (encode m))%nat.
Proof.
  intros _. destruct m; cbn [encode]; unfold framed; rewrite ?app_length, ?be_length; simpl; lia.
Qed.

Lemma understood_valid m : mid (understood m) < idInvalid.
Proof. destruct m; reflexivity. Qed.

Lemma understood_size m : Z.to_nat (messageSize (understood m)) = length (encode m).
Proof. destruct m; cbn [understood messageSize]; unfold zlen; lia. Qed.

Lemma partial_nil : partial_of [].
Proof. exists Choke, 0%nat. split; [split; [exact I|reflexivity]|split; [simpl; lia|reflexivity]]. Qed.

Lemma parse_partial t : partial_of t -> exists p, parseMsg t = Ok p /\ waits p.
Proof. intros (m & n & Hm & Hn & ->). now apply parse_prefix. Qed.

Lemma skipn_at {A} (pre b : list A) k : k = length pre -> skipn k (pre ++ b) = b.
Proof. intros ->; apply skipn_app_exact. Qed.

Lemma loop_messages ms : forall pre t fuel, Forall message_ok ms -> partial_of t ->
  fits (pre ++ encodes ms ++ t) -> (length ms < fuel)%nat ->
  dataReceivedLoop fuel (pre ++ encodes ms ++ t) (length pre)
  = Some (Ok (map understood ms, (length pre + length (encodes ms))%nat)).
Proof.
  induction ms as [|m ms IH]; intros pre t fuel Hm Ht Hf Hfu; (destruct fuel as [|fuel]; [simpl in Hfu; lia|]).
  - cbn [encodes map concat app dataReceivedLoop length]. rewrite skipn_app_exact.
    destruct (parse_partial t Ht) as (p & E & W1 & W2). rewrite E, W1.
    change (idInvalid =? idInvalid) with true. cbn [negb].
    destruct (Z.eqb_spec (messageSize p) 0); [congruence|]. rewrite Nat.add_0_r. reflexivity.
  - inversion Hm as [|? ? Hm1 Hm2]; subst.
    cbn [dataReceivedLoop]. rewrite skipn_app_exact.
    unfold encodes. cbn [map concat]. fold (encodes ms). rewrite <- app_assoc.
    unfold encodes in Hf. cbn [map concat] in Hf. fold (encodes ms) in Hf. rewrite <- app_assoc in Hf.
    rewrite parse_encode; [|assumption|].
    2:{ unfold fits in *. rewrite zlen_app in Hf. pose proof (zlen_nonneg pre). lia. }
    destruct (Z.eqb_spec (mid (understood m)) idInvalid) as [E|E].
    { pose proof (understood_valid m). lia. }
    cbn [negb]. rewrite understood_size.
    replace (pre ++ encode m ++ encodes ms ++ t) with ((pre ++ encode m) ++ encodes ms ++ t)
      by now rewrite <- app_assoc.
    rewrite <- app_length. rewrite IH; [|assumption|assumption| |].
    + cbn [length map]. rewrite !app_length, <- Nat.add_assoc. reflexivity.
    + now rewrite <- app_assoc.
    + simpl in Hfu. lia.
Qed.

Lemma length_encodes ms : Forall message_ok ms -> (length ms <= length (encodes ms))%nat.
Proof.
  induction 1 as [|m ms Hm H IH]; [simpl; lia|]. unfold encodes. cbn [map concat length].
  rewrite app_length. fold (encodes ms). pose proof (encode_len m Hm). lia.
Qed.

(** ** The read buffer *)

Definition rb_ok (rb : readBuffer) : Prop := (rused rb <= length (rdata rb))%nat.

Lemma reserve_content rb n : rb_ok rb -> content (reserve rb n) = content rb /\ rb_ok (reserve rb n)
  /\ (rused rb + n <= length (rdata (reserve rb n)))%nat /\ rused (reserve rb n) = rused rb.
Proof.
  intros H. unfold content, reserve, rb_ok in *. cbn [rdata rused].
  assert (L : length (firstn (rused rb) (rdata rb)) = rused rb) by (rewrite firstn_length; lia).
  split; [apply firstn_app_len; lia|].
  rewrite !app_length, L, repeat_length, firstn_length, skipn_length. lia.
Qed.

Lemma received_content rb chunk : rb_ok rb -> content (received rb chunk) = content rb ++ chunk /\
  rb_ok (received rb chunk).
Proof.
  intros H. unfold content, received, rb_ok in *. cbn [rdata rused].
  assert (L : length (firstn (rused rb) (rdata rb)) = rused rb) by (rewrite firstn_length; lia).
  split.
  - rewrite app_assoc. apply firstn_app_len. rewrite app_length. lia.
  - rewrite !app_length, L. lia.
Qed.

Lemma consume_content rb n : rb_ok rb -> (n <= rused rb)%nat -> content (consume rb n) = skipn n (content rb)
  /\ rb_ok (consume rb n).
Proof.
  intros H Hn. unfold consume, content, rb_ok in *.
  destruct (Nat.eqb_spec (rused rb - n) 0) as [E|E]; cbn [negb andb].
  - cbn [rdata rused]. split; [|lia]. rewrite E. cbn [firstn].
    rewrite skipn_all2; [reflexivity|]. rewrite firstn_length. lia.
  - destruct (Nat.eqb_spec n 0) as [E2|E2]; cbn [negb].
    + cbn [rdata rused]. subst n. rewrite Nat.sub_0_r. split; [reflexivity|lia].
    + cbn [rdata rused]. unfold slice. split.
      * rewrite firstn_firstn, Nat.min_id. rewrite firstn_skipn_comm. now replace (n + (rused rb - n))%nat with (rused rb) by lia.
      * rewrite firstn_length, skipn_length. lia.
Qed.

Lemma receiveChunk_ok rb n chunk ms t : rb_ok rb ->
  content rb ++ chunk = encodes ms ++ t -> Forall message_ok ms -> partial_of t ->
  fits (encodes ms ++ t) ->
  exists rb', receiveChunk rb n chunk = Some (Ok (rb', map understood ms)) /\ rb_ok rb' /\ content rb' = t.
Proof.
  intros Hrb E Hm Ht Hf. unfold receiveChunk.
  destruct (reserve_content rb n Hrb) as (C1 & R1 & _ & _).
  destruct (received_content (reserve rb n) chunk R1) as (C2 & R2).
  set (rb1 := received (reserve rb n) chunk) in *.
  rewrite C1, E in C2. fold (content rb1). rewrite C2.
  pose proof (loop_messages ms [] t (S (length (encodes ms ++ t))) Hm Ht) as L. cbn [app length] in L.
  rewrite L; [|assumption|pose proof (length_encodes ms Hm); rewrite app_length; lia].
  rewrite Nat.add_0_l.
  assert (LE : (length (encodes ms) <= rused rb1)%nat).
  { assert (length (content rb1) = rused rb1) as LC by (unfold content, rb_ok in *; rewrite firstn_length; lia).
    rewrite C2, app_length in LC. lia. }
  destruct (consume_content rb1 _ R2 LE) as (C3 & R3).
  exists (consume rb1 (length (encodes ms))). split; [reflexivity|split; [assumption|]].
  rewrite C3, C2. apply skipn_app_exact.
Qed.

(** Splitting a stream of messages at any byte: the whole messages before it and a partial one. *)
Lemma split_stream ms t : Forall message_ok ms -> partial_of t -> forall a b,
  a ++ b = encodes ms ++ t ->
  exists ms1 ms2 t1, ms = ms1 ++ ms2 /\ a = encodes ms1 ++ t1 /\ partial_of t1 /\ t1 ++ b = encodes ms2 ++ t.
Proof.
  intros Hm Ht. induction Hm as [|m ms Hm1 Hm IH]; intros a b E.
  - exists [], [], a. cbn [encodes map concat app] in *. repeat split; auto.
    destruct Ht as (m & n & Hm & Hn & ->). exists m, (length a). split; [assumption|].
    assert (La : (length a <= n)%nat).
    { apply (f_equal (@length Z)) in E. rewrite app_length, firstn_length in E. lia. }
    split; [lia|]. apply (f_equal (firstn (length a))) in E. rewrite firstn_app_exact in E.
    rewrite firstn_firstn, Nat.min_l in E by lia. exact E.
  - unfold encodes in E. cbn [map concat] in E. fold (encodes ms) in E. rewrite <- app_assoc in E.
    destruct (Nat.lt_ge_cases (length a) (length (encode m))) as [L|L].
    + exists [], (m :: ms), a. split; [reflexivity|]. cbn [encodes map concat app]. split; [reflexivity|].
      split.
      * exists m, (length a). split; [assumption|]. split; [assumption|].
        apply (f_equal (firstn (length a))) in E. rewrite firstn_app_exact in E.
        rewrite firstn_app in E. replace (length a - length (encode m))%nat with 0%nat in E by lia.
        cbn [firstn] in E. now rewrite app_nil_r in E.
      * rewrite <- app_assoc. exact E.
    + assert (A : a = encode m ++ skipn (length (encode m)) a).
      { rewrite <- (firstn_skipn (length (encode m)) a) at 1. f_equal.
        apply (f_equal (firstn (length (encode m)))) in E. rewrite firstn_app_exact in E.
        rewrite firstn_app in E. replace (length (encode m) - length a)%nat with 0%nat in E by lia.
        cbn [firstn] in E. rewrite app_nil_r in E. exact E. }
      rewrite A in E. rewrite <- app_assoc in E. apply app_inv_head in E.
      destruct (IH _ _ E) as (ms1 & ms2 & t1 & -> & E1 & P & E2).
      exists (m :: ms1), ms2, t1. split; [reflexivity|]. split; [|split; assumption].
      rewrite A, E1. unfold encodes. cbn [map concat]. now rewrite <- app_assoc.
Qed.

Lemma fits_app_r a b : fits (a ++ b) -> fits b.
Proof. unfold fits. rewrite zlen_app. pose proof (zlen_nonneg a). lia. Qed.
Lemma fits_app_l a b : fits (a ++ b) -> fits a.
Proof. unfold fits. rewrite zlen_app. pose proof (zlen_nonneg b). lia. Qed.

Lemma receiveAll_ok chunks : forall rb ms t, rb_ok rb -> partial_of (content rb) ->
  content rb ++ concat (map snd chunks) = encodes ms ++ t ->
  Forall message_ok ms -> partial_of t -> fits (encodes ms ++ t) ->
  exists rb', receiveAll rb chunks = Some (Ok (rb', map understood ms)) /\ rb_ok rb' /\ content rb' = t.
Proof.
  induction chunks as [|[n c] chunks IH]; intros rb ms t Hrb Hp E Hm Ht Hf.
  - cbn [map concat] in E. rewrite app_nil_r in E. cbn [receiveAll].
    (* the pending part is partial, so no message is complete in it *)
    destruct ms as [|m ms].
    + exists rb. repeat split; auto.
    + exfalso.
      assert (P : exists p, parseMsg (content rb) = Ok p /\ waits p) by now apply parse_partial.
      destruct P as (p & P1 & W & _). rewrite E in P1. unfold encodes in P1. cbn [map concat] in P1.
      fold (encodes ms) in P1. rewrite <- app_assoc in P1.
      inversion Hm; subst. rewrite parse_encode in P1; [|assumption|].
      * injection P1 as <-. pose proof (understood_valid m). lia.
      * unfold encodes in Hf. cbn [map concat] in Hf. now rewrite <- app_assoc in Hf.
  - cbn [map concat snd] in E. rewrite app_assoc in E.
    destruct (split_stream ms t Hm Ht _ _ E) as (ms1 & ms2 & t1 & -> & E1 & P1 & E2).
    apply Forall_app in Hm as [Hm1 Hm2].
    unfold encodes in Hf, E. rewrite map_app, concat_app in Hf, E. fold (encodes ms1) (encodes ms2) in Hf, E.
    assert (Hf1 : fits (encodes ms1 ++ t1)).
    { rewrite <- E1. rewrite <- app_assoc in Hf.
      assert (fits ((content rb ++ c) ++ concat (map snd chunks))) as F by (rewrite E, <- app_assoc; exact Hf).
      exact (fits_app_l _ _ F). }
    destruct (receiveChunk_ok rb n c ms1 t1 Hrb E1 Hm1 P1 Hf1) as (rb1 & R & Rok & Rc).
    cbn [receiveAll]. rewrite R.
    destruct (IH rb1 ms2 t Rok) as (rb2 & R2 & Rok2 & Rc2); try assumption.
    + rewrite Rc. assumption.
    + rewrite Rc. assumption.
    + rewrite <- app_assoc in Hf. exact (fits_app_r _ _ Hf).
    + rewrite R2. exists rb2. rewrite map_app. auto.
Qed.

Lemma fragmentation ms t chunks :
  Forall message_ok ms -> partial_of t -> fits (encodes ms ++ t) ->
  concat (map snd chunks) = encodes ms ++ t ->
  exists rb, receiveAll emptyReadBuffer chunks = Some (Ok (rb, map understood ms)) /\ content rb = t.
Proof.
  intros Hm Ht Hf E.
  destruct (receiveAll_ok chunks emptyReadBuffer ms t) as (rb & R & _ & C); auto.
  - unfold rb_ok, emptyReadBuffer; simpl; lia.
  - apply partial_nil.
  - exists rb; auto.
Qed.

(** ** Creation *)

Lemma zlen_repeat n : zlen (repeat 0 n) = Z.of_nat n.
Proof. unfold zlen. now rewrite repeat_length. Qed.

Lemma create_handshake dht h p : bytes_ok h -> bytes_ok p -> length h = 20%nat -> length p = 20%nat ->
  createHandshake dht h p = encode (Handshake [0;0;0;0;0;16;0; if dht then 128 else 0] h p).
Proof.
  intros _ _ Lh Lp. unfold createHandshake, addRaw. rewrite !firstn_all2 by lia.
  rewrite <- !app_assoc. destruct dht; reflexivity.
Qed.

Lemma create_state id : 0 <= id < 4 ->
  createStateMessage id = framed [id].
Proof.
  intros H. unfold createStateMessage, add8, add32. rewrite addN_be. unfold u8. rewrite Z.mod_small by lia. reflexivity.
Qed.

Lemma create_request i b l : createBlockRequest i b l = encode (Request i b l).
Proof.
  unfold createBlockRequest, add32, add8. rewrite !addN_be. cbn [encode]. unfold framed.
  rewrite zlen_cons, !zlen_app, !zlen_be. cbn [app]. rewrite <- !app_assoc. reflexivity.
Qed.

Lemma create_have i : createHave i = encode (Have i).
Proof.
  unfold createHave, add32, add8. rewrite !addN_be. cbn [encode]. unfold framed.
  rewrite zlen_cons, !zlen_be. rewrite <- !app_assoc. reflexivity.
Qed.

Lemma create_port p : createPort p = encode (Port p).
Proof.
  unfold createPort, add32, add16, add8. rewrite !addN_be. cbn [encode]. unfold framed.
  rewrite zlen_cons, !zlen_be. rewrite <- !app_assoc. reflexivity.
Qed.

Lemma create_bitfield b : zlen b < 4294967295 -> createBitfield b = encode (Bitfield b).
Proof.
  intros H. pose proof (zlen_nonneg b). unfold createBitfield, add32, add8, addRaw. rewrite !addN_be. cbn [encode]. unfold framed.
  rewrite zlen_cons. unfold u32. rewrite !Z.mod_small by (rewrite ?Z.mod_small by lia; lia).
  rewrite <- !app_assoc. reflexivity.
Qed.

Lemma create_piece i b d : zlen d < 4294967287 -> createPiece i b d = encode (Piece i b d).
Proof.
  intros H. pose proof (zlen_nonneg d). unfold createPiece, add32, add8, addRaw. rewrite !addN_be. cbn [encode]. unfold framed.
  rewrite zlen_cons, !zlen_app, !zlen_be. unfold u32. rewrite !Z.mod_small by (rewrite ?Z.mod_small by lia; lia).
  rewrite <- !app_assoc. cbn [app]. f_equal. f_equal. lia.
Qed.

Lemma create_extended e d : is_byte e -> zlen d < 4294967294 -> createExtended e d = encode (Extended e d).
Proof.
  intros He H. pose proof (zlen_nonneg d). unfold createExtended. rewrite le_bswap, u8_id by assumption.
  rewrite !zlen_app, zlen_repeat. cbn [encode]. unfold framed. rewrite !zlen_cons, zlen_nil.
  unfold u32. rewrite Z.mod_small by lia.
  rewrite skipn_app_len by (now rewrite repeat_length). cbn [app]. f_equal. f_equal. lia.
Qed.

(** ** No read outside the buffer *)

Lemma readAt_in r n : (rpos r + n <= length (rbuf r))%nat -> exists l, readAt r n = Ok l /\ length l = n.
Proof.
  intros H. unfold readAt. replace (Nat.leb _ _) with true by (symmetry; apply Nat.leb_le; lia).
  eexists; split; [reflexivity|]. now apply slice_length.
Qed.

Lemma popN_in n r : (rpos r + n <= length (rbuf r))%nat -> exists v, popN n r = Ok (v, adv r n).
Proof. intros H. unfold popN. destruct (readAt_in r n H) as (l & -> & _). cbn [bind]. eauto. Qed.
Lemma pop8_in r : (rpos r + 1 <= length (rbuf r))%nat -> exists v, pop8 r = Ok (v, adv r 1).
Proof. intros H. unfold pop8. destruct (readAt_in r 1 H) as (l & -> & _). cbn [bind]. eauto. Qed.
Lemma popBuffer_in n r : (rpos r + n <= length (rbuf r))%nat -> exists v, popBuffer n r = Ok (v, adv r n).
Proof. intros H. unfold popBuffer. destruct (readAt_in r n H) as (l & -> & _). cbn [bind]. eauto. Qed.

Lemma parseBody_in r size : 1 <= size -> Z.of_nat (rpos r) + size <= zlen (rbuf r) ->
  parseBody r size <> UB.
Proof.
  intros H1 H2. unfold zlen in H2. unfold parseBody.
  destruct (pop8_in r) as [id ->]; [lia|]. cbn [bind].
  repeat match goal with |- context [if ?c then _ else _] => destruct c eqn:? end;
  repeat (match goal with
  | |- context [pop32 ?q] => destruct (popN_in 4 q) as [? E]; [cbn [adv rpos rbuf]; lia|unfold pop32; rewrite E; cbn [bind fst snd]; clear E]
  | |- context [popN 4 ?q] => destruct (popN_in 4 q) as [? E]; [cbn [adv rpos rbuf]; lia|rewrite E; cbn [bind fst snd]; clear E]
  | |- context [pop16 ?q] => destruct (popN_in 2 q) as [? E]; [cbn [adv rpos rbuf]; lia|unfold pop16; rewrite E; cbn [bind fst snd]; clear E]
  | |- context [pop8 ?q] => destruct (pop8_in q) as [? E]; [cbn [adv rpos rbuf]; lia|rewrite E; cbn [bind fst snd]; clear E]
  | |- context [popBuffer ?n ?q] => destruct (popBuffer_in n q) as [? E]; [cbn [adv rpos rbuf]; lia|rewrite E; cbn [bind fst snd]; clear E]
  end); discriminate.
Qed.

Lemma parseMsg_in b : bytes_ok b -> fits b -> parseMsg b <> UB.
Proof.
  intros Hb Hf. unfold parseMsg.
  destruct (Nat.ltb_spec (length b) 4) as [L|L]; [discriminate|].
  destruct (Nat.leb 68 (length b) && startsAsHandshake b); [discriminate|].
  assert (E : b = be 4 (unbe (firstn 4 b)) ++ skipn 4 b).
  { rewrite <- (firstn_skipn 4 b) at 1. f_equal.
    assert (L4 : length (firstn 4 b) = 4%nat) by (rewrite firstn_length; lia).
    rewrite <- L4 at 2. symmetry. apply be_unbe.
    rewrite <- (firstn_skipn 4 b) in Hb. now apply bytes_ok_app in Hb. }
  assert (R : is32 (unbe (firstn 4 b))).
  { rewrite <- (firstn_skipn 4 b) in Hb. apply bytes_ok_app in Hb as [Hb _].
    pose proof (unbe_range _ Hb) as R. unfold zlen in R. rewrite firstn_length in R.
    replace (Nat.min 4 (length b)) with 4%nat in R by lia.
    change (256 ^ Z.of_nat 4) with 4294967296 in R. exact R. }
  set (size := unbe (firstn 4 b)) in *. set (t := skipn 4 b) in *.
  rewrite E. change (newReader (be 4 size ++ t)) with (rd [] (be 4 size ++ t)).
  rewrite rd_pop32 by assumption. cbn [bind app]. rewrite rd_remaining.
  assert (U : u64 (zlen t) = zlen t).
  { unfold u64. apply Z.mod_small. pose proof (zlen_nonneg t). unfold fits in Hf. rewrite E, zlen_app, zlen_be in Hf. lia. }
  rewrite U. destruct (Z.ltb_spec (zlen t) size); [discriminate|].
  unfold is32 in R.
  destruct (Z.eqb_spec size 0) as [E0|E0]; [cbn [bind]; discriminate|].
  assert (P : parseBody (rd (be 4 size) t) size <> UB).
  { apply parseBody_in; [lia|]. unfold rd; cbn [rpos rbuf]. rewrite zlen_app, be_length, zlen_be. lia. }
  destruct (parseBody (rd (be 4 size) t) size) as [q|]; [|congruence]. cbn [bind].
  destruct (idInvalid <=? fst q); discriminate.
Qed.

Lemma loop_in fuel : forall b c r, bytes_ok b -> fits b -> dataReceivedLoop fuel b c = Some r -> r <> UB.
Proof.
  induction fuel as [|fuel IH]; intros b c r Hb Hf; [discriminate|].
  cbn [dataReceivedLoop].
  assert (S : bytes_ok (skipn c b) /\ fits (skipn c b)).
  { rewrite <- (firstn_skipn c b) in Hb, Hf. apply bytes_ok_app in Hb as [_ Hb]. split; [exact Hb|].
    exact (fits_app_r _ _ Hf). }
  destruct S as [S1 S2]. pose proof (parseMsg_in _ S1 S2).
  destruct (parseMsg (skipn c b)) as [m|]; [|congruence].
  destruct (mid m =? idInvalid); cbn [negb].
  - destruct (messageSize m =? 0); intros E; injection E as <-; discriminate.
  - destruct (dataReceivedLoop fuel b _) as [[[ms k]|]|] eqn:E2; intros E; try discriminate E;
      injection E as <-; [discriminate|]. exfalso. exact (IH _ _ _ Hb Hf E2 eq_refl).
Qed.

(** ** A frame of 65536 bytes (length prefix 65532) *)

Lemma big_frame_parse b rest : bytes_ok b -> zlen b = 65531 -> fits (encode (Bitfield b) ++ rest) ->
  parseMsg (encode (Bitfield b) ++ rest) = Ok {| mid := idBitfield; mfields := FBitfield b; messageSize := 0 |}.
Proof.
  intros Hb Hl Hf. cbn [encode]. set (body := 5 :: b). unfold parseMsg.
  assert (Zb : zlen body = 65532) by (unfold body; rewrite zlen_cons; lia).
  rewrite (framed_not_handshake body rest) by lia. rewrite andb_false_r.
  replace (Nat.ltb (length (framed body ++ rest)) 4) with false
    by (symmetry; apply Nat.ltb_ge; unfold framed; rewrite !app_length, be_length; lia).
  unfold framed. rewrite <- app_assoc.
  change (newReader (be 4 (zlen body) ++ body ++ rest)) with (rd [] (be 4 (zlen body) ++ body ++ rest)).
  rewrite rd_pop32 by (unfold is32; lia). cbn [bind app]. rewrite rd_remaining.
  pose proof (zlen_nonneg rest).
  assert (E : u64 (zlen (body ++ rest)) = zlen (body ++ rest)).
  { unfold u64. apply Z.mod_small. pose proof (zlen_nonneg (body ++ rest)).
    cbn [encode] in Hf. fold body in Hf. unfold fits, framed in Hf. rewrite <- app_assoc, zlen_app, zlen_be in Hf. lia. }
  rewrite E, zlen_app. destruct (Z.ltb_spec (zlen body + zlen rest) (zlen body)); [lia|].
  rewrite Zb. change (65532 =? 0) with false. cbv iota. unfold parseBody, body. cbn [app]. rewrite rd_pop8. cbn [bind].
  change (5 =? idHave) with false. change (5 =? idBitfield) with true. cbn [andb].
  rewrite rd_popBuffer; [reflexivity|]. unfold zlen in Hl. lia.
Qed.

Lemma big_frame_loop b rest : bytes_ok b -> zlen b = 65531 -> fits (encode (Bitfield b) ++ rest) ->
  forall fuel, dataReceivedLoop fuel (encode (Bitfield b) ++ rest) 0 = None.
Proof.
  intros Hb Hl Hf. induction fuel as [|fuel IH]; [reflexivity|].
  cbn [dataReceivedLoop]. rewrite (skipn_O (encode (Bitfield b) ++ rest)). rewrite big_frame_parse by assumption.
  cbn [mid messageSize]. change (idBitfield =? idInvalid) with false. cbn [negb].
  change (Z.to_nat 0) with 0%nat. rewrite Nat.add_0_r, IH. reflexivity.
Qed.

(** ... and while it is incomplete everything received so far is thrown away. *)
Lemma big_frame_dropped b n : zlen b = 65531 -> (4 <= n < length (encode (Bitfield b)))%nat ->
  forall fuel, dataReceivedLoop (S fuel) (firstn n (encode (Bitfield b))) 0 = Some (Ok ([], n)).
Proof.
  intros Hl Hn fuel. cbn [dataReceivedLoop]. rewrite skipn_O.
  set (body := 5 :: b) in *. change (encode (Bitfield b)) with (framed body) in *.
  assert (Zb : zlen body = 65532) by (unfold body; rewrite zlen_cons; lia).
  unfold framed in *. rewrite app_length, be_length in Hn.
  rewrite firstn_app_ge by (rewrite be_length; lia). rewrite be_length.
  set (part := firstn (n - 4) body).
  assert (Lp : length part = (n - 4)%nat) by (unfold part; rewrite firstn_length; lia).
  unfold parseMsg.
  replace (Nat.ltb _ 4) with false by (symmetry; apply Nat.ltb_ge; rewrite app_length, be_length; lia).
  assert (NH : startsAsHandshake (be 4 (zlen body) ++ part) = false).
  { unfold startsAsHandshake. rewrite be4_hd by (unfold is32; lia). cbn [app nth]. rewrite Zb.
    change (65532 / 16777216) with 0. cbn [Z.eqb]. now rewrite andb_false_r. }
  rewrite NH, andb_false_r.
  change (newReader (be 4 (zlen body) ++ part)) with (rd [] (be 4 (zlen body) ++ part)).
  rewrite rd_pop32 by (unfold is32; lia). cbn [bind app]. rewrite rd_remaining.
  assert (zlen part < zlen body) by (unfold zlen in *; lia). pose proof (zlen_nonneg part).
  assert (E : u64 (zlen part) = zlen part) by (unfold u64; apply Z.mod_small; lia).
  rewrite E. destruct (Z.ltb_spec (zlen part) (zlen body)); [|lia].
  cbn [mid messageSize]. change (idInvalid =? idInvalid) with true. cbn [negb]. rewrite Zb.
  change (u16 (u32 (65532 + 4)) =? 0) with true. cbv iota. rewrite app_length, be_length, Lp. do 3 f_equal. lia.
Qed.

Lemma big_frame b rest : bytes_ok b -> zlen b = 65531 -> fits (encode (Bitfield b) ++ rest) ->
  parseMsg (encode (Bitfield b) ++ rest) = Ok {| mid := idBitfield; mfields := FBitfield b; messageSize := 0 |} /\
  forall fuel, dataReceivedLoop fuel (encode (Bitfield b) ++ rest) 0 = None.
Proof. intros. split; [now apply big_frame_parse|now apply big_frame_loop]. Qed.

Lemma big_frame_exists : exists b, bytes_ok b /\ zlen b = 65531 /\ fits (encode (Bitfield b) ++ []).
Proof.
  exists (repeat 255 (Z.to_nat 65531)). split; [|split].
  - apply Forall_forall. intros x Hx. apply repeat_spec in Hx. subst. unfold is_byte. lia.
  - unfold zlen. rewrite repeat_length. lia.
  - unfold fits. cbn [encode]. unfold framed. rewrite !zlen_app, zlen_be, zlen_cons. unfold zlen. rewrite repeat_length. cbn [length]. lia.
Qed.

Lemma fragmentation_example : exists ms t (chunks : list (nat * list Z)), Forall message_ok ms /\ partial_of t /\
  fits (encodes ms ++ t) /\ concat (map snd chunks) = encodes ms ++ t /\ length chunks = 3%nat /\ ms <> [] /\ t <> [].
Proof.
  exists [Have 5; Unchoke], [0;0;0], [(10%nat, [0;0;0]); (20%nat, [5;4;0;0]); (5%nat, [0;5;0;0;0;1;1;0;0;0])].
  split.
  { repeat constructor; unfold is32; lia. }
  split.
  { exists Choke, 3%nat. split; [split; [exact I|reflexivity]|]. split; [simpl; lia|reflexivity]. }
  repeat split; discriminate.
Qed.
