From Coq Require Import Sorted Permutation.
From Verif Require Import Base BaseLemmas UtpModel UtpSpec UtpProofs UtpProofs2 UtpProofs3 UtpProofs4 UtpProofs5.

(** * Headers *)

Lemma byteAt_ok d i : (i < length d)%nat -> exists b, byteAt d i = Ok b /\ nth i d 0 = b.
Proof.
  intros H. unfold byteAt. destruct (nth_error d i) as [b|] eqn:E; [exists b; split; [reflexivity|now apply nth_error_nth]|apply nth_error_None in E; lia].
Qed.

Lemma skipn_nth (d : list Z) i : (i < length d)%nat -> skipn i d = nth i d 0 :: skipn (S i) d.
Proof. revert i. induction d as [|x d IH]; intros i H; [cbn in H; lia|]. destruct i; [reflexivity|]. cbn [skipn nth]. apply IH. cbn in H. lia. Qed.

Lemma parse_ok fuel : forall d t pos left, bytes_ok d -> 0 <= t -> Z.of_nat pos + left = zlen d -> 0 <= left -> (Z.to_nat left < fuel)%nat ->
  exists h, parseExtensions fuel d t pos left = Ok h /\ (h = 0 \/ (Z.of_nat pos <= h <= zlen d /\ exists es, walkExtensions fuel d t pos = Ok es /\ first_type es = t /\ skipn pos d = encode_exts es ++ skipn (Z.to_nat h) d)).
Proof.
  induction fuel as [|fuel IH]; intros d t pos left Bd Ht E L F; [lia|]. cbn [parseExtensions walkExtensions]. destruct (Z.eqb_spec t 0) as [->|N].
  - exists (zlen d - left). split; [reflexivity|]. right. split; [lia|]. exists []. split; [reflexivity|]. split; [reflexivity|]. cbn [encode_exts app]. f_equal. lia.
  - destruct (Z.ltb_spec left 2); [exists 0; auto|]. unfold zlen in E. destruct (byteAt_ok d (pos + 1)) as (len & B1 & B2); [lia|]. rewrite B1. cbn [bind].
    assert (Lr : 0 <= len < 256). { unfold bytes_ok in Bd. rewrite Forall_forall in Bd. rewrite <- B2. apply Bd. apply nth_In. lia. }
    destruct (Z.ltb_spec (left - 2) len); [exists 0; auto|]. destruct (byteAt_ok d pos) as (next & C1 & C2); [lia|]. rewrite C1. cbn [bind].
    assert (Nr : 0 <= next). { unfold bytes_ok in Bd. rewrite Forall_forall in Bd. assert (Q : is_byte (nth pos d 0)) by (apply Bd; apply nth_In; lia). unfold is_byte in Q. lia. }
    destruct (IH d next (pos + 2 + Z.to_nat len)%nat (left - 2 - len) Bd Nr ltac:(unfold zlen; lia) ltac:(lia) ltac:(lia)) as (h & H1 & H2). rewrite H1. exists h. split; [reflexivity|].
    destruct H2 as [H2|(H2 & es & H3 & H4 & H5)]; [now left|]. right. split; [lia|]. unfold bytesAt. replace (pos + 2 + Z.to_nat len <=? length d)%nat with true by (symmetry; apply Nat.leb_le; lia). cbn [bind]. rewrite H3. cbn [bind].
    exists ((t, slice (pos + 2) (Z.to_nat len) d) :: es). split; [reflexivity|]. split; [reflexivity|]. cbn [encode_exts app]. rewrite H4. rewrite (skipn_nth d pos), (skipn_nth d (S pos)) by lia. rewrite C2. replace (S pos) with (pos + 1)%nat by lia. rewrite B2.
    assert (Ls : zlen (slice (pos + 2) (Z.to_nat len) d) = len) by (unfold zlen, slice; rewrite firstn_length, skipn_length; lia). rewrite Ls. f_equal. f_equal. rewrite <- app_assoc, <- H5. unfold slice. replace (S (pos + 1)) with (pos + 2)%nat by lia. replace (pos + 2 + Z.to_nat len)%nat with (Z.to_nat len + (pos + 2))%nat by lia. rewrite (skipn_plus (Z.to_nat len) (pos + 2)). symmetry. apply firstn_skipn.
Qed.

Lemma header_ok d : bytes_ok d -> exists h, getUtpPacketHeaderSize d = Ok h /\ (h = 0 \/ (20 <= h <= zlen d /\ exists es, walkExtensions (S (length d)) d (nth 1 d 0) 20 = Ok es /\ first_type es = nth 1 d 0 /\ skipn 20 d = encode_exts es ++ skipn (Z.to_nat h) d)).
Proof.
  intros B. unfold getUtpPacketHeaderSize. destruct (Z.ltb_spec (zlen d) 20) as [L|L]; [exists 0; auto|]. unfold zlen in L. destruct (byteAt_ok d 0) as (tv & T1 & _); [lia|]. rewrite T1. cbn [bind]. destruct (_ || _); [exists 0; auto|].
  unfold parseHeaderSize. destruct (byteAt_ok d 1) as (e & E1 & E2); [lia|]. rewrite E1. cbn [bind]. rewrite E2.
  assert (Nr : 0 <= e). { unfold bytes_ok in B. rewrite Forall_forall in B. assert (Q : is_byte (nth 1 d 0)) by (apply B; apply nth_In; lia). unfold is_byte in Q. lia. }
  destruct (parse_ok (S (length d)) d e 20 (zlen d - 20) B Nr) as (h & H1 & H2); [change (Z.of_nat 20) with 20; lia|unfold zlen; lia|unfold zlen; lia|]. exists h. split; [exact H1|]. change (Z.of_nat 20) with 20 in H2. exact H2.
Qed.

(** * Selective acks: the bitmask *)

Section Mask.
Variable s0 : Z.
Definition has (ks : list (nat * nat)) (k : nat) : bool := existsb (fun x => (snd x =? k)%nat) ks.

Lemma has_in ks k : has ks k = true <-> exists i, In (i, k) ks.
Proof. unfold has. rewrite existsb_exists. split; [intros ([i kk] & H & E); apply Nat.eqb_eq in E; cbn in E; subst; eauto|intros (i & H); exists (i, k); split; [assumption|cbn; now rewrite Nat.eqb_refl]]. Qed.

Lemma has_none ks k : Forall (fun x => (k < snd x)%nat) ks -> has ks k = false.
Proof. unfold has. induction 1 as [|x l H _ IH]; [reflexivity|]. cbn [existsb]. rewrite IH. replace (snd x =? k)%nat with false by (symmetry; apply Nat.eqb_neq; lia). reflexivity. Qed.

Lemma testbit_mask p i : 0 <= p < 8 -> 0 <= i -> Z.testbit (u8 (Z.shiftl 1 p)) i = (i =? p).
Proof.
  intros Hp Hi. rewrite Z.shiftl_1_l. unfold u8. rewrite Z.mod_small by (split; [apply Z.pow_nonneg; lia|change 256 with (2 ^ 8); apply Z.pow_lt_mono_r; lia]). rewrite Z.pow2_bits_eqb by lia. now rewrite Z.eqb_sym.
Qed.

(** One byte: the bits from position [p] on name the packets from [t] on. *)
Lemma ackByte_ok j : forall p t acc ks, (j + p = 8)%nat -> ks <> [] -> StronglySorted (fun a b => (snd a < snd b)%nat) ks -> Forall (fun x => (t <= snd x)%nat /\ Z.of_nat (snd x) < Z.of_nat t + 65536) ks ->
  exists acc' q ks', ackByte j (u8 (Z.shiftl 1 (Z.of_nat p))) acc (number s0 t) (map (tag s0) ks) = Ok (acc', q, map (tag s0) ks') /\
   (forall i, 0 <= i -> Z.testbit acc' i = Z.testbit acc i || ((Z.of_nat p <=? i) && (i <? 8) && has ks (t + Z.to_nat i - p))) /\
   (ks' = [] \/ (q = number s0 (t + j) /\ Forall (fun x => (t + j <= snd x)%nat) ks')) /\ (exists pre, ks = pre ++ ks' /\ Forall (fun x => (snd x < t + j)%nat) pre).
Proof.
  induction j as [|j IH]; intros p t acc ks Hp N S F; cbn [ackByte].
  - exists acc, (number s0 t), ks. split; [reflexivity|]. split; [|split; [right; split; [f_equal; lia|]|exists []; auto]].
    + intros i Hi. replace ((Z.of_nat p <=? i) && (i <? 8)) with false by lia. cbn. now rewrite orb_false_r.
    + eapply Forall_impl; [|exact F]. cbn. intros; lia.
  - destruct ks as [|[ix k] ks]; [congruence|]. inversion F as [|? ? [F1 F2] F3]; subst. inversion S as [|? ? S1 S2]; subst. cbn [fst snd] in *. cbn [map]. change (tag s0 (ix, k)) with (ix, number s0 k).
    assert (Rest : forall y, In y ks -> (k < snd y)%nat) by (intros y Hy; rewrite Forall_forall in S2; exact (S2 y Hy)).
    replace (u8 (Z.shiftl (u8 (Z.shiftl 1 (Z.of_nat p))) 1)) with (u8 (Z.shiftl 1 (Z.of_nat (Datatypes.S p)))) by (replace (Z.of_nat (Datatypes.S p)) with (Z.of_nat p + 1) by lia; rewrite !Z.shiftl_1_l, Z.shiftl_mul_pow2 by lia; unfold u8; rewrite Z.pow_add_r by lia; symmetry; apply Zmult_mod_idemp_l).
    replace (u16 (number s0 t + 1)) with (number s0 (Datatypes.S t)) by (unfold number, u16; lia).
    rewrite number_eq by lia. destruct (Z.eqb_spec (Z.of_nat k) (Z.of_nat t)) as [E|E].
    + assert (k = t) by lia. subst k.
      assert (Bm : forall i, 0 <= i -> Z.testbit (Z.lor acc (u8 (Z.shiftl 1 (Z.of_nat p)))) i = Z.testbit acc i || (i =? Z.of_nat p)) by (intros i Hi; rewrite Z.lor_spec, testbit_mask by lia; reflexivity).
      destruct ks as [|y ks].
      * exists (Z.lor acc (u8 (Z.shiftl 1 (Z.of_nat p)))), (number s0 t), []. split; [reflexivity|]. split; [|split; [now left|exists [(ix, t)]; split; [reflexivity|constructor; [cbn; lia|constructor]]]].
        intros i Hi. rewrite Bm by assumption. f_equal. cbn [has existsb snd]. lia.
      * destruct (IH (Datatypes.S p) (Datatypes.S t) (Z.lor acc (u8 (Z.shiftl 1 (Z.of_nat p)))) (y :: ks)) as (acc' & q & ks' & I1 & I2 & I3 & I4); [lia|discriminate|assumption| |].
        { rewrite Forall_forall in *. intros x Hx. specialize (F3 x Hx). specialize (Rest x Hx). lia. }
        cbn [map] in I1 |- *. exists acc', q, ks'. split; [exact I1|]. split; [|split; [destruct I3 as [I3|(I3 & I3')]; [now left|right; replace (t + Datatypes.S j)%nat with (Datatypes.S t + j)%nat by lia; auto]|]].
        -- intros i Hi. rewrite I2, Bm by assumption. rewrite <- orb_assoc. f_equal. change (has ((ix, t) :: y :: ks) (t + Z.to_nat i - p)) with ((t =? t + Z.to_nat i - p)%nat || has (y :: ks) (t + Z.to_nat i - p)).
           replace (Datatypes.S t + Z.to_nat i - Datatypes.S p)%nat with (t + Z.to_nat i - p)%nat by lia.
           destruct (Z.eqb_spec i (Z.of_nat p)) as [->|Ni]; [replace (t =? t + Z.to_nat (Z.of_nat p) - p)%nat with true by (symmetry; apply Nat.eqb_eq; lia); replace ((Z.of_nat p <=? Z.of_nat p) && (Z.of_nat p <? 8)) with true by lia; reflexivity|].
           cbn [orb]. destruct (Z.leb_spec (Z.of_nat p) i); cbn [andb]; [|replace (Z.of_nat (Datatypes.S p) <=? i) with false by lia; reflexivity]. replace (Z.of_nat (Datatypes.S p) <=? i) with true by lia. replace (t =? t + Z.to_nat i - p)%nat with false by (symmetry; apply Nat.eqb_neq; lia). reflexivity.
        -- destruct I4 as (pre & I4 & I5). exists ((ix, t) :: pre). split; [cbn; now rewrite I4|]. constructor; [cbn; lia|]. eapply Forall_impl; [|exact I5]. cbn. intros; lia.
    + destruct (IH (Datatypes.S p) (Datatypes.S t) acc ((ix, k) :: ks)) as (acc' & q & ks' & I1 & I2 & I3 & I4); [lia|discriminate|assumption| |].
      { rewrite Forall_forall in *. intros x [<-|Hx]; [cbn; lia|]. specialize (F3 x Hx). specialize (Rest x Hx). lia. }
      cbn [map] in I1. change (tag s0 (ix, k)) with (ix, number s0 k) in I1. exists acc', q, ks'. split; [exact I1|]. split; [|split; [destruct I3 as [I3|(I3 & I3')]; [now left|right; replace (t + Datatypes.S j)%nat with (Datatypes.S t + j)%nat by lia; auto]|]].
      * intros i Hi. rewrite I2 by assumption. f_equal. replace (Datatypes.S t + Z.to_nat i - Datatypes.S p)%nat with (t + Z.to_nat i - p)%nat by lia.
        destruct (Z.eqb_spec i (Z.of_nat p)) as [->|Ni]; [|replace (Z.of_nat (Datatypes.S p) <=? i) with (Z.of_nat p <=? i) by lia; reflexivity].
        replace (Z.of_nat (Datatypes.S p) <=? Z.of_nat p) with false by lia. cbn [andb]. replace (t + Z.to_nat (Z.of_nat p) - p)%nat with t by lia. rewrite has_none; [now rewrite andb_false_r|]. constructor; [cbn; lia|]. rewrite Forall_forall in *. intros x Hx. specialize (Rest x Hx). lia.
      * destruct I4 as (pre & I4 & I5). exists pre. split; [assumption|]. eapply Forall_impl; [|exact I5]. cbn. intros; lia.
Qed.

Lemma ackBytes_ok n : forall t ks, ks <> [] -> StronglySorted (fun a b => (snd a < snd b)%nat) ks -> Forall (fun x => (t <= snd x)%nat /\ Z.of_nat (snd x) < Z.of_nat t + 65536) ks -> (exists x, In x ks /\ (t + 8 * n <= snd x + 8)%nat) ->
  exists mask, ackBytes n (number s0 t) (map (tag s0) ks) = Ok mask /\ length mask = n /\ (forall j, (j < 8 * n)%nat -> bit mask j = has ks (t + j)) /\ bytes_ok mask.
Proof.
  induction n as [|n IH]; intros t ks N S F (lx & L1 & L2); cbn [ackBytes]; [exists []; split; [reflexivity|]; split; [reflexivity|]; split; [intros; lia|constructor]|].
  destruct (ackByte_ok 8 0 t 0 ks eq_refl N S F) as (acc & q & ks' & A1 & A2 & A3 & pre & A4 & A5). change (u8 (Z.shiftl 1 (Z.of_nat 0))) with 1 in A1. rewrite A1. cbn [bind].
  assert (Rb : forall i, 0 <= i -> Z.testbit acc i = (i <? 8) && has ks (t + Z.to_nat i)) by (intros i Hi; rewrite A2, Z.testbit_0_l by assumption; replace (t + Z.to_nat i - 0)%nat with (t + Z.to_nat i)%nat by lia; change (Z.of_nat 0) with 0; replace (0 <=? i) with true by lia; reflexivity).
  assert (Ba : is_byte acc). { unfold is_byte. assert (Q : acc = acc mod 2 ^ 8). { apply Z.bits_inj'. intros i Hi. destruct (Z.ltb_spec i 8); [rewrite Z.mod_pow2_bits_low by lia; reflexivity|rewrite Z.mod_pow2_bits_high by lia; rewrite Rb by assumption; replace (i <? 8) with false by lia; reflexivity]. } change (2 ^ 8) with 256 in Q. lia. }
  assert (Rest : exists mask, ackBytes n q (map (tag s0) ks') = Ok mask /\ length mask = n /\ (forall j, (j < 8 * n)%nat -> bit mask j = has ks (t + 8 + j)) /\ bytes_ok mask).
  { destruct n as [|n]; [exists []; split; [reflexivity|]; split; [reflexivity|]; split; [intros; lia|constructor]|].
    assert (Lk : In lx ks') by (rewrite A4 in L1; apply in_app_or in L1; destruct L1 as [Q|Q]; [|assumption]; rewrite Forall_forall in A5; specialize (A5 lx Q); cbn in A5; lia).
    destruct A3 as [->|(-> & A3)]; [contradiction|]. destruct (IH (t + 8)%nat ks') as (mask & M1 & M2 & M3 & M4).
    - intros ->; contradiction.
    - rewrite A4 in S. clear - S. induction pre as [|x pre IH]; [assumption|]. cbn in S. inversion S; subst. auto.
    - rewrite A4 in F. apply Forall_app in F. destruct F as [_ F]. rewrite Forall_forall in *. intros x Hx. specialize (F x Hx). specialize (A3 x Hx). cbn in A3. lia.
    - exists lx. split; [assumption|lia].
    - exists mask. split; [assumption|]. split; [assumption|]. split; [|assumption]. intros j Hj. rewrite M3 by assumption. rewrite A4. unfold has. rewrite existsb_app. replace (existsb (fun x : nat * nat => (snd x =? t + 8 + j)%nat) pre) with false; [reflexivity|]. symmetry. clear - A5. induction A5 as [|x l Hx _ IH]; [reflexivity|]. cbn [existsb]. rewrite IH. replace (snd x =? t + 8 + j)%nat with false by (symmetry; apply Nat.eqb_neq; lia). reflexivity. }
  destruct Rest as (mask & M1 & M2 & M3 & M4). rewrite M1. cbn [bind]. exists (acc :: mask). split; [reflexivity|]. split; [cbn; now rewrite M2|]. split; [|constructor; assumption].
  intros j Hj. unfold bit. destruct (Nat.ltb_spec j 8).
  - rewrite (Nat.div_small j 8), (Nat.mod_small j 8) by assumption. cbn [nth]. rewrite Rb by lia. replace (Z.of_nat j <? 8) with true by lia. cbn [andb]. f_equal. lia.
  - replace j with (j - 8 + 1 * 8)%nat by lia. rewrite Nat.div_add, Nat.mod_add by lia. rewrite Nat.add_1_r. cbn [nth]. specialize (M3 (j - 8)%nat ltac:(lia)). unfold bit in M3. rewrite M3. f_equal. lia.
Qed.

Lemma last_sorted ks d : ks <> [] -> StronglySorted (fun a b : nat * nat => (snd a < snd b)%nat) ks -> In (last ks d) ks /\ Forall (fun x => (snd x <= snd (last ks d))%nat) ks.
Proof.
  induction ks as [|x ks IH]; intros N S; [congruence|]. inversion S as [|? ? S1 S2]; subst. destruct ks as [|y ks]; [cbn; split; [auto|constructor; [lia|constructor]]|]. destruct (IH ltac:(discriminate) S1) as (A & B). change (last (x :: y :: ks) d) with (last (y :: ks) d). split; [now right|]. constructor; [|assumption]. rewrite Forall_forall in S2. specialize (S2 _ A). lia.
Qed.

Lemma last_map {A B} (f : A -> B) l d d' : l <> [] -> last (map f l) d' = f (last l d).
Proof. induction l as [|x l IH]; intros N; [congruence|]. destruct l as [|y l]; [reflexivity|]. change (last (map f (x :: y :: l)) d') with (last (map f (y :: l)) d'). rewrite IH by discriminate. reflexivity. Qed.

(** The whole mask of a stream that delivered [n] packets and stores [ks]. *)
Lemma selective_ok n ks r : ack r = u16 (s0 + Z.of_nat n - 1) -> received r = map (tag s0) ks -> StronglySorted (fun a b => (snd a < snd b)%nat) ks -> Forall (fun x => (n < snd x)%nat /\ Z.of_nat (snd x) < Z.of_nat n + 32768) ks ->
  exists mask, selectiveAck r = Ok mask /\ (forall j, (j < 8 * length mask)%nat -> bit mask j = has ks (n + 1 + j)) /\ Forall (fun x => (snd x < n + 1 + 8 * length mask)%nat \/ length mask = 98%nat) ks.
Proof.
  intros A R S F. unfold selectiveAck, getSelectiveAckDataSize. rewrite R. destruct ks as [|x0 ks0] eqn:Ek; [exists []; cbn [map]; split; [reflexivity|]; split; [intros j Hj; cbn in Hj; lia|constructor]|]. rewrite <- Ek in *. assert (N : ks <> []) by (rewrite Ek; discriminate).
  destruct (last_sorted ks x0 N S) as (L1 & L2). set (lx := last ks x0) in *.
  assert (Lm : snd (last (map (tag s0) ks) (0%nat, 0)) = number s0 (snd lx)) by (rewrite (last_map (tag s0) ks x0) by assumption; reflexivity).
  destruct (map (tag s0) ks) as [|e l] eqn:Em; [rewrite Ek in Em; discriminate|]. rewrite <- Em in *. rewrite Lm. clear e l Em.
  rewrite Forall_forall in F. destruct (F lx L1) as (F1 & F2). set (k := snd lx) in *.
  assert (D : u32 ((if number s0 k <? ack r then Z.lor (number s0 k) 65536 else number s0 k) - (ack r + 1)) = Z.of_nat k - Z.of_nat n).
  { rewrite A. assert (Lo : forall x, 0 <= x < 65536 -> Z.lor x 65536 = x + 65536). { intros x Hx. symmetry. change 65536 with (2 ^ 16) in *. assert (La : Z.land x (2 ^ 16) = 0). { apply Z.bits_inj'. intros i Hi. rewrite Z.land_spec, Z.bits_0, Z.pow2_bits_eqb by lia. destruct (Z.eqb_spec 16 i) as [<-|]; [|apply andb_false_r]. rewrite andb_true_r. rewrite <- (Z.mod_small x (2 ^ 16)) by lia. apply Z.mod_pow2_bits_high. lia. } pose proof (Z.add_carry_bits x (2^16) false) as Hc. rewrite <- Z.lxor_lor by assumption. apply Z.add_nocarry_lxor. assumption. }
    assert (Nr : 0 <= number s0 k < 65536) by (unfold number; lia). rewrite Lo by assumption. unfold u32, u16, number in *. destruct (Z.ltb_spec ((s0 + Z.of_nat k) mod 65536) ((s0 + Z.of_nat n - 1) mod 65536)); lia. }
  rewrite D. set (df := Z.of_nat k - Z.of_nat n) in *. assert (Dr : 1 <= df < 32768) by lia.
  assert (Sz : u8 (Z.min (u32 (df + 7) / 8 + 2) 100) = Z.min ((df + 7) / 8) 98 + 2) by (unfold u8, u32; lia). rewrite Sz. replace (Z.min ((df + 7) / 8) 98 + 2 =? 0) with false by lia.
  unfold prepareSelectiveAckData. replace (Z.min ((df + 7) / 8) 98 + 2 - 2) with (Z.min ((df + 7) / 8) 98) by lia. rewrite R, A. replace (u16 (u16 (s0 + Z.of_nat n - 1) + 2)) with (number s0 (n + 1)) by (unfold u16, number; lia).
  set (nb := Z.to_nat (Z.min ((df + 7) / 8) 98)). destruct (ackBytes_ok nb (n + 1) ks N S) as (mask & M1 & M2 & M3 & M4).
  - apply Forall_forall. intros x Hx. specialize (F x Hx). lia.
  - exists lx. split; [assumption|]. fold k. subst nb df. lia.
  - exists mask. split; [exact M1|]. rewrite M2. split; [exact M3|]. apply Forall_forall. intros x Hx. rewrite Forall_forall in L2. specialize (L2 x Hx). fold k in L2. subst nb df. lia.
Qed.
End Mask.
