(** C50, C71: hole punching messages (BEP 55). *)
From Verif Require Import Base BaseLemmas PacketModel PacketProofs AddrModel AddrSpec AddrProofs HolepunchModel.

Lemma skip_skip2 {A} a : forall b (l : list A), skipn b (skipn a l) = skipn (a + b) l.
Proof. induction a; intros b l; [reflexivity|]. destruct l; [now rewrite !skipn_nil|]. apply IHa. Qed.

(** A message as BEP 55 lays it out: type, family, address, port and (in an error) the code. *)
Definition hp_text (id : Z) (a : addr) (e : Z) : list Z :=
  [id; if ipv6 a then 1 else 0] ++ firstn (if ipv6 a then 16 else 4) (addrBytes a) ++ be 2 (port a) ++ (if id =? 2 then be 4 e else []).

Lemma toData_be a : toData a = firstn (addrSize (ipv6 a)) (addrBytes a) ++ be 2 (port a).
Proof. unfold toData. now rewrite le_bswap. Qed.

Lemma toData_length a : addr_ok a -> length (toData a) = (addrSize (ipv6 a) + 2)%nat.
Proof. intros (L & _). rewrite toData_be, app_length, be_length, firstn_length. pose proof (addrSize_le (ipv6 a)). lia. Qed.

Lemma hBody_text mid a id e : 0 <= id <= 2 -> 0 <= mid < 256 -> hBody mid a id e = 20 :: mid :: hp_text id a e.
Proof.
  intros I M. unfold hBody, hp_text, hError. rewrite toData_be, addN_be. unfold u8. rewrite !Z.mod_small by lia. cbn [app].
  rewrite <- app_assoc. reflexivity.
Qed.

(** What is sent is one extended message: its length (as RFC byte order has it), 20, the number
    the peer chose, and the text. *)
Theorem C50_sent : forall mid a id e, addr_ok a -> 0 <= id <= 2 -> 0 <= mid < 256 ->
  hSend mid a id e = be 4 (zlen (20 :: mid :: hp_text id a e)) ++ 20 :: mid :: hp_text id a e.
Proof. intros mid a id e A I M. unfold hSend. rewrite addN_be. rewrite hBody_text by assumption. reflexivity. Qed.
Print Assumptions C50_sent.

(** C50. A rendezvous, connect or error message is read back as sent: type, family, address and
    port, and the code of an error; whatever follows it in the buffer and whatever the message
    object held before. *)
Theorem C50_read_back : forall old e0 a id e rest, addr_ok a -> 0 <= id <= 2 -> 0 <= e < 4294967296 ->
  exists m, hLoad old e0 (hp_text id a e ++ rest) = Ok (Some m) /\
    hId m = id /\ meaning (hAddr m) = meaning a /\ (id = 2 -> hErr m = e).
Proof.
  intros old e0 a id e rest A I E. pose proof (toData_length a A) as TL. pose proof (toData_be a) as TB.
  unfold hp_text. replace (if ipv6 a then 16%nat else 4%nat) with (addrSize (ipv6 a)) by reflexivity.
  set (tail := if id =? 2 then be 4 e else []).
  replace (([id; if ipv6 a then 1 else 0] ++ firstn (addrSize (ipv6 a)) (addrBytes a) ++ be 2 (port a) ++ tail) ++ rest)
    with (id :: (if ipv6 a then 1 else 0) :: toData a ++ (tail ++ rest)) by (rewrite TB; cbn [app]; now rewrite <- !app_assoc).
  set (b := id :: _). unfold hLoad.
  assert (ZB : zlen b = 2 + Z.of_nat (addrSize (ipv6 a) + 2) + zlen tail + zlen rest).
  { unfold b, zlen. cbn [length]. rewrite !app_length, TL. lia. }
  pose proof (zlen_nonneg tail). pose proof (zlen_nonneg rest).
  replace (zlen b <? 8) with false by (destruct (ipv6 a); cbn [addrSize] in ZB; lia).
  change (nth 0 b 0) with id. change (nth 1 b 0) with (if ipv6 a then 1 else 0).
  replace (1 <? (if ipv6 a then 1 else 0)) with false by (destruct (ipv6 a); reflexivity).
  replace ((if ipv6 a then 1 else 0) =? 1) with (ipv6 a) by (destruct (ipv6 a); reflexivity).
  replace (ipv6 a && (zlen b <? 20)) with false by (destruct (ipv6 a); cbn [addrSize] in ZB; cbn [andb]; [lia|reflexivity]).
  change (skipn 2 b) with (toData a ++ (tail ++ rest)).
  destruct (parse_toData old a (tail ++ rest) A) as (a' & P & M). rewrite P. cbn [bind fst snd].
  destruct (Z.eqb_spec id hError) as [EI|EI].
  - assert (tail = be 4 e) as ET by (unfold tail; rewrite EI; reflexivity).
    unfold pop32. pose proof (popN_at 4 (id :: (if ipv6 a then 1 else 0) :: toData a) e rest ltac:(cbn; lia)) as X.
    cbn [length] in X. rewrite TL in X. replace (2 + Z.to_nat (zlen (toData a)))%nat with (S (S (addrSize (ipv6 a) + 2))) by (unfold zlen; rewrite TL; lia).
    replace b with ((id :: (if ipv6 a then 1 else 0) :: toData a) ++ be 4 e ++ rest) by (unfold b; rewrite ET; reflexivity).
    rewrite X. cbn [bind fst]. eexists. split; [reflexivity|]. cbn. auto.
  - eexists. split; [reflexivity|]. cbn. refine (conj eq_refl (conj M _)). intros ->. exfalso. apply EI. reflexivity.
Qed.
Print Assumptions C50_read_back.

(** C50 on any bytes: exactly the bytes of a well-formed message are accepted (type, family 0
    or 1, whole address), if an error has its code. *)
Theorem C50_read_partial : forall old e0 b, length old = 16%nat -> bytes_ok old -> bytes_ok b ->
  (nth 0 b 0 = 2 -> zlen b >= (if nth 1 b 0 =? 1 then 24 else 12)) ->
  match hLoad old e0 b with
  | UB => False
  | Ok None => zlen b < 8 \/ 1 < nth 1 b 0 \/ (nth 1 b 0 = 1 /\ zlen b < 20)
  | Ok (Some m) => addr_ok (hAddr m) /\ exists rest, b = hp_text (hId m) (hAddr m) (hErr m) ++ rest
  end.
Proof.
  intros old e0 b LO BO BB ER. unfold hLoad. destruct (Z.ltb_spec (zlen b) 8); [auto|].
  destruct (Z.ltb_spec 1 (nth 1 b 0)) as [|N1]; [auto|].
  destruct b as [|id [|f b]]; try (unfold zlen in *; cbn in *; lia). cbn [nth] in *.
  assert (BF : is_byte id /\ is_byte f /\ bytes_ok b) by (inversion BB as [|? ? ? B2]; inversion B2; auto).
  destruct BF as (BI & BF & B'). unfold is_byte in *.
  set (v6 := f =? 1) in *. cbn [skipn].
  assert (ZB : zlen (id :: f :: b) = 2 + zlen b) by (unfold zlen; cbn [length]; lia). rewrite ZB in *.
  destruct (v6 && (2 + zlen b <? 20)) eqn:C; [right; right; unfold v6 in C; lia|].
  assert (LB : (addrSize v6 + 2 <= length b)%nat) by (unfold zlen in *; destruct v6; cbn [addrSize andb] in *; lia).
  assert (PA : exists a, parseAddr old b v6 = Ok (a, 2 + Z.of_nat (addrSize v6)) /\
    b = firstn (addrSize v6) (addrBytes a) ++ be 2 (port a) ++ skipn (addrSize v6 + 2) b /\ ipv6 a = v6).
  { unfold parseAddr. replace (Nat.leb _ _) with true by (symmetry; apply Nat.leb_le; lia). eexists. split; [reflexivity|].
    cbn [addrBytes port ipv6]. split; [|reflexivity]. rewrite putBytes_first by lia.
    assert (B2 : bytes_ok (slice (addrSize v6) 2 b)).
    { unfold slice, bytes_ok in *. rewrite <- (firstn_skipn (addrSize v6) b) in B'. apply Forall_app in B' as [_ B'].
      rewrite <- (firstn_skipn 2 (skipn (addrSize v6) b)) in B'. now apply Forall_app in B'. }
    assert (L2 : length (slice (addrSize v6) 2 b) = 2%nat) by (apply slice_length; lia).
    rewrite bswap_unle by assumption. pose proof (be_unbe _ B2) as BU. rewrite L2 in BU. rewrite BU. unfold slice.
    rewrite <- (firstn_skipn (addrSize v6) b) at 1. f_equal. rewrite <- (firstn_skipn 2 (skipn (addrSize v6) b)) at 1. f_equal.
    apply skip_skip2. }
  destruct PA as (a & PA & EB & V). pose proof (parse_ok old b v6 a _ LO BO B' PA) as AO. rewrite PA. cbn [bind fst snd].
  assert (FE : f = if ipv6 a then 1 else 0) by (rewrite V; unfold v6; destruct (Z.eqb_spec f 1); lia).
  destruct (Z.eqb_spec id hError) as [EI|EI].
  - unfold hError in EI. specialize (ER EI). unfold pop32, popN, readAt. cbn [rbuf rpos].
    set (k := (2 + Z.to_nat (2 + Z.of_nat (addrSize v6)))%nat).
    assert (K : k = (4 + addrSize v6)%nat) by (unfold k; lia).
    assert (LK : (k + 4 <= length (id :: f :: b))%nat) by (rewrite K; unfold zlen in *; cbn [length]; unfold v6 in *; destruct (f =? 1); cbn [addrSize] in *; lia).
    replace (Nat.leb _ _) with true by (symmetry; apply Nat.leb_le; assumption). cbn [bind fst hId hAddr hErr].
    split; [exact AO|]. exists (skipn 4 (skipn (addrSize v6 + 2) b)). unfold hp_text. rewrite EI. change (2 =? 2) with true. cbn iota.
    rewrite <- FE, V. replace (if v6 then 16%nat else 4%nat) with (addrSize v6) by reflexivity.
    assert (SE : slice k 4 (2 :: f :: b) = firstn 4 (skipn (addrSize v6 + 2) b)).
    { unfold slice. f_equal. rewrite K. replace (4 + addrSize v6)%nat with (S (S (addrSize v6 + 2))) by lia. reflexivity. }
    subst id. rewrite SE.
    assert (L4 : length (firstn 4 (skipn (addrSize v6 + 2) b)) = 4%nat) by (rewrite firstn_length, skipn_length; cbn [length] in LK; lia).
    assert (B4 : bytes_ok (firstn 4 (skipn (addrSize v6 + 2) b))).
    { unfold bytes_ok in *. rewrite <- (firstn_skipn (addrSize v6 + 2) b) in B'. apply Forall_app in B' as [_ B'].
      rewrite <- (firstn_skipn 4 (skipn (addrSize v6 + 2) b)) in B'. now apply Forall_app in B'. }
    rewrite bswap_unle by assumption. pose proof (be_unbe _ B4) as BU. rewrite L4 in BU. rewrite BU. cbn [app]. do 2 f_equal.
    rewrite <- !app_assoc. rewrite firstn_skipn. exact EB.
  - cbn [hId hAddr hErr]. split; [exact AO|]. exists (skipn (addrSize v6 + 2) b). unfold hp_text, hError in *.
    destruct (Z.eqb_spec id 2); [contradiction|]. rewrite <- FE, V. replace (if v6 then 16%nat else 4%nat) with (addrSize v6) by reflexivity.
    cbn [app]. do 2 f_equal. rewrite app_nil_r. rewrite <- app_assoc. exact EB.
Qed.
Print Assumptions C50_read_partial.

(** Finding: an error message which ends before its code is read outside the buffer. *)
Theorem C50_short_error_refuted : forall old e0 a, addr_ok a ->
  hLoad old e0 (firstn 8 ([2; 0] ++ firstn 4 (addrBytes a) ++ be 2 (port a))) = UB.
Proof.
  intros old e0 a (L & _). destruct (addrBytes a) as [|b0 [|b1 [|b2 [|b3 t]]]]; try discriminate L. reflexivity.
Qed.
Print Assumptions C50_short_error_refuted.

(** Finding: types from 3 on are accepted (and do nothing). *)
Example ex_hole_unknown : exists m, hLoad (repeat 0 16) 0 [7; 0; 1; 2; 3; 4; 0; 80] = Ok (Some m) /\ hId m = 7.
Proof. eexists. split; reflexivity. Qed.

Definition exHole : addr := {| addrBytes := [10; 0; 0; 1] ++ repeat 0 12; port := 6881; ipv6 := false |}.
Definition exHole6 : addr := {| addrBytes := [254; 128] ++ repeat 0 13 ++ [1]; port := 6881; ipv6 := true |}.
Lemma exHole_ok : addr_ok exHole /\ addr_ok exHole6.
Proof. unfold addr_ok, bytes_ok, is_byte. repeat split; try (cbn; lia); repeat constructor; lia. Qed.
Example ex_hole : exists m, hLoad (repeat 9 16) 77 (skipn 6 (hSend 3 exHole6 2 4)) = Ok (Some m) /\ hErr m = 4 /\ port (hAddr m) = 6881.
Proof. eexists. repeat split. Qed.

(** ** C71: the relay *)

(** The pointer is set whenever the number is. *)
Definition hp_ok (p : hpeer) : Prop := addr_ok (hpAddr p) /\ 0 <= hpMid p < 256 /\ (hpMid p <> 0 -> hpPtr p = true).

Lemma hInit_ok p n : hp_ok p -> hp_ok (hInit p n).
Proof. intros (A & B & C). destruct n; [|exact (conj A (conj B C))]. unfold hp_ok, hInit. cbn. refine (conj A (conj _ _)); [unfold u8; lia|auto]. Qed.

Lemma noPeer_ok : hp_ok noPeer.
Proof. unfold hp_ok, addr_ok, bytes_ok, is_byte, noPeer. cbn [hpAddr addrBytes port hpMid hpPtr]. repeat split; try (cbn; lia); repeat constructor; lia. Qed.

Lemma nth_hp l i : Forall hp_ok l -> hp_ok (nth i l noPeer).
Proof. intros F. destruct (nth_in_or_default i l noPeer) as [H|H]; [rewrite Forall_forall in F; auto|rewrite H; apply noPeer_ok]. Qed.

Lemma hFind_spec a l : forall i, match hFind a l i with
  | Some t => exists k, t = (i + k)%nat /\ (k < length l)%nat /\ addrEq (hpAddr (nth k l noPeer)) a = true /\
      forall j, (j < k)%nat -> addrEq (hpAddr (nth j l noPeer)) a = false
  | None => forall p, In p l -> addrEq (hpAddr p) a = false
  end.
Proof.
  induction l as [|p l IH]; intros i; cbn [hFind]; [intros ? []|].
  destruct (addrEq (hpAddr p) a) eqn:E.
  - exists 0%nat. cbn. repeat split; try lia. assumption.
  - specialize (IH (S i)). destruct (hFind a l (S i)).
    + destruct IH as (k & -> & K & E' & F). exists (S k). cbn [length nth]. repeat split; try lia; try assumption.
      intros [|j] J; [assumption|apply F; lia].
    + intros q [<-|Q]; auto.
Qed.

(** C71. A rendezvous request for a connected peer which speaks uTP and hole punching makes both
    peers get a connect message with the address of the other; one for an address not connected
    gets error 2 "not connected"; a connect message opens a connection to its address if there
    is room. Nothing else is done. Addresses of one family are assumed, and that the sender
    named the extension in its handshake. *)
Theorem C71_relay_partial : forall maxC l from m, Forall hp_ok l -> (from < length l)%nat -> addr_ok (hAddr m) ->
  Forall (fun p => ipv6 (hpAddr p) = ipv6 (hAddr m)) l -> hpMid (nth from l noPeer) <> 0 -> 0 <= hId m ->
  let sender := nth from l noPeer in
  match hId m with
  | 0 => (forall p, In p l -> meaning (hpAddr p) <> meaning (hAddr m)) /\
         hHandle maxC l from m = Ok [HSend from (be 4 (zlen (20 :: hpMid sender :: hp_text 2 (hAddr m) 2)) ++ 20 :: hpMid sender :: hp_text 2 (hAddr m) 2)]
      \/ exists t, (t < length l)%nat /\ meaning (hpAddr (nth t l noPeer)) = meaning (hAddr m) /\
         (forall j, (j < t)%nat -> meaning (hpAddr (nth j l noPeer)) <> meaning (hAddr m)) /\
         let target := nth t l noPeer in
         hHandle maxC l from m = Ok (if hpUtp target && negb (hpMid target =? 0)
           then [HSend t (be 4 (zlen (20 :: hpMid target :: hp_text 1 (hpAddr sender) 0)) ++ 20 :: hpMid target :: hp_text 1 (hpAddr sender) 0);
                 HSend from (be 4 (zlen (20 :: hpMid sender :: hp_text 1 (hAddr m) 0)) ++ 20 :: hpMid sender :: hp_text 1 (hAddr m) 0)]
           else [])
  | 1 => hHandle maxC l from m = Ok (if zlen l <? maxC then [HOpen (hAddr m)] else [])
  | _ => hHandle maxC l from m = Ok []
  end.
Proof.
  intros maxC l from m HP FR AO FA MF ID sender. pose proof (nth_hp l from HP) as (SA & SM & SP). fold sender in SA, SM, SP, MF. specialize (SP MF).
  assert (EQ : forall k, (k < length l)%nat -> (addrEq (hpAddr (nth k l noPeer)) (hAddr m) = true <-> meaning (hpAddr (nth k l noPeer)) = meaning (hAddr m))).
  { intros k K. apply addrEq_family; [apply nth_hp, HP|exact AO|]. rewrite Forall_forall in FA. apply FA, nth_In, K. }
  unfold hHandle, hRendezvous, hConnect.
  destruct (hId m) as [|[q|q|]|]; [|reflexivity|reflexivity|reflexivity|lia].
  change (0 =? 0) with true. cbn iota. pose proof (hFind_spec (hAddr m) l 0) as F. destruct (hFind (hAddr m) l 0) as [t|].
  - right. destruct F as (k & E & K & T & B). cbn in E. subst k. exists t. split; [exact K|]. split; [now apply EQ|]. split.
    { intros j J M. apply EQ in M; [|lia]. rewrite B in M by assumption. discriminate. }
    cbn zeta. set (target := nth t l noPeer). unfold hpEnabled. fold target. destruct (hpUtp target && negb (hpMid target =? 0)) eqn:C; [|reflexivity].
    pose proof (nth_hp l t HP) as (TA & TM & TP). fold target in TA, TM, TP.
    unfold hTo. fold target sender. rewrite TP by lia. cbn [bind]. rewrite SP. cbn [bind].
    rewrite !C50_sent by (try assumption; unfold hConnect; lia). reflexivity.
  - left. split.
    + intros p P. destruct (In_nth l p noPeer P) as (k & K & <-). intros M. apply EQ in M; [|assumption]. rewrite F in M by assumption. discriminate.
    + unfold hTo. fold sender. rewrite SP. rewrite C50_sent by (try assumption; unfold hError; lia). reflexivity.
Qed.
Print Assumptions C71_relay_partial.

(** Finding: a peer which did not name the extension in its handshake and sends a rendezvous
    request for an address not connected makes the program use a null pointer. *)
Theorem C71_null_refuted : forall maxC l from a old e0, addr_ok a -> hpPtr (nth from l noPeer) = false ->
  (forall p, In p l -> ipv6 (hpAddr p) = ipv6 a /\ addr_ok (hpAddr p) /\ meaning (hpAddr p) <> meaning a) ->
  hReceive maxC l from old e0 (hp_text 0 a 0) = UB.
Proof.
  intros maxC l from a old e0 AO P NI. destruct (C50_read_back old e0 a 0 0 [] AO) as (m & L & I & M & _); try lia.
  rewrite app_nil_r in L. unfold hReceive. rewrite L. cbn [bind]. unfold hHandle. rewrite I. change (0 =? hRendezvous) with true. cbn iota.
  pose proof (hFind_spec (hAddr m) l 0) as F. destruct (hFind (hAddr m) l 0) as [t|].
  - exfalso. destruct F as (k & _ & K & T & _). destruct (NI _ (nth_In l noPeer K)) as (V & A & N). apply N. rewrite <- M.
    unfold meaning in M. injection M as M1 M2 M3. unfold addrEq in T. unfold meaning. apply andb_prop in T as [T1 T2].
    apply Z.eqb_eq in T1, T2. rewrite V in T2. rewrite M1, V. apply memcmp_eq in T2.
    + rewrite T2, T1. reflexivity.
    + destruct A as (A & _). rewrite A. apply addrSize_le.
    + assert (LL : length (firstn (addrSize (ipv6 (hAddr m))) (addrBytes (hAddr m))) = addrSize (ipv6 a)).
      { rewrite M2. rewrite firstn_length. destruct AO as (A' & _). rewrite A'. pose proof (addrSize_le (ipv6 a)). lia. }
      rewrite firstn_length, M1 in LL. lia.
  - unfold hTo. rewrite P. reflexivity.
Qed.
Print Assumptions C71_null_refuted.

(** Finding: a request for a connected peer without uTP or without the extension is not
    answered at all (BEP 55 has error 3 for it). *)
Theorem C71_no_answer_refuted : exists l from m, Forall hp_ok l /\ (from < length l)%nat /\ hId m = 0 /\
  hpMid (nth from l noPeer) <> 0 /\ hHandle 100 l from m = Ok [].
Proof.
  exists [{| hpAddr := exHole; hpUtp := true; hpMid := 3; hpPtr := true |}; {| hpAddr := {| addrBytes := [10; 0; 0; 2] ++ repeat 0 12; port := 6881; ipv6 := false |}; hpUtp := true; hpMid := 0; hpPtr := false |}], 0%nat,
    {| hId := 0; hAddr := {| addrBytes := [10; 0; 0; 2] ++ repeat 0 12; port := 6881; ipv6 := false |}; hErr := 0 |}.
  repeat split; try (cbn; lia).
  repeat constructor; unfold is_byte; cbn; try lia; try discriminate; intros; congruence.
Qed.
Print Assumptions C71_no_answer_refuted.

(** A relayed request. *)
Example ex_relay : hReceive 100 [{| hpAddr := exHole; hpUtp := true; hpMid := 3; hpPtr := true |}; {| hpAddr := {| addrBytes := [10; 0; 0; 2] ++ repeat 0 12; port := 80; ipv6 := false |}; hpUtp := true; hpMid := 5; hpPtr := true |}]
   0 (repeat 0 16) 0 [0; 0; 10; 0; 0; 2; 0; 80] =
  Ok [HSend 1 [0;0;0;10; 20; 5; 1; 0; 10; 0; 0; 1; 26; 225]; HSend 0 [0;0;0;10; 20; 3; 1; 0; 10; 0; 0; 2; 0; 80]].
Proof. reflexivity. Qed.
