From Coq Require Import Sorted Permutation.
From Verif Require Import Base BaseLemmas UtpModel UtpSpec UtpProofs.

(** * What is kept *)

Lemma kept_ent st : kept st = map (ent (bufs st)) (sentData (snd_ st)). Proof. reflexivity. Qed.

Lemma ack_one_ent R bs s l1 p l2 log : list_ok R bs (l1 ++ p :: l2) log -> let '(bs', s') := ackSentPacket bs s p in map (ent bs') (l1 ++ l2) = map (ent bs) (l1 ++ l2).
Proof.
  intros (U & _ & _). unfold ackSentPacket. set (i := bufferIdx p). rewrite map_app in U. cbn [map] in U. fold i in U.
  assert (Ni : ~ In i (R ++ map bufferIdx (l1 ++ l2))). { destruct U as [N _]. rewrite app_assoc in N. apply NoDup_remove_2 in N. rewrite map_app, app_assoc. exact N. }
  apply same_ent. intros j Hj. apply nth_upd_other. intros ->. apply Ni. apply in_or_app. now right.
Qed.

Lemma ackLoop_kept R log l : forall bs s a, list_ok R bs l log -> let '(bs', s', l') := ackLoop bs s a l in
  exists l0, map (ent bs) l = l0 ++ map (ent bs') l' /\ Forall (fun x => idHigherThan (fst x) a = false) l0 /\ (match l' with [] => True | p :: _ => idHigherThan (sequenceOf p) a = true end).
Proof.
  induction l as [|p l IH]; intros bs s a H; cbn [ackLoop]; [exists []; auto|]. destruct (idHigherThan (sequenceOf p) a) eqn:E; [exists []; auto|].
  pose proof (ack_one_ok R bs s [] p l log H) as A. pose proof (ack_one_ent R bs s [] p l log H) as B. destruct (ackSentPacket bs s p) as [bs1 s1]. cbn [app] in A, B. destruct A as (A1 & _). specialize (IH bs1 s1 a A1). destruct (ackLoop bs1 s1 a l) as [[bs' s'] l'].
  destruct IH as (l0 & I1 & I2 & I3). exists (ent bs p :: l0). rewrite B in I1. split; [cbn; now rewrite I1|]. split; [constructor; assumption|exact I3].
Qed.

Lemma ackOne_kept R log l2 : forall l1 bs s a, list_ok R bs (l1 ++ l2) log -> let '(bs', s', l') := ackOne bs s a l2 in
  map (ent bs') (l1 ++ l') = map (ent bs) (l1 ++ l2) \/ exists u p v, l2 = u ++ p :: v /\ l' = u ++ v /\ sequenceOf p = a /\ map (ent bs') (l1 ++ l') = map (ent bs) (l1 ++ l').
Proof.
  induction l2 as [|p l2 IH]; intros l1 bs s a H; cbn [ackOne]; [now left|]. destruct (idLowerThan (sequenceOf p) a).
  - specialize (IH (l1 ++ [p]) bs s a). rewrite <- app_assoc in IH. cbn [app] in IH. specialize (IH H). destruct (ackOne bs s a l2) as [[bs' s'] l']. rewrite <- app_assoc in IH. cbn [app] in IH. destruct IH as [IH|(u & q & v & I1 & I2 & I3 & I4)]; [now left|right]. exists (p :: u), q, v. subst l2 l'. exact (conj eq_refl (conj eq_refl (conj I3 I4))).
  - destruct (Z.eqb_spec (sequenceOf p) a); [|now left]. pose proof (ack_one_ent R bs s l1 p l2 log H) as A. destruct (ackSentPacket bs s p) as [bs1 s1]. right. exists [], p, l2. exact (conj eq_refl (conj eq_refl (conj e A))).
Qed.

Lemma ackEach_kept R log acks : forall l bs s, list_ok R bs l log -> let '(bs', s', l') := ackEach bs s l acks in
  sub (map (ent bs') l') (map (ent bs) l) /\ (forall x, In x (map (ent bs) l) -> In x (map (ent bs') l') \/ In (fst x) acks).
Proof.
  induction acks as [|a acks IH]; intros l bs s H; cbn [ackEach]; [split; [apply sub_refl|auto]|].
  pose proof (ackOne_ok R log l [] bs s a H) as A. pose proof (ackOne_kept R log l [] bs s a H) as B. destruct (ackOne bs s a l) as [[bs1 s1] l1]. cbn [app] in *. destruct A as (A1 & _). specialize (IH l1 bs1 s1 A1). destruct (ackEach bs1 s1 l1 acks) as [[bs' s'] l']. destruct IH as (I1 & I2).
  destruct B as [B|(u & p & v & B1 & B2 & B3 & B4)].
  - rewrite B in *. split; [assumption|]. intros x Hx. destruct (I2 x Hx); [now left|right; now right].
  - subst l l1. rewrite B4 in *. split.
    + eapply sub_trans; [exact I1|]. rewrite !map_app. cbn [map]. apply sub_app; [apply sub_refl|apply sub_skip, sub_refl].
    + intros x Hx. rewrite map_app in Hx. cbn [map] in Hx. apply in_app_or in Hx. cbn [In] in Hx. assert (Q : In x (map (ent bs) (u ++ v)) \/ ent bs p = x) by (rewrite map_app; destruct Hx as [Hx|[Hx|Hx]]; [left; apply in_or_app; now left|now right|left; apply in_or_app; now right]).
      destruct Q as [Q|<-]; [destruct (I2 x Q); [now left|right; now right]|right; now left].
Qed.

Lemma resend_kept st a : kept (resendPackets st a) = kept st.
Proof. unfold resendPackets. pose proof (resendLoop_ok (bufs st) a (sentData (snd_ st))) as R. destruct (resendLoop (bufs st) a (sentData (snd_ st))) as [l o]. destruct R as (_ & _ & R & _). exact R. Qed.

Lemma sendData_kept q0 W0 st d st' rest : SI_mid q0 W0 st -> sendData st d = Some (st', rest) -> exists x, kept st' = kept st ++ [x].
Proof.
  intros ((U & S & L) & _) H. unfold sendData in H. destruct (packetSize (snd_ st) (zlen d)) as [n probe]. set (c := firstn (Z.to_nat n) d) in *. destruct (createDataBuffer (bufs st) (repeat 0 20 ++ c)) as [[bs i]|] eqn:C; [|discriminate]. injection H as <- <-.
  destruct (repeat_20 c) as (N20 & S20 & L20). destruct (used_new _ _ _ _ _ C N20 U) as (X1 & X2 & X3). rewrite !kept_ent. cbn [bufs snd_ sentData]. rewrite map_app. cbn [map].
  assert (E : same_on (map bufferIdx (sentData (snd_ st))) (bufs st) bs) by (intros j Hj; apply X3; apply in_or_app; now right). destruct (same_ent _ _ _ E) as (E1 & _). rewrite E1. eauto.
Qed.

Lemma writeLoop_kept q0 fuel : forall st d grow st' W0, SI_mid q0 W0 st -> writeLoop fuel st d grow = Some st' -> exists l, kept st' = kept st ++ l.
Proof.
  induction fuel as [|fuel IH]; intros st d grow st' W0 H E; (destruct d as [|x d]; cbn [writeLoop] in E; [injection E as <-; exists []; now rewrite app_nil_r|]); destruct (_ || _); try discriminate; try (injection E as <-; exists []; rewrite app_nil_r; unfold prepare; destruct grow; reflexivity).
  destruct (sendData st (x :: d)) as [[st1 rest]|] eqn:S; [|discriminate]. destruct (sendData_ok q0 W0 st _ st1 rest H S) as (c & _ & C & _). destruct (sendData_kept q0 W0 st _ st1 rest H S) as (y & K). destruct (IH _ _ _ _ _ C E) as (l & L). exists (y :: l). rewrite L, K. now rewrite <- app_assoc.
Qed.

Lemma flushPrepared_kept q0 fuel : forall st d mx st' rest W0, SI_mid q0 W0 st -> flushPrepared fuel st d mx = Some (st', rest) -> exists l, kept st' = kept st ++ l.
Proof.
  induction fuel as [|fuel IH]; intros st d mx st' rest W0 H E; (destruct d as [|x d]; cbn [flushPrepared] in E; [injection E as <- <-; exists []; now rewrite app_nil_r|]); destruct (_ <? _); try discriminate; try (injection E as <- <-; exists []; now rewrite app_nil_r).
  destruct (sendData st (x :: d)) as [[st1 r1]|] eqn:S; [|discriminate]. destruct (sendData_ok q0 W0 st _ st1 r1 H S) as (c & _ & C & _). destruct (sendData_kept q0 W0 st _ st1 r1 H S) as (y & K). destruct (IH _ _ _ _ _ _ C E) as (l & L). exists (y :: l). rewrite L, K. now rewrite <- app_assoc.
Qed.

Lemma flushSend_kept q0 W st st' : SI q0 W st -> flushSendData st = Some st' -> exists l, kept st' = kept st ++ l.
Proof.
  intros H E. unfold flushSendData in E.
  set (st1 := if 2 <? duplicateAckCounter (snd_ st) then resendPackets st (u16 (last_ack (snd_ st) + 1)) else let c := u16 (resendCount (sentData (snd_ st))) in if c =? 0 then st else resendPackets st (u16 (last_ack (snd_ st) + Z.min c 100))) in *.
  assert (A : SI q0 W st1 /\ kept st1 = kept st).
  { subst st1. destruct (2 <? _); [split; [now apply resend_ok|apply resend_kept]|]. cbv zeta. destruct (_ =? 0); [auto|split; [now apply resend_ok|apply resend_kept]]. }
  clearbody st1. destruct A as (A1 & A2). apply SI_split in A1. destruct A1 as (W0 & M & _ & _).
  destruct (flushPrepared _ st1 _ _) as [[st2 rest]|] eqn:F; [|discriminate]. destruct (flushPrepared_kept q0 _ _ _ _ _ _ W0 M F) as (l & L). rewrite A2 in L. exists l. rewrite <- L.
  destruct (_ =? _)%nat; [now injection E as <-|]. destruct rest; [now injection E as <-|]. destruct (100000 <? _); now injection E as <-.
Qed.

Lemma acked_in a mask s : In s (ackedNumbers a mask) <-> exists i j, (i < length mask)%nat /\ (j < 8)%nat /\ Z.testbit (nth i mask 0) (Z.of_nat j) = true /\ s = (a + 2 + 8 * Z.of_nat i + Z.of_nat j) mod 65536.
Proof.
  unfold ackedNumbers. rewrite in_flat_map. split.
  - intros ([i b] & H & G). apply in_flat_map in G. destruct G as (j & J & G). apply in_seq in J. destruct (Z.testbit b (Z.of_nat j)) eqn:T; [|now cbn in G]. cbn in G. destruct G as [<-|[]].
    assert (I : (i < length mask)%nat /\ nth i mask 0 = b). { apply In_nth with (d := (0%nat, 0)) in H. destruct H as (n & N & H). rewrite combine_length, seq_length in N. rewrite combine_nth in H by (now rewrite seq_length). rewrite seq_nth in H by lia. injection H as <- <-. cbn. split; [lia|reflexivity]. }
    destruct I as [I1 I2]. exists i, j. rewrite I2. split; [assumption|]. split; [lia|]. split; [assumption|]. unfold u16. rewrite Zplus_mod_idemp_r. f_equal. lia.
  - intros (i & j & H1 & H2 & H3 & H4). exists (i, nth i mask 0). split.
    + assert (X : nth i (combine (seq 0 (length mask)) mask) (0%nat, 0) = (i, nth i mask 0)) by (rewrite combine_nth by (now rewrite seq_length); rewrite seq_nth by lia; reflexivity). rewrite <- X. apply nth_In. rewrite combine_length, seq_length. lia.
    + apply in_flat_map. exists j. split; [apply in_seq; lia|]. rewrite H3. left. subst s. unfold u16. rewrite Zplus_mod_idemp_r. f_equal. lia.
Qed.

Lemma ackSelective_kept q0 W st m mask : SI q0 W st -> sub (kept (ackSelective st m mask)) (kept st) /\ forall x, In x (kept st) -> In x (kept (ackSelective st m mask)) \/ In (fst x) (ackedNumbers (ack_nr m) mask).
Proof.
  intros H. unfold ackSelective. set (acks := ackedNumbers (ack_nr m) mask).
  pose proof (ackEach_kept (ridx st) (firsts (outs st)) acks (sentData (snd_ st)) (bufs st) (snd_ st) (proj1 H)) as A. destruct (ackEach (bufs st) (snd_ st) (sentData (snd_ st)) acks) as [[bs s] l].
  destruct (2 <? length acks)%nat; [|exact A]. rewrite resend_kept. exact A.
Qed.

Lemma exts_kept q0 W m es : forall st, SI q0 W st -> let st' := fold_left (fun st '(t, c) => if t =? 1 then ackSelective st m c else st) es st in
  sub (kept st') (kept st) /\ forall x, In x (kept st) -> In x (kept st') \/ exists c, In (1, c) es /\ In (fst x) (ackedNumbers (ack_nr m) c).
Proof.
  induction es as [|[t c] es IH]; intros st H; cbn [fold_left]; [split; [apply sub_refl|auto]|]. destruct (Z.eqb_spec t 1) as [->|N].
  - destruct (ackSelective_ok q0 W st m c H) as (A & _). destruct (ackSelective_kept q0 W st m c H) as (B & C). destruct (IH _ A) as (D & E). split; [now apply (sub_trans _ _ _ D)|]. intros x Hx. destruct (C x Hx) as [Q|Q]; [|right; exists c; split; [now left|assumption]].
    destruct (E x Q) as [R|(c' & R1 & R2)]; [now left|right; exists c'; split; [now right|assumption]].
  - destruct (IH st H) as (D & E). split; [assumption|]. intros x Hx. destruct (E x Hx) as [R|(c' & R1 & R2)]; [now left|right; exists c'; split; [now right|assumption]].
Qed.

Lemma updateState_kept q0 W st m st' b : SI q0 W st -> updateState st m = Some (st', b) ->
  (exists l0 k1 k2 l3, kept st = l0 ++ k1 /\ Forall (fun x => idHigherThan (fst x) (ack_nr m) = false) l0 /\ sub k2 k1 /\ (forall x, In x k1 -> In x k2 \/ selected m (fst x)) /\ kept st' = k2 ++ l3) /\
  (b = true -> forall x k, kept st = x :: k -> idHigherThan (fst x) (ack_nr m) = false -> exists k1 k0, kept st = k0 ++ k1 /\ (match k1 with [] => True | y :: _ => idHigherThan (fst y) (ack_nr m) = true end) /\ Forall (fun x => idHigherThan (fst x) (ack_nr m) = false) k0 /\ exists k2 l3, sub k2 k1 /\ kept st' = k2 ++ l3).
Proof.
  intros H E. unfold updateState in E. destruct ((mtype m =? 0) && idLowerThan (seq_nr m) (ack (rcv st))).
  - injection E as <- <-. split; [|discriminate]. exists [], (kept st), (kept st), []. rewrite app_nil_r. refine (conj eq_refl (conj (Forall_nil _) (conj (sub_refl _) (conj _ eq_refl)))). auto.
  - destruct (ackSentDataBuffer (bufs st) (snd_ st) m) as [bs s] eqn:A. destruct (ackDataBuffer_ok q0 W st m bs s H A) as (A1 & _).
    assert (K : exists l0, kept st = l0 ++ map (ent bs) (sentData s) /\ Forall (fun x => idHigherThan (fst x) (ack_nr m) = false) l0 /\ match map (ent bs) (sentData s) with [] => True | y :: _ => idHigherThan (fst y) (ack_nr m) = true end).
    { unfold ackSentDataBuffer in A. pose proof (ackLoop_kept (ridx st) (firsts (outs st)) (sentData (snd_ st)) (bufs st) (snd_ st) (ack_nr m) (proj1 H)) as L. destruct (ackLoop (bufs st) (snd_ st) (ack_nr m) (sentData (snd_ st))) as [[bs1 s1] l1]. destruct L as (l0 & L1 & L2 & L3).
      assert (Q : bs = bs1 /\ sentData s = l1) by (destruct (_ <? _)%nat; [injection A as <- <-; auto|]; destruct (_ && _); injection A as <- <-; auto). destruct Q as [-> ->]. exists l0. split; [exact L1|]. split; [assumption|]. destruct l1; [exact I|exact L3]. }
    destruct K as (l0 & K1 & K2 & K3). set (st1 := withSending st bs s) in *.
    set (st2 := match step st with SYN_SEND => setWnd st1 (wnd m) CONNECTED (u16 (seq_nr m - 1)) (ack_nr m) | SYN_RECV => setWnd st1 (wnd m) CONNECTED (ack (rcv st1)) (ack_nr m) | sp => setWnd st1 (wnd m) sp (ack (rcv st1)) (last_ack s) end) in *.
    assert (B : SI q0 W st2) by (subst st2; destruct (step st); exact A1). assert (B' : kept st2 = map (ent bs) (sentData s)) by (subst st2 st1; destruct (step st); reflexivity). clearbody st2.
    destruct (exts_ok q0 W m (exts m) st2 B) as (C1 & _ & _). destruct (exts_kept q0 W m (exts m) st2 B) as (C2 & C3). set (st3 := fold_left _ (exts m) st2) in *. clearbody st3. destruct (flushSendData st3) as [st4|] eqn:Fl; [|discriminate]. injection E as <- <-.
    destruct (flushSend_kept q0 W st3 st4 C1 Fl) as (l3 & D). rewrite B' in *. split.
    + exists l0, (map (ent bs) (sentData s)), (kept st3), l3. refine (conj K1 (conj K2 (conj C2 (conj _ D)))). intros x Hx. destruct (C3 x Hx) as [Q|(c & Q1 & Q2)]; [now left|]. right. apply acked_in in Q2. destruct Q2 as (i & j & ? & ? & ? & ?). exists c, i, j. auto.
    + intros _ _ _ _ _. exists (map (ent bs) (sentData s)), l0. refine (conj K1 (conj K3 (conj K2 _))). exists (kept st3), l3. auto.
Qed.

(** * Sizes of packets, number of buffers *)

Definition psize (x : Z * list Z) : Prop := 1 <= zlen (snd x) <= 1452.
Definition NI (c : Z) (st : stream) : Prop := 0 < workingMaxSize (snd_ st) <= 1452 /\ Forall psize (firsts (outs st)) /\ zlen (bufs st) <= zlen (firsts (outs st)) + c.

Lemma log_length (log : list (Z * list Z)) : Forall psize log -> zlen log <= zlen (concat (map snd log)).
Proof. unfold zlen. induction 1 as [|x l H _ IH]; [cbn; lia|]. cbn [map concat length]. rewrite app_length. unfold psize, zlen in H. lia. Qed.

Lemma create_total bs c : zlen bs < 65536 -> exists bs' i, createDataBuffer bs c = Some (bs', i) /\ zlen bs' <= zlen bs + 1.
Proof.
  intros H. unfold createDataBuffer. destruct (findEmpty _ 0) as [i|] eqn:E; [apply findEmpty_some in E; destruct E as [E _]; unfold zlen in H; replace (Z.of_nat i <? 65536) with true by lia; exists (upd i c bs), i; split; [reflexivity|unfold zlen; rewrite upd_length; lia]|].
  replace (65536 <=? zlen bs) with false by lia. exists (bs ++ [c]), (length bs). split; [reflexivity|]. rewrite zlen_app. change (zlen [c]) with 1. lia.
Qed.

Lemma packetSize_range s n : 0 < workingMaxSize s <= 1452 -> 0 < n -> 1 <= fst (packetSize s n) <= 1452 /\ fst (packetSize s n) <= n.
Proof. intros H N. unfold packetSize, u32. destruct (Z.ltb_spec (workingMaxSize s) n); [|cbn; lia]. destruct (_ && _); cbn [fst]; lia. Qed.

Lemma sendData_N q0 W0 c st d : SI_mid q0 W0 st -> NI c st -> d <> [] -> zlen W0 + c < 65536 -> exists st' rest, sendData st d = Some (st', rest) /\ (length rest < length d)%nat /\ NI c st'.
Proof.
  intros H (N1 & N2 & N3) D B. destruct H as (_ & _ & H3 & _). pose proof (log_length _ N2) as LL. rewrite H3 in LL.
  assert (Dn : 0 < zlen d) by (destruct d; [congruence|unfold zlen; cbn [length]; lia]). pose proof (packetSize_range (snd_ st) (zlen d) N1 Dn) as P. unfold sendData. destruct (packetSize (snd_ st) (zlen d)) as [n probe]. cbn [fst] in P.
  destruct (create_total (bufs st) (repeat 0 20 ++ firstn (Z.to_nat n) d) ltac:(lia)) as (bs & i & C & Cl). rewrite C. eexists. eexists. split; [reflexivity|]. split; [rewrite skipn_length; unfold zlen in *; lia|].
  refine (conj N1 (conj _ _)); cbn [outs bufs]; rewrite firsts_app; cbn [firsts flat_map app].
  - apply Forall_app. split; [assumption|]. constructor; [|constructor]. unfold psize. cbn [snd]. unfold zlen in *. rewrite firstn_length. lia.
  - rewrite zlen_app. change (zlen [(sequence (snd_ st), firstn (Z.to_nat n) d)]) with 1. lia.
Qed.

Lemma writeLoop_N q0 c grow fuel : forall st d W0, SI_mid q0 W0 st -> NI c st -> (length d <= fuel)%nat -> zlen W0 + zlen d + c <= 65536 -> exists st', writeLoop fuel st d grow = Some st' /\ NI c st'.
Proof.
  induction fuel as [|fuel IH]; intros st d W0 H N F B; destruct d as [|x d]; cbn [writeLoop]; try (eexists; split; [reflexivity|assumption]); [cbn in F; lia|].
  destruct (_ || _). { eexists. split; [reflexivity|]. unfold prepare. destruct grow; exact N. }
  assert (Q : zlen W0 + c < 65536) by (unfold zlen in *; cbn [length] in B; lia). destruct (sendData_N q0 W0 c st (x :: d) H N ltac:(discriminate) Q) as (st1 & rest & S & L & N'). rewrite S.
  destruct (sendData_ok q0 W0 st _ st1 rest H S) as (ch & C1 & C2 & _). apply (IH st1 rest (W0 ++ ch)); [assumption|assumption|lia|]. rewrite C1, !zlen_app in *. lia.
Qed.

Lemma flushPrepared_N q0 c fuel : forall st d mx W0, SI_mid q0 W0 st -> NI c st -> (length d <= fuel)%nat -> zlen W0 + zlen d + c <= 65536 -> exists st' rest, flushPrepared fuel st d mx = Some (st', rest) /\ NI c st'.
Proof.
  induction fuel as [|fuel IH]; intros st d mx W0 H N F B; destruct d as [|x d]; cbn [flushPrepared]; try (eexists; eexists; split; [reflexivity|assumption]); [cbn in F; lia|].
  destruct (_ <? _); [|eexists; eexists; split; [reflexivity|assumption]].
  assert (Q : zlen W0 + c < 65536) by (unfold zlen in *; cbn [length] in B; lia). destruct (sendData_N q0 W0 c st (x :: d) H N ltac:(discriminate) Q) as (st1 & rest & S & L & N'). rewrite S.
  destruct (sendData_ok q0 W0 st _ st1 rest H S) as (ch & C1 & C2 & _). apply (IH st1 rest mx (W0 ++ ch)); [assumption|assumption|lia|]. rewrite C1, !zlen_app in *. lia.
Qed.

Lemma resend_N c st a : NI c st -> NI c (resendPackets st a).
Proof.
  intros (N1 & N2 & N3). unfold resendPackets. pose proof (resendLoop_ok (bufs st) a (sentData (snd_ st))) as R. destruct (resendLoop (bufs st) a (sentData (snd_ st))) as [l o]. destruct R as (_ & _ & _ & R & _).
  unfold NI. cbn [snd_ outs bufs workingMaxSize setSent]. rewrite firsts_app, R, app_nil_r. auto.
Qed.

Lemma flushSend_N q0 W c st : SI q0 W st -> NI c st -> zlen W + c <= 65536 -> exists st', flushSendData st = Some st' /\ NI c st'.
Proof.
  intros H N B. unfold flushSendData.
  set (st1 := if 2 <? duplicateAckCounter (snd_ st) then resendPackets st (u16 (last_ack (snd_ st) + 1)) else let c := u16 (resendCount (sentData (snd_ st))) in if c =? 0 then st else resendPackets st (u16 (last_ack (snd_ st) + Z.min c 100))) in *.
  assert (A : SI q0 W st1 /\ NI c st1 /\ held_back st1 = held_back st).
  { subst st1. assert (G : forall a, SI q0 W (resendPackets st a) /\ NI c (resendPackets st a) /\ held_back (resendPackets st a) = held_back st) by (intros a; destruct (resend_ok q0 W st a H) as (X & _ & _ & Y & Z); refine (conj X (conj (resend_N c st a N) _)); unfold held_back; now rewrite Y, Z).
    destruct (2 <? _); [apply G|]. cbv zeta. destruct (_ =? 0); [auto|apply G]. }
  clearbody st1. destruct A as (A1 & A2 & A3). apply SI_split in A1. destruct A1 as (W0 & M & E & _).
  set (mx := u64 _). destruct (flushPrepared_N q0 c (length (held_back st)) st1 (held_back st) mx W0 M A2 ltac:(lia) ltac:(rewrite E, zlen_app, A3 in B; lia)) as (st2 & rest & F & N'). unfold held_back in F. rewrite F.
  destruct (_ =? _)%nat; [eauto|]. destruct rest; [eexists; split; [reflexivity|exact N']|]. destruct (100000 <? _); (eexists; split; [reflexivity|exact N']).
Qed.

Lemma ack_one_N R bs s l1 p l2 log : list_ok R bs (l1 ++ p :: l2) log -> Forall psize log -> 0 < workingMaxSize s <= 1452 -> let '(bs', s') := ackSentPacket bs s p in 0 < workingMaxSize s' <= 1452 /\ zlen bs' = zlen bs.
Proof.
  intros (_ & S & L) P N. unfold ackSentPacket. cbn [workingMaxSize]. split; [|unfold zlen; now rewrite upd_length]. destruct (_ && _); [|assumption].
  assert (I : In (ent bs p) log) by (apply (sub_in _ _ _ S); rewrite map_app; apply in_or_app; right; now left). rewrite Forall_forall in P. specialize (P _ I). unfold psize, ent in P. cbn [snd] in P.
  assert (Q : (20 <= length (nth (bufferIdx p) bs []))%nat) by (unfold long in L; rewrite Forall_forall in L; apply L; apply in_or_app; right; now left). unfold zlen in *. rewrite skipn_length in P. unfold u32. lia.
Qed.

Lemma ackLoop_N R log l : forall bs s a, list_ok R bs l log -> Forall psize log -> 0 < workingMaxSize s <= 1452 -> let '(bs', s', l') := ackLoop bs s a l in 0 < workingMaxSize s' <= 1452 /\ zlen bs' = zlen bs.
Proof.
  induction l as [|p l IH]; intros bs s a H P N; cbn [ackLoop]; [auto|]. destruct (idHigherThan (sequenceOf p) a); [auto|].
  pose proof (ack_one_ok R bs s [] p l log H) as A. pose proof (ack_one_N R bs s [] p l log H P N) as B. destruct (ackSentPacket bs s p) as [bs1 s1]. destruct A as (A1 & _). destruct B as (B1 & B2). specialize (IH bs1 s1 a A1 P B1). destruct (ackLoop bs1 s1 a l) as [[bs' s'] l']. rewrite B2 in IH. exact IH.
Qed.

Lemma ackOne_N R log l2 : forall l1 bs s a, list_ok R bs (l1 ++ l2) log -> Forall psize log -> 0 < workingMaxSize s <= 1452 -> let '(bs', s', l') := ackOne bs s a l2 in 0 < workingMaxSize s' <= 1452 /\ zlen bs' = zlen bs.
Proof.
  induction l2 as [|p l2 IH]; intros l1 bs s a H P N; cbn [ackOne]; [auto|]. destruct (idLowerThan (sequenceOf p) a).
  - specialize (IH (l1 ++ [p]) bs s a). rewrite <- app_assoc in IH. cbn [app] in IH. specialize (IH H P N). destruct (ackOne bs s a l2) as [[bs' s'] l']. exact IH.
  - destruct (sequenceOf p =? a); [|auto]. pose proof (ack_one_N R bs s l1 p l2 log H P N) as B. destruct (ackSentPacket bs s p) as [bs1 s1]. exact B.
Qed.

Lemma ackEach_N R log acks : forall l bs s, list_ok R bs l log -> Forall psize log -> 0 < workingMaxSize s <= 1452 -> let '(bs', s', l') := ackEach bs s l acks in 0 < workingMaxSize s' <= 1452 /\ zlen bs' = zlen bs.
Proof.
  induction acks as [|a acks IH]; intros l bs s H P N; cbn [ackEach]; [auto|]. pose proof (ackOne_ok R log l [] bs s a H) as A. pose proof (ackOne_N R log l [] bs s a H P N) as B. destruct (ackOne bs s a l) as [[bs1 s1] l1]. destruct A as (A1 & _). destruct B as (B1 & B2). specialize (IH l1 bs1 s1 A1 P B1). destruct (ackEach bs1 s1 l1 acks) as [[bs' s'] l']. rewrite B2 in IH. exact IH.
Qed.

Lemma exts_N q0 W c m es : forall st, SI q0 W st -> NI c st -> NI c (fold_left (fun st '(t, c) => if t =? 1 then ackSelective st m c else st) es st).
Proof.
  induction es as [|[t k] es IH]; intros st H N; cbn [fold_left]; [assumption|]. destruct (t =? 1); [|auto]. destruct (ackSelective_ok q0 W st m k H) as (A & _). apply IH; [assumption|].
  unfold ackSelective. destruct N as (N1 & N2 & N3). pose proof (ackEach_N (ridx st) _ (ackedNumbers (ack_nr m) k) (sentData (snd_ st)) (bufs st) (snd_ st) (proj1 H) N2 N1) as B. destruct (ackEach (bufs st) (snd_ st) (sentData (snd_ st)) _) as [[bs s] l]. destruct B as (B1 & B2).
  assert (Q : NI c (withSending st bs (setSent s l (duplicateAckCounter s) (last_ack s)))) by (refine (conj B1 (conj N2 _)); cbn [withSending bufs outs]; lia). destruct (2 <? _)%nat; [now apply resend_N|assumption].
Qed.

Lemma updateState_N q0 W c st m : SI q0 W st -> NI c st -> zlen W + c <= 65536 -> exists st' b, updateState st m = Some (st', b) /\ NI c st'.
Proof.
  intros H N B. unfold updateState. destruct ((mtype m =? 0) && idLowerThan (seq_nr m) (ack (rcv st))); [eauto|].
  destruct (ackSentDataBuffer (bufs st) (snd_ st) m) as [bs s] eqn:A. destruct (ackDataBuffer_ok q0 W st m bs s H A) as (A1 & _).
  assert (N1 : NI c (withSending st bs s)).
  { unfold ackSentDataBuffer in A. destruct N as (N1 & N2 & N3). pose proof (ackLoop_N (ridx st) _ (sentData (snd_ st)) (bufs st) (snd_ st) (ack_nr m) (proj1 H) N2 N1) as L. destruct (ackLoop (bufs st) (snd_ st) (ack_nr m) (sentData (snd_ st))) as [[bs1 s1] l1]. destruct L as (L1 & L2).
    destruct (_ <? _)%nat; [injection A as <- <-|destruct (_ && _); injection A as <- <-]; (refine (conj L1 (conj N2 _)); cbn [withSending bufs outs]; lia). }
  set (st1 := withSending st bs s) in *.
  set (st2 := match step st with SYN_SEND => setWnd st1 (wnd m) CONNECTED (u16 (seq_nr m - 1)) (ack_nr m) | SYN_RECV => setWnd st1 (wnd m) CONNECTED (ack (rcv st1)) (ack_nr m) | sp => setWnd st1 (wnd m) sp (ack (rcv st1)) (last_ack s) end) in *.
  assert (B1 : SI q0 W st2) by (subst st2; destruct (step st); exact A1). assert (B2 : NI c st2) by (subst st2; destruct (step st); exact N1). clearbody st2.
  destruct (exts_ok q0 W m (exts m) st2 B1) as (C1 & _ & _). pose proof (exts_N q0 W c m (exts m) st2 B1 B2) as C2. destruct (flushSend_N q0 W c _ C1 C2 B) as (st4 & F & N4). rewrite F. eauto.
Qed.
