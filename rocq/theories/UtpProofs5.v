From Coq Require Import Sorted Permutation.
From Verif Require Import Base BaseLemmas UtpModel UtpSpec UtpProofs UtpProofs2 UtpProofs3 UtpProofs4.

(** * The send side, event by event *)

Lemma SI_recv q0 W st bs r : SI q0 W st -> used_ok bs (map fst (received r) ++ map bufferIdx (sentData (snd_ st))) -> (forall j, In j (map bufferIdx (sentData (snd_ st))) -> nth j bs [] = nth j (bufs st) []) -> SI q0 W (setRecv st bs r) /\ kept (setRecv st bs r) = kept st.
Proof.
  intros ((U & S & L) & B & C & D) N Sm. destruct (same_ent _ _ _ Sm) as (E1 & E2 & E3). split; [|exact E1]. unfold SI, list_ok, ridx, held_back, setRecv in *. cbn [bufs rcv snd_ outs] in *. rewrite E1, E2. exact (conj (conj N (conj S (E3 L))) (conj B (conj C D))).
Qed.

Lemma flush_sub bs rs : forall a out, let '(a', rs', out') := flushLoop bs a rs out in sub rs' rs.
Proof.
  induction rs as [|[i s] rs IH]; intros a out; cbn [flushLoop]; [constructor|]. destruct (s =? a + 1); [|apply sub_refl]. specialize (IH (u16 (a + 1)) (out ++ nth i bs [])). destruct (flushLoop bs (u16 (a + 1)) rs (out ++ nth i bs [])) as [[a' rs'] out']. now apply sub_skip.
Qed.

Lemma sub_map {A B} (f : A -> B) a b : sub a b -> sub (map f a) (map f b).
Proof. induction 1; cbn [map]; [constructor|now apply sub_skip|now apply sub_take]. Qed.

Lemma create_len bs c bs' i : createDataBuffer bs c = Some (bs', i) -> zlen bs' <= zlen bs + 1.
Proof.
  unfold createDataBuffer. destruct (findEmpty _ 0); [destruct (_ <? _); [|discriminate]; intros C; injection C as <- <-; unfold zlen; rewrite upd_length; lia|]. destruct (_ <=? _); [discriminate|]. intros C. injection C as <- <-. rewrite zlen_app. change (zlen [c]) with 1. lia.
Qed.

Lemma receive_SI q0 W st s data bs r : SI q0 W st -> data <> [] -> receiveData (bufs st) (rcv st) s data = Some (bs, r) -> SI q0 W (setRecv st bs r) /\ kept (setRecv st bs r) = kept st /\ zlen bs <= zlen (bufs st) + 1.
Proof.
  intros H N E. assert (U := proj1 (proj1 H)). unfold ridx in U. unfold receiveData in E. destruct (s =? _).
  - pose proof (flush_sub (bufs st) (received (rcv st)) (u16 (ack (rcv st) + 1)) (receiveBuffer (rcv st) ++ data)) as F. destruct (flushLoop _ _ _ _) as [[a' rs'] out']. injection E as <- <-.
    destruct (SI_recv q0 W st (bufs st) {| ack := a'; received := rs'; receiveBuffer := out'; consumed := consumed (rcv st); gotData := true; appended := true |} H) as (A & B); [cbn [received]; eapply used_part; [|exact U]; apply sub_app; [now apply sub_map|apply sub_refl]|reflexivity|]. split; [exact A|split; [exact B|lia]].
  - destruct (idHigherThan s (ack (rcv st))).
    + destruct (createDataBuffer (bufs st) data) as [[bs' i]|] eqn:C; [|discriminate]. injection E as <- <-. destruct (used_new _ _ _ _ _ C N U) as (X1 & X2 & X3).
      pose proof (create_len _ _ _ _ C) as Ln.
      match goal with |- SI q0 W (setRecv st bs' ?r) /\ _ => destruct (SI_recv q0 W st bs' r H) as (A & B) end.
      * cbn [received]. destruct (insertReceived (i, s) (received (rcv st))) as [rs|] eqn:Ei.
        -- apply insert_perm in Ei. eapply perm_used; [|exact X2]. rewrite <- app_assoc. eapply Permutation_trans; [apply Permutation_app_head, Permutation_app_comm|]. rewrite app_assoc. apply Permutation_app_tail. apply Permutation_sym. eapply Permutation_trans; [apply (Permutation_map fst Ei)|]. cbn [map fst]. apply Permutation_cons_append.
        -- eapply used_part; [|exact X2]. rewrite <- (app_nil_r (_ ++ _)) at 1. apply sub_app; [apply sub_refl|apply sub_none].
      * intros j Hj. apply X3. apply in_or_app. now right.
      * split; [exact A|split; [exact B|exact Ln]].
    + injection E as <- <-. destruct (SI_recv q0 W st (bufs st) (rcv st) H U (fun j _ => eq_refl)) as (A & B). split; [exact A|split; [exact B|lia]].
Qed.

Lemma receive_total bs r s data : zlen bs < 65536 -> exists x, receiveData bs r s data = Some x.
Proof.
  intros H. unfold receiveData. destruct (s =? _); [destruct (flushLoop _ _ _ _) as [[? ?] ?]; eauto|]. destruct (idHigherThan s (ack r)); [|eauto]. destruct (create_total bs data H) as (bs' & i & C & _). rewrite C. eauto.
Qed.

Lemma stepType_eq_dec (a b : stepType) : {a = b} + {a <> b}. Proof. decide equality. Qed.

Lemma acked_spec s a : idHigherThan s a = false -> ~ (0 < (s - a) mod 65536 < 32768).
Proof. unfold idHigherThan. lia. Qed.

(** One event: what was written, and what is forgotten. *)
Lemma event_send q0 W st e st' : SI q0 W st -> do_event st e = Some st' ->
  (exists W', SI q0 W' st' /\ zlen W' <= zlen W + zlen (written [e]) /\ (not_ending e -> step st <> CLOSED -> W' = W ++ written [e] /\ step st' <> CLOSED)) /\
  (not_ending e -> forall x, In x (kept st) -> In x (kept st') \/ exists m, e = Packet m /\ (mtype m = 0 \/ mtype m = 2) /\ (acknowledged m (fst x) \/ selected m (fst x))).
Proof.
  intros H E. destruct e as [d grow|m|cn| |]; cbn [do_event] in E.
  - change (written [Write d grow]) with (d ++ []). rewrite app_nil_r. destruct (stepType_eq_dec (step st) CLOSED) as [T|T].
    + unfold write in E. rewrite T in E. injection E as <-. split; [exists W; split; [assumption|]; split; [pose proof (zlen_nonneg d); lia|congruence]|auto].
    + destruct (write_ok q0 W st d grow st' H T E) as (A & _ & C). split; [exists (W ++ d); split; [assumption|]; split; [rewrite zlen_app; lia|]; intros _ _; split; [reflexivity|congruence]|].
      intros _ x Hx. left. apply SI_split in H. destruct H as (W0 & H & _). unfold write in E. assert (exists l, kept st' = kept st ++ l) as (l & ->) by (destruct (step st); try congruence; eapply writeLoop_kept; eassumption). apply in_or_app. now left.
  - change (written [Packet m]) with (@nil Z). rewrite app_nil_r. unfold readUdpPacket in E.
    assert (UK : forall st1 b, updateState st m = Some (st1, b) -> SI q0 W st1 /\ (step st <> CLOSED -> step st1 <> CLOSED) /\ (forall x, In x (kept st) -> In x (kept st1) \/ (acknowledged m (fst x) \/ selected m (fst x)))).
    { intros st1 b U. destruct (updateState_ok q0 W st m st1 b H U) as (A & _ & _ & _ & _ & _ & B & _ & _ & C & _). split; [assumption|]. split; [intros T; destruct b; [rewrite (C eq_refl); destruct (step st); congruence|destruct (B eq_refl) as (-> & _); assumption]|].
      intros x Hx. destruct (updateState_kept q0 W st m st1 b H U) as ((l0 & k1 & k2 & l3 & K1 & K2 & K3 & K4 & K5) & _). rewrite K1 in Hx. rewrite K5. apply in_app_or in Hx. destruct Hx as [Hx|Hx].
      - right. left. rewrite Forall_forall in K2. apply acked_spec. now apply K2.
      - destruct (K4 x Hx) as [Q|Q]; [left; apply in_or_app; now left|right; now right]. }
    destruct (Z.eqb_spec (mtype m) 2) as [T2|T2].
    { destruct (updateState st m) as [[st1 b]|] eqn:U; [|discriminate]. injection E as <-. destruct (UK _ _ eq_refl) as (A & B & C). split; [exists W; split; [assumption|]; split; [change (zlen (@nil Z)) with 0; lia|]; intros _ T; auto|].
      intros _ x Hx. destruct (C x Hx); [now left|right; exists m; auto]. }
    destruct (Z.eqb_spec (mtype m) 0) as [T0|T0].
    { destruct (payload m) as [|y pl] eqn:Ep; [injection E as <-; split; [exists W; split; [assumption|]; split; [change (zlen (@nil Z)) with 0; lia|auto]|auto]|].
      destruct (updateState st m) as [[st1 b]|] eqn:U; [|discriminate]. destruct (UK _ _ eq_refl) as (A & B & C).
      assert (D : st' = st1 \/ exists bs r, receiveData (bufs st1) (rcv st1) (seq_nr m) (y :: pl) = Some (bs, r) /\ st' = setRecv st1 bs r).
      { destruct b; [|injection E as <-; now left]. destruct (step st1); try (destruct (receiveData (bufs st1) (rcv st1) (seq_nr m) (y :: pl)) as [[bs r]|]; [|discriminate]; injection E as <-; right; exists bs, r; auto). injection E as <-. now left. }
      assert (F : SI q0 W st' /\ kept st' = kept st1 /\ step st' = step st1). { destruct D as [->|(bs & r & D & ->)]; [auto|]. destruct (receive_SI q0 W st1 (seq_nr m) (y :: pl) bs r A ltac:(discriminate) D) as (F1 & F2 & _). auto. }
      destruct F as (F1 & F2 & F3). rewrite F2, F3. split; [exists W; split; [assumption|]; split; [change (zlen (@nil Z)) with 0; lia|]; auto|]. intros _ x Hx. destruct (C x Hx); [now left|right; exists m; auto]. }
    destruct (Z.eqb_spec (mtype m) 1) as [T1|T1].
    { split; [|cbn; tauto]. assert (D : st' = st \/ st' = clearSendData (setStep st CLOSING)) by (destruct (step st); injection E as <-; auto). destruct D as [->| ->].
      - exists W. split; [assumption|]. split; [change (zlen (@nil Z)) with 0; lia|]. cbn; tauto.
      - assert (J' : SI q0 W (setStep st CLOSING)) by exact H. destruct (clear_ok q0 W _ J') as ((W' & A & B) & _). exists W'. split; [assumption|]. split; [change (zlen (@nil Z)) with 0; lia|]. cbn; tauto. }
    destruct (Z.eqb_spec (mtype m) 3) as [T3|T3]; injection E as <-.
    + split; [|cbn; tauto]. destruct (clear_ok q0 W _ H) as ((W' & A & B) & _). exists W'. split; [assumption|]. split; [change (zlen (@nil Z)) with 0; lia|]. cbn; tauto.
    + split; [exists W; split; [assumption|]; split; [change (zlen (@nil Z)) with 0; lia|auto]|auto].
  - injection E as <-. change (written [Finish cn]) with (@nil Z). rewrite app_nil_r. split; [|auto]. exists W. split; [|split; [change (zlen (@nil Z)) with 0; lia|auto]].
    unfold SI, ridx, held_back, setRecv, readFinish in *. cbn [bufs rcv snd_ outs]. destruct (appended (rcv st)); exact H.
  - injection E as <-. change (written [Timeout]) with (@nil Z). rewrite app_nil_r. destruct (timeout_ok q0 W st H) as (A & _ & C & D). rewrite D. split; [|auto]. exists W. split; [assumption|]. split; [change (zlen (@nil Z)) with 0; lia|]. rewrite C. auto.
  - injection E as <-. change (written [Close]) with (@nil Z). rewrite app_nil_r. split; [|auto]. exists W. split; [exact H|]. split; [change (zlen (@nil Z)) with 0; lia|]. cbn; tauto.
Qed.

Lemma written_cons e es : written (e :: es) = written [e] ++ written es.
Proof. unfold written. cbn [flat_map]. now rewrite app_nil_r. Qed.

Lemma run_send q0 es : forall W st st', SI q0 W st -> step st <> CLOSED -> Forall not_ending es -> run st es = Some st' -> SI q0 (W ++ written es) st'.
Proof.
  induction es as [|e es IH]; intros W st st' H N F E; cbn [run] in E; [injection E as <-; now rewrite app_nil_r|]. destruct (do_event st e) as [st1|] eqn:D; [|discriminate]. inversion F; subst.
  destruct (event_send q0 W st e st1 H D) as ((W' & A & _ & B) & _). destruct (B ltac:(assumption) N) as (-> & N'). rewrite written_cons, app_assoc. now apply (IH _ st1).
Qed.

Lemma run_send_any q0 es : forall W st st', SI q0 W st -> run st es = Some st' -> exists W', SI q0 W' st'.
Proof.
  induction es as [|e es IH]; intros W st st' H E; cbn [run] in E; [injection E as <-; eauto|]. destruct (do_event st e) as [st1|] eqn:D; [|discriminate]. destruct (event_send q0 W st e st1 H D) as ((W' & A & _) & _). now apply (IH W' st1).
Qed.

Lemma new_SI sp q a : 0 <= q < 65536 -> SI q [] (newStream sp q a).
Proof.
  intros H. unfold SI, list_ok, held_back, ridx, long, used_ok. cbn. refine (conj (conj (conj _ _) (conj _ _)) (conj eq_refl (conj eq_refl (conj _ (conj eq_refl (conj _ _)))))); try constructor.
  - lia.
  - unfold zlen; cbn; lia.
  - unfold zlen. cbn. rewrite Z.add_0_r. symmetry. now apply Z.mod_small.
  - intros x [].
Qed.

(** * No hanging *)

Lemma event_N q0 W c st e : SI q0 W st -> NI c st -> zlen W + zlen (written [e]) + c + data_packets [e] <= 65536 -> exists st', do_event st e = Some st' /\ NI (c + data_packets [e]) st'.
Proof.
  intros H N B. assert (Up : forall st, NI c st -> NI (c + data_packets [e]) st). { intros s (N1 & N2 & N3). refine (conj N1 (conj N2 _)). assert (0 <= data_packets [e]) by (unfold data_packets; destruct e; cbn; try lia; destruct (mtype m =? 0); lia). lia. }
  destruct e as [d grow|m|cn| |]; cbn [do_event].
  - change (written [Write d grow]) with (d ++ []) in B. rewrite app_nil_r in B. change (data_packets [Write d grow]) with 0 in *. apply SI_split in H. destruct H as (W0 & M & -> & P). rewrite zlen_app in B. pose proof (zlen_nonneg (held_back st)).
    unfold write. destruct (step st); try (destruct (writeLoop_N q0 c grow (length d) st d W0 M N ltac:(lia) ltac:(lia)) as (st' & X & Y); rewrite X; eexists; split; [reflexivity|now apply Up]). eexists. split; [reflexivity|now apply Up].
  - change (written [Packet m]) with (@nil Z) in B. change (zlen (@nil Z)) with 0 in B. unfold data_packets in B. cbn [map fold_right] in B. unfold readUdpPacket.
    assert (0 <= (if mtype m =? 0 then 1 else 0)) by (destruct (mtype m =? 0); lia). destruct (updateState_N q0 W c st m H N ltac:(lia)) as (st1 & b & U & N1). rewrite U. destruct (updateState_ok q0 W st m st1 b H U) as (A & _).
    destruct (mtype m =? 2); [eexists; split; [reflexivity|now apply Up]|]. destruct (mtype m =? 0) eqn:T0.
    + destruct (payload m) as [|y pl] eqn:Ep; [eexists; split; [reflexivity|now apply Up]|]. destruct b; [|eexists; split; [reflexivity|now apply Up]].
      destruct N1 as (M1 & M2 & M3). pose proof (log_length _ M2) as LL. assert (W1 : zlen (concat (map snd (firsts (outs st1)))) <= zlen W) by (destruct A as (_ & _ & <- & _); rewrite zlen_app; pose proof (zlen_nonneg (held_back st1)); lia).
      destruct (receive_total (bufs st1) (rcv st1) (seq_nr m) (y :: pl) ltac:(lia)) as ([bs r] & Rd). rewrite Rd. destruct (receive_SI q0 W st1 (seq_nr m) (y :: pl) bs r A ltac:(discriminate) Rd) as (_ & _ & Ln).
      assert (G : NI (c + 1) (setRecv st1 bs r)) by (refine (conj M1 (conj M2 _)); cbn [setRecv bufs outs]; lia). assert (G' : data_packets [Packet m] = 1) by (unfold data_packets; cbn [map fold_right]; rewrite T0; reflexivity).
      destruct (step st1); eexists; (split; [reflexivity|]); rewrite G'; try exact G. refine (conj M1 (conj M2 _)). lia.
    + assert (Cl : forall s, SI q0 W s -> NI c s -> NI (c + data_packets [Packet m]) (clearSendData s)). { intros s Hs Ns. apply Up. destruct Ns as (M1 & M2 & M3). refine (conj M1 (conj M2 _)). cbn [clearSendData bufs outs]. destruct (clear_bufs _ _ _ (proj1 (proj1 Hs))) as (_ & _ & C3). unfold zlen in *. rewrite C3. exact M3. }
      destruct (mtype m =? 1); [destruct (step st); eexists; (split; [reflexivity|]); try (apply Cl; [exact H|exact N]); now apply Up|]. destruct (mtype m =? 3); eexists; (split; [reflexivity|]); [now apply Cl|now apply Up].
  - eexists. split; [reflexivity|]. apply Up. exact N.
  - eexists. split; [reflexivity|]. apply Up. unfold timeout. destruct (0 <? _); [|exact N]. destruct (map _ (sentData (snd_ st))) as [|p l]; [exact N|]. apply resend_N. exact N.
  - eexists. split; [reflexivity|]. apply Up. exact N.
Qed.

Lemma data_nonneg es : 0 <= data_packets es.
Proof. unfold data_packets. induction es as [|e es IH]; cbn [map fold_right]; [lia|]. destruct e; try lia. destruct (mtype m =? 0); lia. Qed.
Lemma data_cons e es : data_packets (e :: es) = data_packets [e] + data_packets es.
Proof. unfold data_packets. cbn [map fold_right]. lia. Qed.

Lemma run_N q0 es : forall W c st, SI q0 W st -> NI c st -> zlen W + zlen (written es) + c + data_packets es <= 65536 -> exists st' c', run st es = Some st' /\ NI c' st'.
Proof.
  induction es as [|e es IH]; intros W c st H N B; cbn [run]; [eauto|]. rewrite written_cons, zlen_app, data_cons in B. pose proof (data_nonneg es). pose proof (zlen_nonneg (written es)).
  destruct (event_N q0 W c st e H N ltac:(lia)) as (st1 & D & N1). rewrite D. destruct (event_send q0 W st e st1 H D) as ((W' & A & L & _) & _). apply (IH W' (c + data_packets [e]) st1 A N1). lia.
Qed.

Lemma run_NI q0 es : forall W c st st', SI q0 W st -> 0 < workingMaxSize (snd_ st) <= 1452 -> Forall psize (firsts (outs st)) -> run st es = Some st' -> zlen W + zlen (written es) + c + data_packets es <= 65536 -> zlen (bufs st) <= zlen (firsts (outs st)) + c -> Forall psize (firsts (outs st')).
Proof. intros W c st st' H A B E L C. destruct (run_N q0 es W c st H (conj A (conj B C)) L) as (st2 & c' & E2 & (_ & N & _)). congruence. Qed.

Lemma kept_size_ok q0 W st : SI q0 W st -> u64 (sentDataWithoutAckSize (snd_ st)) = u64 (kept_size st).
Proof.
  intros ((_ & _ & L) & B & _). assert (E : kept_size st = size_of (bufs st) (sentData (snd_ st))).
  { unfold kept_size, size_of. rewrite kept_ent, map_map. f_equal. apply map_ext_in. intros p Hp. unfold ent. unfold long in L. rewrite Forall_forall in L. specialize (L p Hp). unfold zlen. rewrite skipn_length. lia. }
  rewrite E. unfold u64 in *. lia.
Qed.
