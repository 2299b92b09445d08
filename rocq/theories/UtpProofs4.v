From Coq Require Import Sorted Permutation.
From Verif Require Import Base BaseLemmas UtpModel UtpSpec UtpProofs UtpProofs2 UtpProofs3.

(** * Timeout, FIN, RESET *)

Lemma timeout_ok q0 W st : SI q0 W st -> SI q0 W (timeout st) /\ rsame st (timeout st) /\ step (timeout st) = step st /\ kept (timeout st) = kept st.
Proof.
  intros H. unfold timeout. destruct (0 <? _); [|refine (conj H (conj (rsame_refl st) (conj eq_refl eq_refl)))].
  set (l := map _ (sentData (snd_ st))).
  assert (Li : map bufferIdx l = map bufferIdx (sentData (snd_ st))) by (unfold l; now rewrite map_map).
  assert (Le : map (ent (bufs st)) l = map (ent (bufs st)) (sentData (snd_ st))) by (unfold l; rewrite map_map; reflexivity).
  destruct H as ((U & S & L) & H2 & H3 & H4 & H5 & H6 & H7). set (st' := withSending st (bufs st) (setSent (snd_ st) l (duplicateAckCounter (snd_ st)) (last_ack (snd_ st)))).
  assert (H' : SI q0 W st'). { unfold SI, list_ok, held_back, st', withSending, setSent, ridx in *. cbn [snd_ outs bufs rcv sentData sentDataWithoutAckSize prepared bufferPos sequence] in *. rewrite (size_ext _ _ _ Li), Li, Le. exact (conj (conj U (conj S (long_ext _ _ _ Li L))) (conj H2 (conj H3 (conj H4 (conj H5 (conj H6 H7)))))). }
  assert (K : kept st' = kept st) by exact Le. assert (Rs : rsame st st') by (split; [reflexivity|intros j Hj; reflexivity]).
  destruct l as [|p l']; [refine (conj H' (conj Rs (conj eq_refl K)))|]. destruct (resend_ok q0 W st' (sequenceOf p) H') as (A & B & C & _). refine (conj A (conj (rsame_trans _ _ _ Rs B) (conj _ _))); [exact C|]. rewrite resend_kept. exact K.
Qed.

Lemma clear_bufs R l : forall bs, used_ok bs (R ++ map bufferIdx l) -> let bs' := fold_left (fun bs p => upd (bufferIdx p) [] bs) l bs in used_ok bs' R /\ same_on R bs bs' /\ length bs' = length bs.
Proof.
  induction l as [|p l IH]; intros bs U; cbn [fold_left map] in *; [rewrite app_nil_r in U; refine (conj U (conj _ eq_refl)); intros j Hj; reflexivity|].
  assert (Ni : ~ In (bufferIdx p) (R ++ map bufferIdx l)) by (destruct U as [N _]; now apply NoDup_remove_2 in N).
  assert (U' : used_ok bs (R ++ map bufferIdx l)) by (eapply used_part; [|exact U]; apply sub_app; [apply sub_refl|apply sub_skip, sub_refl]).
  destruct (used_clear bs _ _ Ni U') as (C1 & C2). destruct (IH _ C1) as (I1 & I2 & I3). refine (conj I1 (conj _ _)); [|now rewrite I3, upd_length]. apply (same_trans _ _ _ _ (fun j Hj => C2 j (in_or_app _ _ _ (or_introl Hj))) I2).
Qed.

Lemma clear_ok q0 W st : SI q0 W st -> (exists W', SI q0 W' (clearSendData st) /\ zlen W' <= zlen W) /\ rsame st (clearSendData st) /\ step (clearSendData st) = step st.
Proof.
  intros ((U & S & L) & H2 & H3 & H4 & H5 & H6 & H7). destruct (clear_bufs _ _ _ U) as (C1 & C2 & C3). split; [|split; [split; [reflexivity|exact C2]|reflexivity]].
  exists (concat (map snd (firsts (outs st)))). split; [|rewrite <- H3, zlen_app; pose proof (zlen_nonneg (held_back st)); lia].
  unfold SI, list_ok, held_back, clearSendData, ridx in *. cbn [snd_ outs bufs rcv sentData sentDataWithoutAckSize prepared bufferPos sequence map] in *. rewrite !app_nil_r.
  refine (conj (conj C1 (conj (sub_none _) (Forall_nil _))) (conj eq_refl (conj _ (conj _ (conj H5 (conj H6 H7)))))); [cbn; rewrite ?app_nil_r; reflexivity|unfold zlen; cbn; lia].
Qed.

(** * The receive side, event by event *)

Section Receive.
Variable P : list (list Z).
Variable s0 : Z.
Hypothesis Pne : Forall (fun p => p <> []) P.

Lemma RI_rsame n ks rest st st' : RI P s0 n ks rest st -> rsame st st' -> step st' = step st -> RI P s0 n ks rest st'.
Proof.
  intros (R1 & R2 & R3 & R4 & R5 & R6 & R7) (E1 & E2) E3. unfold RI, delivered in *. rewrite E1, E3. refine (conj R1 (conj R2 (conj R3 (conj R4 (conj _ (conj R6 R7)))))).
  apply (stored_same P _ (bufs st)); [|exact R5]. intros x Hx. apply E2. rewrite (ridx_tag s0 _ _ _ R4). apply in_or_app. left. now apply in_map.
Qed.

Lemma RI_update n ks rest st m st' b : RI P s0 n ks rest st -> SJ st -> updateState st m = Some (st', b) -> (step st = SYN_SEND -> seq_nr m = number s0 0) ->
  RI P s0 n ks rest st' /\ SJ st' /\ (b = true -> step st' <> SYN_SEND) /\ (step st <> CLOSED -> step st' <> CLOSED) /\ (b = false -> st' = st /\ idLowerThan (seq_nr m) (ack (rcv st)) = true).
Proof.
  intros (R1 & R2 & R3 & R4 & R5 & R6 & R7) (q0 & W & J) E Sy. destruct (updateState_ok q0 W st m st' b J E) as (U1 & U2 & U3 & U4 & _ & U6 & U7 & U8 & U9 & U10 & _).
  split; [|split; [exists q0, W; assumption|]].
  - destruct b.
    + specialize (U10 eq_refl). unfold RI, delivered in *. rewrite U2, U3, U4. refine (conj R1 (conj R2 (conj R3 (conj R4 (conj _ (conj _ _)))))).
      * apply (stored_same P _ (bufs st)); [|exact R5]. intros x Hx. apply U6. rewrite (ridx_tag s0 _ _ _ R4). apply in_or_app. left. now apply in_map.
      * intros _ N. destruct (step st) eqn:T.
        -- rewrite U9 by reflexivity. rewrite (Sy eq_refl). destruct (R7 eq_refl) as (-> & _). unfold u16, number. lia.
        -- rewrite U8 by discriminate. apply R6; discriminate.
        -- rewrite U8 by discriminate. apply R6; discriminate.
        -- rewrite U8 by discriminate. apply R6; discriminate.
        -- congruence.
      * intros Q. rewrite U10 in Q. destruct (step st); discriminate.
    + destruct (U7 eq_refl) as (-> & _). exact (conj R1 (conj R2 (conj R3 (conj R4 (conj R5 (conj R6 R7)))))).
  - split; [intros ->; rewrite (U10 eq_refl); destruct (step st); discriminate|]. split; [|intros ->; destruct (U7 eq_refl) as (A & _ & B); auto]. intros N. destruct b; [rewrite (U10 eq_refl); destruct (step st); congruence|destruct (U7 eq_refl) as (-> & _); assumption].
Qed.

(** What an event does to the packets that arrived. *)
Definition live (n : nat) (ks : list (nat * nat)) (k : nat) : Prop := (k < n)%nat \/ exists j, In (j, k) ks.

Lemma event_ok n ks rest st e st' : RI P s0 n ks rest st -> SJ st -> do_event st e = Some st' ->
  (forall m, e = Packet m -> mtype m = 0 -> exists k, carries P s0 m k /\ near P st k) -> (forall m, e = Packet m -> step st = SYN_SEND -> (mtype m = 0 \/ mtype m = 2 -> seq_nr m = number s0 0) /\ mtype m <> 1) ->
  exists n' ks' rest', (n <= n')%nat /\ RI P s0 n' ks' rest' st' /\ SJ st' /\
  (step st <> SYN_SEND -> step st <> CLOSED -> e <> Close -> rest = [] -> (forall x, In x ks -> number s0 (snd x) <> 0) -> (forall m, e = Packet m -> mtype m = 0 -> seq_nr m = 0 -> exists k, carries P s0 m k /\ near P st k /\ k = n) ->
   step st' <> SYN_SEND /\ step st' <> CLOSED /\ rest' = [] /\ (forall x, In x ks' -> number s0 (snd x) <> 0) /\ (forall k, live n ks k -> live n' ks' k) /\
   (forall m, e = Packet m -> mtype m = 0 -> forall k, carries P s0 m k -> near P st k -> live n' ks' k)).
Proof using Pne.
  intros R J E G Sy. assert (R0 := R). destruct R0 as (R1 & R2 & R3 & R4 & R5 & R6 & R7).
  assert (Same : RI P s0 n ks rest st' -> SJ st' -> step st' = step st -> (forall m, e = Packet m -> mtype m <> 0) -> exists n' ks' rest', (n <= n')%nat /\ RI P s0 n' ks' rest' st' /\ SJ st' /\
     (step st <> SYN_SEND -> step st <> CLOSED -> e <> Close -> rest = [] -> (forall x, In x ks -> number s0 (snd x) <> 0) -> (forall m, e = Packet m -> mtype m = 0 -> seq_nr m = 0 -> exists k, carries P s0 m k /\ near P st k /\ k = n) ->
     step st' <> SYN_SEND /\ step st' <> CLOSED /\ rest' = [] /\ (forall x, In x ks' -> number s0 (snd x) <> 0) /\ (forall k, live n ks k -> live n' ks' k) /\ (forall m, e = Packet m -> mtype m = 0 -> forall k, carries P s0 m k -> near P st k -> live n' ks' k))).
  { intros A B C D. exists n, ks, rest. refine (conj (le_n _) (conj A (conj B _))). intros Q1 Q2 Q3 Q4 Q5 Q6. rewrite C. refine (conj Q1 (conj Q2 (conj Q4 (conj Q5 (conj (fun k X => X) _))))). intros m Em T. exfalso. exact (D m Em T). }
  destruct e as [d grow|m|cn| |]; cbn [do_event] in E.
  - destruct (step st) eqn:T; try (destruct J as (q0 & W & J); destruct (write_ok q0 W st d grow st' J ltac:(congruence) E) as (A & B & C); rewrite <- T in *; apply Same; [now apply (RI_rsame _ _ _ st)|exists q0, (W ++ d); assumption|assumption|discriminate]).
    unfold write in E. rewrite T in E. injection E as <-. rewrite <- T in *. apply Same; [assumption|assumption|reflexivity|discriminate].
  - unfold readUdpPacket in E. specialize (G m eq_refl). specialize (Sy m eq_refl). destruct (Z.eqb_spec (mtype m) 2) as [T2|T2].
    { destruct (updateState st m) as [[st1 b]|] eqn:U; [|discriminate]. injection E as <-. destruct (RI_update n ks rest st m st1 b R J U (fun Q => proj1 (Sy Q) (or_intror T2))) as (A & B & C & D & F).
      exists n, ks, rest. refine (conj (le_n _) (conj A (conj B _))). intros Q1 Q2 _ Q4 Q5 _. refine (conj _ (conj (D Q2) (conj Q4 (conj Q5 (conj (fun k X => X) _))))); [|intros m' Em T; injection Em as <-; lia]. destruct b; [now apply C|destruct (F eq_refl) as (-> & _); assumption]. }
    destruct (Z.eqb_spec (mtype m) 0) as [T0|T0].
    + destruct (G T0) as (k & (K1 & K2 & K3) & K4). assert (Pk : payload m <> []) by (rewrite K2; rewrite Forall_forall in Pne; apply Pne; now apply nth_In). pose proof (K4 n R1 R2) as Wk.
      assert (Uniq : forall k', carries P s0 m k' -> near P st k' -> k' = k). { intros k' (C1 & C2 & C3) C4. specialize (C4 n R1 R2). rewrite C1 in K1. apply Z.eqb_eq in K1. rewrite number_eq in K1 by lia. apply Z.eqb_eq in K1. lia. }
      destruct (payload m) as [|x pl] eqn:Ep; [congruence|]. destruct (updateState st m) as [[st1 b]|] eqn:U; [|discriminate]. destruct (RI_update n ks rest st m st1 b R J U (fun Q => proj1 (Sy Q) (or_introl T0))) as (A & B & C & D & F). destruct b.
      * assert (A' := A). destruct A' as (A1 & A2 & A3 & A4 & A5 & A6 & A7). specialize (C eq_refl).
        destruct (step st1) eqn:T1; [congruence| | | |injection E as <-; exists n, ks, rest; refine (conj (le_n _) (conj A (conj B _))); intros Q1 Q2; exfalso; now apply (D Q2)].
        all: destruct (receiveData (bufs st1) (rcv st1) (seq_nr m) (x :: pl)) as [[bs r]|] eqn:Rd; [|discriminate]; injection E as <-; rewrite K1 in Rd; destruct (receive_ok P s0 Pne n ks rest st1 k (x :: pl) bs r A B ltac:(congruence) ltac:(congruence) K3 K2 Wk Rd) as (n' & ks' & rest' & I1 & I2 & I3 & I4); exists n', ks', rest'; refine (conj I1 (conj I2 (conj I3 _))); intros Q1 Q2 Q3 Q4 Q5 Q6; destruct (I4 Q4 Q5) as (I5 & I6 & I7 & I8); cbn [setRecv step]; rewrite T1; refine (conj _ (conj _ (conj I5 (conj _ (conj _ _))))); [discriminate|discriminate| | |].
        all: try (intros k' [Q|(j & Q)]; [left; lia|destruct (I6 _ Q) as [Q'|Q']; [left; exact Q'|right; exists j; exact Q']]).
        all: try (intros m' Em T k' Ck Nk; injection Em as <-; rewrite (Uniq k' Ck Nk); exact I7).
        all: apply I8; destruct (Z.eq_dec (number s0 k) 0) as [Zk|Zk]; [|now right]; left; destruct (Q6 m eq_refl T0 ltac:(congruence)) as (k' & Ck & Nk & ->); symmetry; now apply Uniq.
      * injection E as <-. destruct (F eq_refl) as (-> & Lw). exists n, ks, rest. refine (conj (le_n _) (conj R (conj J _))). intros Q1 Q2 Q3 Q4 Q5 Q6. refine (conj Q1 (conj Q2 (conj Q4 (conj Q5 (conj (fun k X => X) _))))).
        intros m' Em T k' Ck Nk. injection Em as <-. rewrite (Uniq k' Ck Nk). left. rewrite lower_higher, K1, (R6 Q1 Q2) in Lw.
        replace (s0 + Z.of_nat n - 1) with (s0 + Z.of_nat k + (Z.of_nat n - 1 - Z.of_nat k)) in Lw by lia. rewrite number_u16 in Lw. apply higher_spec in Lw. lia.
    + destruct (Z.eqb_spec (mtype m) 1) as [T1|T1].
      * destruct (step st) eqn:T.
        1: exfalso; now apply (proj2 (Sy eq_refl)).
        4: injection E as <-; rewrite <- T in *; apply Same; [assumption|assumption|reflexivity|intros m' Em; injection Em as <-; assumption].
        all: injection E as <-; destruct J as (q0 & W & J); assert (J' : SI q0 W (setStep st CLOSING)) by exact J; destruct (clear_ok q0 W _ J') as ((W' & A & _) & B & C); exists n, ks, rest; refine (conj (le_n _) (conj _ (conj (ex_intro _ q0 (ex_intro _ W' A)) _))).
        all: try (intros Q1 Q2 Q3 Q4 Q5 Q6; rewrite C; cbn [setStep step]; refine (conj _ (conj _ (conj Q4 (conj Q5 (conj (fun k X => X) _))))); [discriminate|discriminate|intros m' Em Tm; injection Em as <-; contradiction]).
        all: apply (RI_rsame _ _ _ (setStep st CLOSING)); [|exact B|exact C]; refine (conj R1 (conj R2 (conj R3 (conj R4 (conj R5 (conj _ _)))))); cbn [setStep step rcv]; [intros _ _; apply R6; congruence|discriminate].
      * destruct (Z.eqb_spec (mtype m) 3) as [T3|T3]; injection E as <-.
        -- destruct J as (q0 & W & J). destruct (clear_ok q0 W _ J) as ((W' & A & _) & B & C). apply Same; [now apply (RI_rsame _ _ _ st)|exists q0, W'; assumption|assumption|intros m' Em; injection Em as <-; assumption].
        -- apply Same; [assumption|assumption|reflexivity|intros m' Em; injection Em as <-; assumption].
  - injection E as <-. apply Same; [| |reflexivity|discriminate].
    + unfold RI, delivered, setRecv, readFinish in *. cbn [bufs rcv snd_ step]. destruct (appended (rcv st)); cbn [ack received receiveBuffer consumed]; [|exact R]. refine (conj R1 (conj _ (conj R3 (conj R4 (conj R5 (conj R6 R7)))))). rewrite <- app_assoc, firstn_skipn. exact R2.
    + destruct J as (q0 & W & J). exists q0, W. unfold SI, ridx, held_back, setRecv, readFinish in *. cbn [bufs rcv snd_ outs]. destruct (appended (rcv st)); exact J.
  - injection E as <-. destruct J as (q0 & W & J). destruct (timeout_ok q0 W st J) as (A & B & C & _). apply Same; [now apply (RI_rsame _ _ _ st)|exists q0, W; assumption|assumption|discriminate].
  - injection E as <-. exists n, ks, rest. refine (conj (le_n _) (conj _ (conj _ _))).
    + refine (conj R1 (conj R2 (conj R3 (conj R4 (conj R5 (conj _ _)))))); cbn [setStep step]; [congruence|discriminate].
    + destruct J as (q0 & W & J). exists q0, W. exact J.
    + intros Q1 Q2 Q3. congruence.
Qed.

Lemma run_ok es : forall n ks rest st st', RI P s0 n ks rest st -> SJ st -> genuine P s0 st es -> run st es = Some st' -> exists n' ks' rest', (n <= n')%nat /\ RI P s0 n' ks' rest' st' /\ SJ st'.
Proof using Pne.
  induction es as [|e es IH]; intros n ks rest st st' R J G E; cbn [run] in E; [injection E as <-; exists n, ks, rest; auto|].
  destruct (do_event st e) as [st1|] eqn:D; [|discriminate]. cbn [genuine] in G. destruct G as (G1 & G2 & G3). destruct (event_ok n ks rest st e st1 R J D G1 G2) as (n1 & ks1 & rest1 & A & B & C & _).
  destruct (IH n1 ks1 rest1 st1 st' B C (G3 _ D) E) as (n' & ks' & rest' & X & Y & Z). exists n', ks', rest'. split; [lia|auto].
Qed.

Lemma run_live es : forall n ks st st', RI P s0 n ks [] st -> SJ st -> genuine P s0 st es -> zero_in_order P s0 st es -> ~ In Close es -> step st <> SYN_SEND -> step st <> CLOSED -> (forall x, In x ks -> number s0 (snd x) <> 0) -> run st es = Some st' ->
  exists n' ks', (n <= n')%nat /\ RI P s0 n' ks' [] st' /\ (forall k, live n ks k -> live n' ks' k) /\ (forall k st1 m es1 es2, es = es1 ++ Packet m :: es2 -> run st es1 = Some st1 -> mtype m = 0 -> carries P s0 m k -> near P st1 k -> live n' ks' k).
Proof using Pne.
  induction es as [|e es IH]; intros n ks st st' R J G Z0 Nc S1 S2 Zk E; cbn [run] in E.
  - injection E as <-. exists n, ks. refine (conj (le_n _) (conj R (conj (fun k X => X) _))). intros k st1 m es1 es2 Q. destruct es1; discriminate.
  - destruct (do_event st e) as [st1|] eqn:D; [|discriminate]. cbn [genuine] in G. cbn [zero_in_order] in Z0. destruct G as (G1 & G2 & G3). destruct Z0 as (Z1 & Z2). destruct (event_ok n ks [] st e st1 R J D G1 G2) as (n1 & ks1 & rest1 & A & B & C & F).
    destruct (F S1 S2 ltac:(intros ->; apply Nc; now left) eq_refl Zk) as (F1 & F2 & -> & F4 & F5 & F6).
    { intros m Em T0 Sz. destruct (Z1 m Em T0 Sz) as (k & Ck & Nk & Dk). exists k. split; [assumption|]. split; [assumption|]. destruct R as (R1 & R2 & _). apply (concat_inj P Pne); [destruct Ck as (_ & _ & ?); lia|assumption|congruence]. }
    destruct (IH n1 ks1 st1 st' B C (G3 _ D) (Z2 _ D) ltac:(intros Q; apply Nc; now right) F1 F2 F4 E) as (n' & ks' & X1 & X2 & X3 & X4). exists n', ks'. refine (conj _ (conj X2 (conj _ _))); [lia|auto|].
    intros k sta m es1 es2 Q Rn T Ck Nk. destruct es1 as [|e1 es1]; cbn [app] in Q; injection Q as -> ->.
    + cbn [run] in Rn. injection Rn as <-. apply X3. now apply (F6 m eq_refl T).
    + cbn [run] in Rn. rewrite D in Rn. now apply (X4 k sta m es1 es2).
Qed.
End Receive.
