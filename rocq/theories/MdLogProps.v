(** C113: the log of a metadata download. *)
From Verif Require Import Base BaseLemmas Dec DecLemmas HexModel HexSpec HexProofs MetadataModel MdLogModel MdLogSpec.

Lemma wrun_app ids a : forall w b, wrun ids w (a ++ b) = bind (wrun ids w a) (fun w' => wrun ids w' b).
Proof.
  induction a as [|c a IH]; intros w b; [reflexivity|]. cbn [app wrun]. destruct (wstep ids w c); [|reflexivity]. cbn [bind]. apply IH.
Qed.

Lemma wstep_event ids w e w' : wstep ids w (CEvent e) = Ok w' ->
  mstep (dl (wl w)) e = Ok (dl (wl w')) /\ eventLog (wl w') = eventLog (wl w) ++ logOf (dl (wl w)) e /\ wTexts w' = wTexts w /\ wSeen w' = wSeen w.
Proof.
  cbn [wstep]. unfold lstep. destruct (mstep (dl (wl w)) e); [|discriminate]. cbn [bind]. intros [= <-]. auto.
Qed.

Lemma wstep_poll ids w w' : wstep ids w CPoll = Ok w' ->
  wl w' = wl w /\ wTexts w' = wTexts w ++ map (text ids) (skipn (wSeen w) (eventLog (wl w))) /\
  wSeen w' = (wSeen w + (length (eventLog (wl w)) - wSeen w))%nat.
Proof.
  cbn [wstep getDownloadLog]. unfold getDownloadLog, getEvents. cbv zeta. intros [= <-]. cbn [wl wTexts wSeen].
  destruct (Nat.leb_spec (length (eventLog (wl w))) (wSeen w)).
  - rewrite skipn_all2 by lia. cbn [length]. split; [reflexivity|]. split; [reflexivity|lia].
  - rewrite skipn_length. auto.
Qed.

(** With the log the download does what it does without, for each history. *)
Theorem C113_same_download : forall ids cs,
  match wrun ids noWorld cs with Ok w => mrun noMdl (events cs) = Ok (dl (wl w)) | UB => mrun noMdl (events cs) = UB end.
Proof.
  intros ids cs. change noMdl with (dl (wl noWorld)). generalize noWorld. induction cs as [|c cs IH]; intros w; [reflexivity|].
  cbn [wrun]. destruct c as [e|].
  - change (events (CEvent e :: cs)) with (e :: events cs). cbn [mrun]. destruct (wstep ids w (CEvent e)) as [w1|] eqn:S1.
    + destruct (wstep_event _ _ _ _ S1) as (M & _). rewrite M. cbn [bind]. apply IH.
    + cbn [wstep] in S1. unfold lstep in S1. destruct (mstep (dl (wl w)) e); [discriminate|]. reflexivity.
  - change (events (CPoll :: cs)) with (events cs). destruct (wstep ids w CPoll) as [w1|] eqn:S1; [|discriminate].
    destruct (wstep_poll _ _ _ S1) as (E & _). cbn [bind]. specialize (IH w1). rewrite E in IH. exact IH.
Qed.
Print Assumptions C113_same_download.

Lemma request_rec s p : rev (masked (requestPiece s p)) = rev (masked s) ++ requests (requested s p).
Proof.
  unfold requestPiece, requested. destruct (mact s && negb (mfin s)); [|cbn; rewrite app_nil_r; reflexivity].
  destruct (getMissingPieceIndex (mrec s)) as [r i]. reflexivity.
Qed.

Lemma requests_app a b : requests (a ++ b) = requests a ++ requests b.
Proof. apply flat_map_app. Qed.

Lemma retry_rec l : forall s, rev (masked (fold_left requestPiece l s)) = rev (masked s) ++ requests (retried l s).
Proof.
  induction l as [|p l IH]; intros s; cbn [fold_left retried]; [cbn; rewrite app_nil_r; reflexivity|].
  rewrite IH, request_rec, requests_app, app_assoc. reflexivity.
Qed.

(** The requests in the log are those that were sent, all of them in order. *)
Theorem C113_requests : forall ids cs w, wrun ids noWorld cs = Ok w -> requests (eventLog (wl w)) = rev (masked (dl (wl w))).
Proof.
  intros ids cs w R. assert (I0 : requests (eventLog (wl noWorld)) = rev (masked (dl (wl noWorld)))) by reflexivity.
  revert R I0. generalize noWorld. induction cs as [|c cs IH]; intros w0 R I0; [injection R as <-; exact I0|].
  cbn [wrun] in R. destruct (wstep ids w0 c) as [w1|] eqn:S1; [|discriminate]. cbn [bind] in R. apply (IH w1 R). clear IH R.
  destruct c as [e|]; [|destruct (wstep_poll _ _ _ S1) as (-> & _); exact I0].
  destruct (wstep_event _ _ _ _ S1) as (M & -> & _). rewrite requests_app, I0. clear S1 I0. revert M.
  generalize (dl (wl w1)) as s'. generalize (dl (wl w0)) as s. intros s s' M.
  assert (N : forall x : list (Z * Z), x ++ [] = x) by apply app_nil_r.
  destruct e as [|p sz en|p msg| |p|]; cbn [mstep logOf] in *.
  - injection M as <-. apply N.
  - injection M as <-. unfold onHandshake. destruct (negb (sz =? 0) && en); [|apply N].
    rewrite request_rec. reflexivity.
  - unfold onMessage in M. destruct (negb (mact s)); [injection M as <-; apply N|].
    destruct msg as [| |q|piece total data|q]; try discriminate M; try (injection M as <-; apply N).
    destruct (negb (zlen (mbuf (mrec s)) =? total)); [injection M as <-; apply N|].
    destruct (maddPiece (mrec s) data piece) as [[r added]|]; [|discriminate M]. cbn [bind] in M.
    destruct (mfinished r); injection M as <-; [apply N|]. rewrite request_rec. reflexivity.
  - injection M as <-. destruct (mact s && negb (mfin s)); [|apply N]. symmetry. apply retry_rec.
  - injection M as <-. destruct (existsb _ _); apply N.
  - injection M as <-. destruct (mact s); apply N.
Qed.
Print Assumptions C113_requests.

Lemma polled_inv ids cs : forall w0 w, wrun ids w0 cs = Ok w -> (wSeen w0 <= length (eventLog (wl w0)))%nat ->
  wTexts w0 = map (text ids) (firstn (wSeen w0) (eventLog (wl w0))) ->
  (wSeen w <= length (eventLog (wl w)))%nat /\ wTexts w = map (text ids) (firstn (wSeen w) (eventLog (wl w))) /\
  exists l, eventLog (wl w) = eventLog (wl w0) ++ l.
Proof.
  induction cs as [|c cs IH]; intros w0 w R L T; [injection R as <-; split; [exact L|]; split; [exact T|exists []; rewrite app_nil_r; reflexivity]|].
  cbn [wrun] in R. destruct (wstep ids w0 c) as [w1|] eqn:S1; [|discriminate]. cbn [bind] in R. destruct c as [e|].
  - destruct (wstep_event _ _ _ _ S1) as (_ & E & T1 & N1). destruct (IH w1 w R) as (A & B & l & C).
    + rewrite N1, E, app_length. lia.
    + rewrite T1, N1, E, T, firstn_app. replace (wSeen w0 - length (eventLog (wl w0)))%nat with 0%nat by lia. cbn [firstn]. rewrite app_nil_r. reflexivity.
    + split; [exact A|]. split; [exact B|]. exists (logOf (dl (wl w0)) e ++ l). rewrite C, E, app_assoc. reflexivity.
  - destruct (wstep_poll _ _ _ S1) as (E & T1 & N1). destruct (IH w1 w R) as (A & B & l & C).
    + rewrite N1, E. lia.
    + rewrite T1, N1, E, T, <- map_app, firstn_skipn. f_equal. symmetry. apply firstn_all2. lia.
    + split; [exact A|]. split; [exact B|]. exists l. rewrite C, E. reflexivity.
Qed.

(** A caller that asks each time for what came after the entries it has gets every entry once and in order: after any history it has the texts of the
    first entries, and after it asked those of all. *)
Theorem C113_polled : forall ids cs w, wrun ids noWorld cs = Ok w ->
  wTexts w = map (text ids) (firstn (wSeen w) (eventLog (wl w))) /\ (wSeen w <= getEventsCount (wl w))%nat /\
  exists w', wstep ids w CPoll = Ok w' /\ wTexts w' = map (text ids) (eventLog (wl w)) /\ wSeen w' = getEventsCount (wl w).
Proof.
  intros ids cs w R. destruct (polled_inv ids cs noWorld w R) as (L & T & _); [cbn; lia|reflexivity|].
  split; [exact T|]. split; [exact L|]. destruct (wstep ids w CPoll) as [w'|] eqn:S1; [|discriminate]. exists w'. split; [reflexivity|].
  destruct (wstep_poll _ _ _ S1) as (E & T1 & N1). unfold getEventsCount. split; [|lia].
  rewrite T1, T, <- map_app, firstn_skipn. reflexivity.
Qed.
Print Assumptions C113_polled.

(** Nothing in the log changes. *)
Theorem C113_grows : forall ids a b w w', wrun ids noWorld a = Ok w -> wrun ids noWorld (a ++ b) = Ok w' -> exists l, eventLog (wl w') = eventLog (wl w) ++ l.
Proof.
  intros ids a b w w' R R'. rewrite wrun_app, R in R'. cbn [bind] in R'.
  destruct (polled_inv ids a noWorld w R) as (L & T & _); [cbn; lia|reflexivity|].
  destruct (polled_inv ids b w w' R' L T) as (_ & _ & l). exact l.
Qed.
Print Assumptions C113_grows.

Lemma times_app f a b : times f (a ++ b) = (times f a + times f b)%nat.
Proof. unfold times. rewrite filter_app, app_length. reflexivity. Qed.

Definition here (p : Z) (l : list Z) : nat := length (filter (Z.eqb p) l).

Lemma here_remove p q l : (here p (removeFirst q l) + (if ((p =? q)%Z && existsb (Z.eqb q) l)%bool then 1 else 0) = here p l)%nat.
Proof.
  unfold here. induction l as [|x l IH]; cbn [removeFirst filter existsb length]; [rewrite andb_false_r; reflexivity|].
  destruct (Z.eqb_spec q x) as [->|N]; cbn [orb].
  - rewrite andb_true_r. destruct (Z.eqb_spec p x) as [->|]; cbn [length]; lia.
  - cbn [filter]. destruct (Z.eqb_spec p x); cbn [length]; lia.
Qed.

Lemma requested_only s p : requested s p = [] \/ exists i, requested s p = [ERequest p i].
Proof. unfold requested. destruct (_ && _); eauto. Qed.
Lemma requested_times f s p : (forall q i, f (ERequest q i) = false) -> times f (requested s p) = 0%nat.
Proof. intros F. destruct (requested_only s p) as [->|(i & ->)]; [reflexivity|]. unfold times. cbn [filter]. rewrite F. reflexivity. Qed.
Lemma retried_times f l : (forall q i, f (ERequest q i) = false) -> forall s, times f (retried l s) = 0%nat.
Proof. intros F. induction l as [|p l IH]; intros s; [reflexivity|]. cbn [retried]. rewrite times_app, IH, requested_times by exact F. reflexivity. Qed.

Lemma request_comms s p : mcomms (requestPiece s p) = mcomms s.
Proof. unfold requestPiece. destruct (_ && _); [|reflexivity]. destruct (getMissingPieceIndex _); reflexivity. Qed.
Lemma retry_comms l : forall s, mcomms (fold_left requestPiece l s) = mcomms s.
Proof. induction l as [|p l IH]; intros s; [reflexivity|]. cbn [fold_left]. rewrite IH. apply request_comms. Qed.

Local Ltac dn := unfold times; cbn [filter isConnected isDisconnected length mcomms]; split; [lia|intros _; lia].
Lemma step_peers s e s' p : mstep s e = Ok s' ->
  let c := times (isConnected p) (logOf s e) in let d := times (isDisconnected p) (logOf s e) in
  (here p (mcomms s') + d <= here p (mcomms s) + c)%nat /\ (e <> MStop -> (here p (mcomms s') + d = here p (mcomms s) + c)%nat).
Proof.
  intros M. cbv zeta. assert (FC : forall q i, isConnected p (ERequest q i) = false) by reflexivity.
  assert (FD : forall q i, isDisconnected p (ERequest q i) = false) by reflexivity.
  destruct e as [|q sz en|q msg| |q|]; cbn [mstep logOf] in *.
  - injection M as <-. dn.
  - injection M as <-. unfold onHandshake. destruct (negb (sz =? 0) && en); [|dn].
    rewrite request_comms. cbn [mcomms]. match goal with |- context[requested ?s q] => set (rq := requested s q); assert (C0 : times (isConnected p) rq = 0%nat) by (apply requested_times; exact FC);
      assert (D0 : times (isDisconnected p) rq = 0%nat) by (apply requested_times; exact FD) end.
    change (EConnected q :: rq) with ([EConnected q] ++ rq). rewrite !times_app, C0, D0. unfold here. rewrite filter_app, app_length.
    unfold times. cbn [filter isConnected isDisconnected]. destruct (p =? q); cbn [length]; split; [lia|intros _; lia|lia|intros _; lia].
  - unfold onMessage in M. destruct (negb (mact s)); [injection M as <-; dn|].
    destruct msg as [| |x|piece total data|x]; try discriminate M; try (injection M as <-; dn).
    destruct (negb (zlen (mbuf (mrec s)) =? total)); [injection M as <-; dn|].
    destruct (maddPiece (mrec s) data piece) as [[r added]|]; [|discriminate M]. cbn [bind] in M.
    destruct (mfinished r); injection M as <-; [dn|]. rewrite request_comms. cbn [mcomms].
    match goal with |- context[requested ?s q] => set (rq := requested s q); assert (C0 : times (isConnected p) rq = 0%nat) by (apply requested_times; exact FC);
      assert (D0 : times (isDisconnected p) rq = 0%nat) by (apply requested_times; exact FD) end.
    change (EReceive q piece :: rq) with ([EReceive q piece] ++ rq). rewrite !times_app, C0, D0. dn.
  - injection M as <-. destruct (mact s && negb (mfin s)); [|dn].
    rewrite retry_comms, !retried_times by assumption. split; [lia|intros _; lia].
  - injection M as <-. cbn [mcomms]. pose proof (here_remove p q (mcomms s)) as Hr. destruct (existsb (Z.eqb q) (mcomms s)).
    + rewrite andb_true_r in Hr. unfold times. cbn [filter isConnected isDisconnected]. destruct (p =? q); cbn [length]; split; [lia|intros _; lia|lia|intros _; lia].
    + rewrite andb_false_r in Hr. dn.
  - injection M as <-. split; [|congruence]. destruct (mact s); unfold times; cbn [filter isConnected isDisconnected length mcomms here]; unfold here; cbn [filter length]; lia.
Qed.

(** No peer is said to have disconnected more often than it was said to have connected; and as long as the download was not stopped the difference is how
    often the peer is among those that are asked. *)
Theorem C113_peers : forall ids cs w p, wrun ids noWorld cs = Ok w ->
  (times (isDisconnected p) (eventLog (wl w)) <= times (isConnected p) (eventLog (wl w)))%nat /\
  (~ In (CEvent MStop) cs ->
   times (isConnected p) (eventLog (wl w)) = (times (isDisconnected p) (eventLog (wl w)) + length (filter (Z.eqb p) (mcomms (dl (wl w)))))%nat).
Proof.
  intros ids cs w p R. fold (here p (mcomms (dl (wl w)))).
  assert (G : forall cs w0 w, wrun ids w0 cs = Ok w ->
    let n w := (times (isDisconnected p) (eventLog (wl w)) + here p (mcomms (dl (wl w))))%nat in let c w := times (isConnected p) (eventLog (wl w)) in
    (n w0 <= c w0 -> n w <= c w)%nat /\ (~ In (CEvent MStop) cs -> c w0 = n w0 -> c w = n w)).
  { clear. intros cs. induction cs as [|c cs IH]; intros w0 w R; [injection R as <-; auto|]. cbn [wrun] in R.
    destruct (wstep ids w0 c) as [w1|] eqn:S1; [|discriminate]. cbn [bind] in R. destruct (IH w1 w R) as [I1 I2]. cbv zeta in *. destruct c as [e|].
    - destruct (wstep_event _ _ _ _ S1) as (M & E & _). rewrite E in I1, I2. rewrite !times_app in I1, I2.
      destruct (step_peers _ _ _ p M) as [P1 P2]. split.
      + intros X. apply I1. lia.
      + intros NS X. apply I2; [intros Q; apply NS; right; exact Q|].
        assert (e <> MStop) as NE by (intros ->; apply NS; left; reflexivity). specialize (P2 NE). lia.
    - destruct (wstep_poll _ _ _ S1) as (E & _). rewrite E in I1, I2. split; [exact I1|]. intros NS. apply I2. intros Q. apply NS. right. exact Q. }
  destruct (G cs noWorld w R) as [G1 G2]. cbv zeta in G1, G2. split.
  - specialize (G1 ltac:(cbn; lia)). lia.
  - intros NS. exact (G2 NS eq_refl).
Qed.
Print Assumptions C113_peers.

Lemma retried_in l : forall s p i, In (ERequest p i) (retried l s) -> In p l.
Proof.
  induction l as [|q l IH]; intros s p i H; [destruct H|]. cbn [retried] in H. apply in_app_or in H. destruct H as [H|H]; [|right; eauto].
  destruct (requested_only s q) as [E|(j & E)]; rewrite E in H; [destruct H|]. destruct H as [[= -> _]|[]]. left. reflexivity.
Qed.

(** The timer asks no peer that disconnected as often as it connected. Missing: that a peer which is gone did. *)
Theorem C113_gone_partial : forall ids cs w p i, wrun ids noWorld cs = Ok w -> ~ In (CEvent MStop) cs ->
  times (isConnected p) (eventLog (wl w)) = times (isDisconnected p) (eventLog (wl w)) -> ~ In (ERequest p i) (logOf (dl (wl w)) MRetry).
Proof.
  intros ids cs w p i R NS E H. destruct (C113_peers ids cs w p R) as [_ P]. specialize (P NS).
  cbn [logOf] in H. destruct (_ && _); [|destruct H]. apply retried_in in H.
  assert (F : filter (Z.eqb p) (mcomms (dl (wl w))) = []) by (destruct (filter _ _); [reflexivity|cbn [length] in P; lia]).
  assert (In p (filter (Z.eqb p) (mcomms (dl (wl w))))) as X by (apply filter_In; split; [exact H|apply Z.eqb_refl]). rewrite F in X. destruct X.
Qed.
Print Assumptions C113_gone_partial.

(** A peer that sends its extended handshake twice is there twice, is taken off once when it closes, and is asked for parts for as long as the
    download lasts. *)
Theorem C113_gone_refuted : forall ids p sz, 0 < sz -> exists w i, wrun ids noWorld (map CEvent [MStart; MHandshake p sz true; MHandshake p sz true; MClosed p]) = Ok w /\
  In (EDisconnected p) (eventLog (wl w)) /\ In (ERequest p i) (logOf (dl (wl w)) MRetry).
Proof.
  intros ids p sz Hs. assert (N : negb (sz =? 0) && true = true) by (destruct (Z.eqb_spec sz 0); [lia|reflexivity]).
  destruct (wrun ids noWorld (map CEvent [MStart; MHandshake p sz true; MHandshake p sz true; MClosed p])) as [w|] eqn:R; [|discriminate R].
  assert (K : In (EDisconnected p) (eventLog (wl w)) /\
    mcomms (dl (wl w)) = [p] /\ mact (dl (wl w)) = true /\ mfin (dl (wl w)) = false).
  { cbn [map wrun] in R.
    repeat match type of R with bind (wstep ids ?w0 (CEvent ?e)) _ = _ => let w1 := fresh "w" in let S1 := fresh "S1" in
      destruct (wstep ids w0 (CEvent e)) as [w1|] eqn:S1; [|discriminate R]; cbn [bind] in R;
      let M := fresh "M" in let E := fresh "E" in destruct (wstep_event _ _ _ _ S1) as (M & E & _); clear S1 end.
    injection R as <-. cbn [mstep logOf noWorld wl dl eventLog] in *. unfold onHandshake in *. rewrite N in *.
    injection M as M. injection M0 as M0. injection M1 as M1. injection M2 as M2.
    assert (A0 : mact (dl (wl w0)) = true /\ mfin (dl (wl w0)) = false /\ mcomms (dl (wl w0)) = []) by (rewrite <- M; auto).
    assert (RA : forall s q, mact (requestPiece s q) = mact s /\ mfin (requestPiece s q) = mfin s /\ mcomms (requestPiece s q) = mcomms s).
    { intros s q. unfold requestPiece. destruct (mact s && negb (mfin s)); [destruct (getMissingPieceIndex (mrec s))|]; repeat split. }
    assert (A1 : mact (dl (wl w1)) = true /\ mfin (dl (wl w1)) = false /\ mcomms (dl (wl w1)) = [p]).
    { rewrite <- M0. destruct A0 as (X & Y & V). destruct (RA {| mact := mact (dl (wl w0)); mfin := mfin (dl (wl w0)); mgot := mgot (dl (wl w0));
         mrec := if mpieces (mrec (dl (wl w0))) =? 0 then minit (mrec (dl (wl w0))) sz else mrec (dl (wl w0));
         mcomms := mcomms (dl (wl w0)) ++ [p]; masked := masked (dl (wl w0)); minfo := minfo (dl (wl w0)) |} p) as (-> & -> & ->). cbn [mact mfin mcomms]. rewrite V. auto. }
    assert (A2 : mact (dl (wl w2)) = true /\ mfin (dl (wl w2)) = false /\ mcomms (dl (wl w2)) = [p; p]).
    { rewrite <- M1. destruct A1 as (X & Y & V). destruct (RA {| mact := mact (dl (wl w1)); mfin := mfin (dl (wl w1)); mgot := mgot (dl (wl w1));
         mrec := if mpieces (mrec (dl (wl w1))) =? 0 then minit (mrec (dl (wl w1))) sz else mrec (dl (wl w1));
         mcomms := mcomms (dl (wl w1)) ++ [p]; masked := masked (dl (wl w1)); minfo := minfo (dl (wl w1)) |} p) as (-> & -> & ->). cbn [mact mfin mcomms]. rewrite V. auto. }
    destruct A2 as (A2 & A3 & A4).
    assert (A5 : mcomms (dl (wl w3)) = [p] /\ mact (dl (wl w3)) = true /\ mfin (dl (wl w3)) = false).
    { rewrite <- M2. cbn [mcomms mact mfin]. rewrite A4. cbn [removeFirst]. rewrite Z.eqb_refl. auto. }
    destruct A5 as (A5 & A6 & A7). rewrite A4 in E2. cbn [existsb] in E2. rewrite Z.eqb_refl in E2. cbn [orb] in E2.
    rewrite E2. split; [apply in_or_app; right; left; reflexivity|auto]. }
  destruct K as (K & Cm & A & F). exists w. cbn [logOf]. rewrite Cm, A, F. cbn [andb negb retried]. unfold requested. rewrite A, F. cbn [andb negb app].
  eexists. split; [reflexivity|]. split; [exact K|]. left. reflexivity.
Qed.
Print Assumptions C113_gone_refuted.

Lemma inactive_requested s p : mact s = false -> requested s p = [].
Proof. intros A. unfold requested. rewrite A. reflexivity. Qed.

Lemma inactive_step s e s' : mact s = false -> e <> MStart -> mstep s e = Ok s' ->
  mact s' = false /\ forall x, In x (logOf s e) -> exists p, x = EConnected p \/ x = EDisconnected p.
Proof.
  intros A NE M. destruct e as [|q sz en|q msg| |q|]; cbn [mstep logOf] in *; [congruence| | | | |].
  - injection M as <-. unfold onHandshake. destruct (negb (sz =? 0) && en); [|split; [exact A|intros x []]]. split.
    + unfold requestPiece. cbn [mact]. rewrite A. reflexivity.
    + rewrite inactive_requested by exact A. intros x [<-|[]]. exists q. left. reflexivity.
  - unfold onMessage in M. rewrite A in *. cbn [negb] in *. injection M as <-. split; [exact A|intros x []].
  - injection M as <-. rewrite A. cbn [andb]. split; [exact A|intros x []].
  - injection M as <-. split; [exact A|]. destruct (existsb _ _); [|intros x []]. intros x [<-|[]]. exists q. right. reflexivity.
  - injection M as <-. rewrite A. split; [exact A|intros x []].
Qed.

(** Once the download was stopped and until it is started again the log says nothing of parts and no second end. Missing: that it says nothing at all. *)
Theorem C113_stopped_partial : forall ids before cs w0 w, wrun ids noWorld (before ++ [CEvent MStop]) = Ok w0 -> ~ In (CEvent MStart) cs -> wrun ids w0 cs = Ok w ->
  exists new, eventLog (wl w) = eventLog (wl w0) ++ new /\ forall x, In x new -> exists p, x = EConnected p \/ x = EDisconnected p.
Proof.
  intros ids before cs w0 w R0 NS R.
  assert (A : mact (dl (wl w0)) = false).
  { rewrite wrun_app in R0. destruct (wrun ids noWorld before) as [w1|]; [|discriminate]. cbn [bind wrun] in R0.
    destruct (wstep ids w1 (CEvent MStop)) as [w2|] eqn:S2; [|discriminate]. injection R0 as <-.
    destruct (wstep_event _ _ _ _ S2) as (M & _). cbn [mstep] in M. injection M as <-. destruct (mact (dl (wl w1))) eqn:A; [reflexivity|exact A]. }
  clear R0. revert w0 A w R. induction cs as [|c cs IH]; intros w0 A w R.
  - injection R as <-. exists []. rewrite app_nil_r. split; [reflexivity|intros x []].
  - cbn [wrun] in R. destruct (wstep ids w0 c) as [w1|] eqn:S1; [|discriminate]. cbn [bind] in R.
    assert (NS' : ~ In (CEvent MStart) cs) by (intros Q; apply NS; right; exact Q). destruct c as [e|].
    + destruct (wstep_event _ _ _ _ S1) as (M & E & _).
      assert (NE : e <> MStart) by (intros ->; apply NS; left; reflexivity).
      destruct (inactive_step _ _ _ A NE M) as [A1 L].
      destruct (IH NS' w1 A1 w R) as (n & En & Hn). exists (logOf (dl (wl w0)) e ++ n). rewrite En, E, app_assoc. split; [reflexivity|].
      intros x Hx. apply in_app_or in Hx. destruct Hx; auto.
    + destruct (wstep_poll _ _ _ S1) as (E & _). 
      assert (A1 : mact (dl (wl w1)) = false) by (rewrite E; exact A). destruct (IH NS' w1 A1 w R) as (n & En & Hn). exists n. rewrite E in En. auto.
Qed.
Print Assumptions C113_stopped_partial.

(** A peer whose extended handshake comes after the stop is logged as connected behind the end, and stays among those to ask. *)
Theorem C113_stopped_refuted : forall ids p sz, 0 < sz -> exists w, wrun ids noWorld (map CEvent [MStart; MStop; MHandshake p sz true]) = Ok w /\
  eventLog (wl w) = [ESearching; EEnd; EConnected p] /\ In p (mcomms (dl (wl w))).
Proof.
  intros ids p sz Hs. assert (N : negb (sz =? 0) && true = true) by (destruct (Z.eqb_spec sz 0); [lia|reflexivity]).
  destruct (wrun ids noWorld (map CEvent [MStart; MStop; MHandshake p sz true])) as [w|] eqn:R; [|discriminate R]. exists w. split; [reflexivity|].
  cbn [map wrun] in R.
  repeat match type of R with bind (wstep ids ?w0 (CEvent ?e)) _ = _ => let w1 := fresh "w" in let S1 := fresh "S1" in
      destruct (wstep ids w0 (CEvent e)) as [w1|] eqn:S1; [|discriminate R]; cbn [bind] in R;
      let M := fresh "M" in let E := fresh "E" in destruct (wstep_event _ _ _ _ S1) as (M & E & _); clear S1 end.
  injection R as <-. cbn [mstep logOf noWorld wl dl eventLog] in *. unfold onHandshake in *. rewrite N in *.
  injection M as M. injection M0 as M0. injection M1 as M1.
  assert (A0 : mact (dl (wl w0)) = true) by (rewrite <- M; reflexivity).
  assert (A1 : mact (dl (wl w1)) = false) by (rewrite <- M0, A0; reflexivity). rewrite A0 in E0.
  rewrite E1, E0, E. rewrite inactive_requested by exact A1. split; [reflexivity|]. rewrite <- M1. rewrite request_comms. apply in_or_app. right. left. reflexivity.
Qed.
Print Assumptions C113_stopped_refuted.

Lemma requested_tells s p : filter tells (requested s p) = [].
Proof. destruct (requested_only s p) as [->|(i & ->)]; reflexivity. Qed.
Lemma retried_tells l : forall s, filter tells (retried l s) = [].
Proof. induction l as [|p l IH]; intros s; [reflexivity|]. cbn [retried]. rewrite filter_app, requested_tells. apply IH. Qed.
Lemma request_act s p : mact (requestPiece s p) = mact s.
Proof. unfold requestPiece. destruct (mact s && negb (mfin s)); [|reflexivity]. destruct (getMissingPieceIndex (mrec s)); reflexivity. Qed.
Lemma retry_act l : forall s, mact (fold_left requestPiece l s) = mact s.
Proof. induction l as [|p l IH]; intros s; [reflexivity|]. cbn [fold_left]. rewrite IH. apply request_act. Qed.

Lemma step_tells s e s' es : mstep s e = Ok s' -> filter tells (logOf s e) ++ told (mact s') es = told (mact s) (e :: es).
Proof.
  intros M. destruct e as [|q sz en|q msg| |q|]; cbn [mstep logOf told] in *.
  - injection M as <-. reflexivity.
  - injection M as <-. unfold onHandshake. destruct (negb (sz =? 0) && en); [|reflexivity]. rewrite request_act. cbn [filter tells mact]. rewrite requested_tells. reflexivity.
  - unfold onMessage in M. destruct (mact s) eqn:A; cbn [negb] in *; [|injection M as <-; rewrite A; destruct msg; reflexivity].
    destruct msg as [| |x|piece total data|x]; try discriminate M; try (injection M as <-; rewrite A; reflexivity). cbn [filter tells].
    destruct (negb (zlen (mbuf (mrec s)) =? total)); [injection M as <-; rewrite A; reflexivity|].
    destruct (maddPiece (mrec s) data piece) as [[r added]|]; [|discriminate M]. cbn [bind] in M.
    destruct (mfinished r); injection M as <-; [cbn [mact]; reflexivity|]. rewrite request_act. cbn [mact]. rewrite requested_tells. reflexivity.
  - injection M as <-. destruct (mact s && negb (mfin s)); [|reflexivity]. rewrite retry_act, retried_tells. reflexivity.
  - injection M as <-. cbn [mact]. destruct (existsb _ _); reflexivity.
  - injection M as <-. destruct (mact s) eqn:A; [reflexivity|]. rewrite A. reflexivity.
Qed.

(** Each start, each part and rejection that comes while the download is started, and each stop of a started download is logged, in order and once. *)
Theorem C113_told : forall ids cs w, wrun ids noWorld cs = Ok w -> filter tells (eventLog (wl w)) = told false (events cs).
Proof.
  intros ids. assert (G : forall cs w0 w, wrun ids w0 cs = Ok w -> filter tells (eventLog (wl w)) = filter tells (eventLog (wl w0)) ++ told (mact (dl (wl w0))) (events cs)).
  { intros cs. induction cs as [|c cs IH]; intros w0 w R; [injection R as <-; cbn [events flat_map told]; rewrite app_nil_r; reflexivity|]. cbn [wrun] in R.
    destruct (wstep ids w0 c) as [w1|] eqn:S1; [|discriminate]. cbn [bind] in R. rewrite (IH w1 w R). destruct c as [e|].
    - destruct (wstep_event _ _ _ _ S1) as (M & E & _). rewrite E, filter_app, <- app_assoc. f_equal. exact (step_tells _ _ _ (events cs) M).
    - destruct (wstep_poll _ _ _ S1) as (E & _). rewrite E. reflexivity. }
  intros cs w R. exact (G cs noWorld w R).
Qed.
Print Assumptions C113_told.

Lemma hex_length l : length (hexToString l) = (2 * length l)%nat.
Proof. induction l as [|x l IH]; [reflexivity|]. change (hexToString (x :: l)) with (firstn 2 (hexToString (x :: l)) ++ hexToString l). rewrite app_length, IH. cbn [length firstn hexToString flat_map app]. cbn. lia. Qed.

Lemma hex_head a b x y : bytes_ok a -> bytes_ok b -> length a = length b -> hexToString a ++ x = hexToString b ++ y -> a = b /\ x = y.
Proof.
  intros Ba Bb L E. assert (LL : length (hexToString a) = length (hexToString b)) by (rewrite !hex_length; lia).
  assert (H1 : hexToString a = hexToString b).
  { apply (f_equal (firstn (length (hexToString a)))) in E. rewrite firstn_app, firstn_all, Nat.sub_diag, firstn_O, app_nil_r in E.
    rewrite LL, firstn_app, firstn_all, Nat.sub_diag, firstn_O, app_nil_r in E. exact E. }
  rewrite H1 in E. apply app_inv_head in E. split; [|exact E].
  pose proof (decodeHexa_hexToString a Ba) as Da. pose proof (decodeHexa_hexToString b Bb) as Db. rewrite H1, L in Da. rewrite Da in Db. congruence.
Qed.

Lemma toString_inj a b : 0 <= a -> 0 <= b -> Dec.toString a = Dec.toString b -> a = b.
Proof. intros A B E. destruct (toString_ok a A) as (<- & _). destruct (toString_ok b B) as (<- & _). rewrite E. reflexivity. Qed.

(** From the text of an entry its kind, the id of its peer and its index can be read. *)
Theorem C113_text : forall ids e e', (forall p, bytes_ok (ids p) /\ length (ids p) = 20%nat) -> index_ok e -> index_ok e' ->
  (text ids e = text ids e' -> about ids e = about ids e') /\ text ids e <> [].
Proof.
  intros ids e e' I K K'. split.
  2: { destruct e; cbn [text]; try discriminate; intros E0; apply (f_equal (@length Z)) in E0; rewrite app_length in E0; cbn [length app] in E0; lia. }
  intros E.
  assert (H : forall p q x y, hexToString (ids p) ++ x = hexToString (ids q) ++ y -> ids p = ids q /\ x = y).
  { intros p q x y. destruct (I p) as [B L], (I q) as [B' L']. apply hex_head; [exact B|exact B'|congruence]. }
  assert (N : forall p x y, (length y < 40)%nat -> hexToString (ids p) ++ x <> y).
  { intros p x y Ly <-. rewrite app_length, hex_length in Ly. destruct (I p) as [_ L]. rewrite L in Ly. lia. }
  destruct e as [|p|p|p i|p i|p i|], e' as [|q|q|q j|q j|q j|]; cbn [text] in E; cbn [about index_ok] in *; try reflexivity; try discriminate E;
    try (exfalso; apply N in E; [exact E|cbn [length]; lia]); try (exfalso; symmetry in E; apply N in E; [exact E|cbn [length]; lia]);
    apply H in E; destruct E as [Ei Et]; cbn [app] in Et; try discriminate Et; rewrite Ei; try reflexivity;
    injection Et as Et; (apply toString_inj in Et; [rewrite Et; reflexivity|lia|lia]).
Qed.
Print Assumptions C113_text.

(** A download of one part from one peer, with two polls and another peer that leaves. *)
Definition sampleIds (p : Z) : list Z := repeat (p mod 256) 20.
Example C113_sample_ids : forall p, bytes_ok (sampleIds p) /\ length (sampleIds p) = 20%nat.
Proof. intros p. assert (B : 0 <= p mod 256 < 256) by (apply Z.mod_pos_bound; lia). split; [|apply repeat_length]. unfold sampleIds. cbn [repeat]. repeat (constructor; [exact B|]). constructor. Qed.
Example C113_sample :
  let cs := map CEvent [MStart; MHandshake 1 3 true] ++ [CPoll] ++ map CEvent [MHandshake 2 3 true; MMessage 1 (LReject 0); MClosed 2; MRetry] ++ [CPoll] ++ map CEvent [MMessage 1 (LData 0 3 [7; 8; 9]); MStop] ++ [CPoll] in
  exists w, wrun sampleIds noWorld cs = Ok w /\
  eventLog (wl w) = [ESearching; EConnected 1; ERequest 1 0; EConnected 2; ERequest 2 0; EReject 1 0; EDisconnected 2; ERequest 1 0; EReceive 1 0; EEnd] /\
  wTexts w = map (text sampleIds) (eventLog (wl w)) /\ Forall index_ok (eventLog (wl w)).
Proof.
  cbv zeta. eexists. split; [vm_compute; reflexivity|]. cbn [wl eventLog wTexts]. split; [reflexivity|]. split; [vm_compute; reflexivity|].
  repeat (constructor; [cbn [index_ok]; try exact Logic.I; lia|]). constructor.
Qed.
