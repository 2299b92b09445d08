(** C85: when threads of the client wait for each other forever, and when never. *)
From Verif Require Import Base LockModel LockCodeModel LockSpec LockProofs.

Ltac bools := repeat match goal with b : bool |- _ => destruct b end.
Ltac headOf t := lazymatch t with ?f _ => headOf f | _ => t end.

Lemma fits_at rank k p low : fits rank k p -> low <= k -> fits rank low p.
Proof. intros F L. exact (fits_low rank p low k F L). Qed.

Ltac fitWith known :=
  lazymatch goal with
  | |- fits _ _ PEnd => exact I
  | |- fits _ _ (seqs (map _ _)) => apply fits_map; intros ? _; cbn beta; fitWith known
  | |- fits _ _ (seqs []) => exact I
  | |- fits _ _ (seqs (_ :: _)) => split; [fitWith known|fitWith known]
  | |- fits _ _ (rep _ _) => apply fits_rep; fitWith known
  | |- fits _ _ (when false _) => exact I
  | |- fits _ _ (when _ _) => apply fits_when; intros _; fitWith known
  | |- fits _ _ (hold _ (map _ _)) => split; [bools; exact eq_refl|apply fits_map; intros ? _; cbn beta; fitWith known]
  | |- fits _ _ (hold _ _) => split; [bools; exact eq_refl|fitWith known]
  | |- fits _ _ (if ?b then _ else _) => destruct b; fitWith known
  | |- fits _ _ (match ?x with _ => _ end) => destruct x; fitWith known
  | |- fits _ _ ?p => first [known | let h := headOf p in unfold h; cbv zeta; fitWith known]
  end.

Ltac lows := bools; vm_compute; discriminate.

Lemma fits_writes o : fits rank 20 (writes o).
Proof. apply fits_map. intros w _. split; [exact eq_refl|]. split; [|exact I]. apply fits_rep. split; [exact eq_refl|exact I]. Qed.

Ltac k1 := idtac; lazymatch goal with |- fits _ _ (writes _) => eapply fits_at; [apply fits_writes|lows] end.

Lemma fits_known t fresh n : fits rank 17 (knownPeers t fresh n).
Proof. fitWith k1. Qed.

Ltac kn := idtac; lazymatch goal with |- fits _ _ (knownPeers _ _ _) => eapply fits_at; [apply fits_known|lows] end.

Lemma fits_said t x : fits rank 17 (saidProg t x).
Proof. destruct x; cbn [saidProg]; fitWith ltac:(idtac; first [k1 | kn]). Qed.

Lemma fits_closed t h punch peers o n : fits rank 17 (closed t h punch peers o n).
Proof. fitWith k1. Qed.

Lemma fits_streamClosed again p : fits rank 17 p -> fits rank 17 (streamClosed again p).
Proof. intros H. unfold streamClosed. destruct again; [fitWith k1|exact H]. Qed.

Lemma fits_cb c : fits rank 15 (cbProg c).
Proof. destruct c; cbn [cbProg]; fitWith ltac:(idtac; first [k1 | kn]). Qed.

Ltac k2 := idtac; lazymatch goal with
  | |- fits _ _ (writes _) => eapply fits_at; [apply fits_writes|lows]
  | |- fits _ _ (saidProg _ _) => eapply fits_at; [apply fits_said|lows]
  | |- fits _ _ (streamClosed _ _) => eapply fits_at; [apply fits_streamClosed, fits_closed|lows]
  | |- fits _ _ (cbProg _) => eapply fits_at; [apply fits_cb|lows]
  | |- fits _ _ (knownPeers _ _ _) => eapply fits_at; [apply fits_known|lows] end.

Lemma fits_receive l : fits rank 14 (receive l).
Proof. fitWith k2. Qed.

Lemma fits_stopPeers t ks h n : fits rank 8 (stopPeers t ks h n).
Proof. fitWith k2. Qed.

Ltac kp := idtac; lazymatch goal with |- fits _ _ (stopPeers _ _ _ _) => eapply fits_at; [apply fits_stopPeers|lows] end.

Lemma fits_stopTransfer t ks h n st : fits rank 8 (stopTransfer t ks h n st).
Proof. fitWith ltac:(idtac; first [k2 | kp]). Qed.

Lemma fits_stopMeta t active finished ks h n : active && finished = false -> fits rank 8 (stopMeta t active finished ks h n).
Proof.
  intros C. unfold stopMeta. split; [fitWith k2|]. split; [|exact I]. apply fits_when. intros ->. rewrite Bool.andb_true_l in C. subst.
  fitWith ltac:(idtac; first [k2 | kp]).
Qed.

Ltac k3 := idtac; first [k2 | kp | lazymatch goal with
  | |- fits _ _ (receive _) => eapply fits_at; [apply fits_receive|lows]
  | |- fits _ _ (stopTransfer _ _ _ _ _) => eapply fits_at; [apply fits_stopTransfer|lows] end].

Lemma fits_stop t check meta started ks h n st sv : match meta with Some (true, true) => False | _ => True end -> fits rank 5 (stopTorrent t check meta started ks h n st sv).
Proof.
  intros C. unfold stopTorrent. split; [exact eq_refl|]. split; [fitWith k3|]. split; [|fitWith k3].
  destruct meta as [[active finished]|]; [|exact I]. eapply fits_at; [apply fits_stopMeta; destruct active, finished; [destruct C|reflexivity..]|lows].
Qed.

Lemma fits_act a : calm a = true -> fits rank (-1) (actProg a).
Proof.
  intros C. destruct a; cbn [actProg]; try solve [fitWith k3]; cbn [calm] in C.
  - destruct qs; [|discriminate]. unfold dhtStop. cbn [map]. fitWith k3.
  - split; [exact eq_refl|]. split; [fitWith k3|]. split; [|fitWith k3]. apply fits_map. intros [own s] _. cbn [fst snd]. fitWith k3.
  - apply Nat.eqb_eq in C. subst. unfold rep. cbn [repeat]. fitWith k3.
  - eapply fits_at; [apply fits_stopMeta; destruct finished; [discriminate|reflexivity]|lows].
  - unfold startTorrent. split; [exact eq_refl|]. split; [|exact I]. destruct s; try solve [fitWith k3]. apply Nat.eqb_eq in C. subst.
    unfold startPeers, rep. cbn [repeat when]. fitWith k3.
  - eapply fits_at; [apply fits_stop; destruct meta as [[[|] [|]]|]; [discriminate|exact I..]|lows].
  - split; [exact eq_refl|]. split; [fitWith k3|]. split; [|fitWith k3]. eapply fits_at; [apply fits_stop; destruct meta as [[[|] [|]]|]; [discriminate|exact I..]|lows].
Qed.

Lemma fits_worker k t i a : calm a = true -> runs (Worker k t i) a = true -> fits rank (rank (MThread k t i)) (actProg a).
Proof.
  intros C R. cbn [runs] in R.
  destruct (k =? poService) eqn:E1; [apply Z.eqb_eq in E1; subst|destruct (k =? poStorage) eqn:E2; [apply Z.eqb_eq in E2; subst|destruct (k =? poDht) eqn:E3; [apply Z.eqb_eq in E3; subst|discriminate]]].
  - destruct a; try discriminate; cbn [actProg]; try (rewrite R); try solve [fitWith k3].
    cbn [calm] in C. eapply fits_at; [apply fits_stopMeta; destruct finished; [discriminate|reflexivity]|lows].
  - destruct a; try discriminate; cbn [actProg]; try solve [fitWith k3]. cbn [calm] in C. apply Nat.eqb_eq in C. subst. unfold rep. cbn [repeat]. fitWith k3.
  - destruct a; try discriminate; cbn [actProg]; fitWith k3.
Qed.

Lemma fits_thread x : Forall (fun a => calm a = true /\ runs (fst x) a = true) (snd x) -> fits rank (-1) (threadProg x).
Proof.
  destruct x as [p l]. cbn [fst snd]. intros F. rewrite Forall_forall in F. unfold threadProg. cbn [fst snd]. destruct p as [|k t i].
  - apply fits_map. intros a Ia. apply fits_act, (F a Ia).
  - split; [cbn [rank]; destruct (k =? poService), (k =? poStorage); reflexivity|]. apply fits_map. intros a Ia. apply fits_worker; apply (F a Ia).
Qed.

(** Threads that lock in one order, each any number of mutexes, any number of threads: wherever they are, all are done or one
    can go on; each step brings them nearer the end; and they can all end. *)
Theorem C85_one_order : forall (rank : mtx -> Z) (low : Z) l order,
  Forall (fits rank low) l ->
  let s := lrun (threads l) order in
  (allDone s \/ exists i s', lstep s i = Some s') /\
  (forall i s', lstep s i = Some s' -> left s = S (left s')) /\
  exists more, allDone (lrun s more).
Proof.
  intros rk low l order F s. pose proof (sound_run rk order _ (sound_threads rk low l F)) as S. fold s in S.
  split; [exact (sound_moves rk s S)|]. split; [exact (step_left s)|]. exact (moves_finish rk (left s) s eq_refl S).
Qed.
Print Assumptions C85_one_order.

(** Any number of threads, each doing any number of these things one after the other, never wait for each other forever.
    Left out: what [calm] and [runs] leave out, shown below to block for good. *)
Theorem C85_no_deadlock_partial : forall l order,
  Forall (fun x => Forall (fun a => calm a = true /\ runs (fst x) a = true) (snd x)) l ->
  let s := lrun (threads (map threadProg l)) order in
  (allDone s \/ exists i s', lstep s i = Some s') /\ exists more, allDone (lrun s more).
Proof.
  intros l order F s. destruct (C85_one_order rank (-1) (map threadProg l) order) as (A & _ & C).
  - rewrite Forall_map. eapply Forall_impl; [|exact F]. intros x. apply fits_thread.
  - split; assumption.
Qed.
Print Assumptions C85_no_deadlock_partial.

Lemma stuck_two p0 p1 others order t0 t1 a b ra rb : lrun (threads [p0; p1]) order = [t0; t1] -> Forall (fun i => (i < 2)%nat) order ->
  tRest t0 = Acq b :: ra -> tRest t1 = Acq a :: rb -> In a (tHeld t0) -> In b (tHeld t1) ->
  let s := lrun (threads (p0 :: p1 :: others)) order in stuckFor s 0 /\ stuckFor s 1.
Proof.
  intros R F R0 R1 Ha Hb s. unfold s. change (threads (p0 :: p1 :: others)) with (threads [p0; p1] ++ threads others). rewrite lrun_idle by exact F. rewrite R.
  pose proof (crossed_forever ([t0; t1] ++ threads others) 0 1 t0 t1 a b ra rb ltac:(discriminate) eq_refl eq_refl R0 R1 Ha Hb) as K.
  split; intros more; destruct (K more) as [K0 K1]; eexists; (split; [eassumption|]); [rewrite R0|rewrite R1]; discriminate.
Qed.

Lemma stuck_one p0 others order t0 m r : lrun (threads [p0]) order = [t0] -> Forall (fun i => (i < 1)%nat) order ->
  tRest t0 = Acq m :: r -> In m (tHeld t0) -> stuckFor (lrun (threads (p0 :: others)) order) 0.
Proof.
  intros R F R0 Hm. change (threads (p0 :: others)) with (threads [p0] ++ threads others). rewrite lrun_idle by exact F. rewrite R.
  intros more. exists t0. split; [exact (self_forever ([t0] ++ threads others) 0 t0 m r eq_refl R0 Hm more)|rewrite R0; discriminate].
Qed.

Lemma below n l : forallb (fun i => Nat.ltb i n) l = true -> Forall (fun i => (i < n)%nat) l.
Proof. intros H. rewrite forallb_forall in H. apply Forall_forall. intros i I. apply Nat.ltb_lt. exact (H i I). Qed.

Ltac twoStuck := eapply stuck_two; [cbv; reflexivity|apply below; reflexivity|reflexivity|reflexivity|cbn; tauto|cbn; tauto].

(** Stopping the DHT while peers are looked for: it holds the queries and waits for the callbacks of requests, while the
    callback of such a request waits for its query. Both wait forever, whatever the other threads do. *)
Theorem C85_dht_stop_refuted : forall n workers t sends fin kept others,
  exists order, let s := lrun (threads (map threadProg ((Free, [ADhtStop [(1, S n)] workers]) :: (Free, [AUdp [(CbGetPeers 1 t None false sends fin, kept)]]) :: others))) order in
  stuckFor s 0 /\ stuckFor s 1.
Proof. intros. exists [1; 1; 1; 1; 1; 0; 0]%nat. cbn [map]. twoStuck. Qed.
Print Assumptions C85_dht_stop_refuted.

(** A bad piece whose sender is dropped, checked while the transfer of the same torrent is measured, which happens each second. *)
Theorem C85_bad_piece_refuted : forall d o i j others,
  exists order, let s := lrun (threads (map threadProg ((Worker poStorage 1 i, [APieceChecked 1 (S d)]) :: (Worker poService 1 j, [ATransferTimer 1 o]) :: others))) order in
  stuckFor s 0 /\ stuckFor s 1.
Proof. intros. exists [0; 0; 0; 0; 0; 0; 0; 0; 1; 1; 1; 1; 1]%nat. cbn [map]. twoStuck. Qed.
Print Assumptions C85_bad_piece_refuted.

(** Stopping a torrent waits for its threads, one of which is to start it: after its metadata came or its files were checked. *)
Theorem C85_stop_start_refuted : forall start service others,
  exists order, let s := lrun (threads (map threadProg ((Free, [AStop 1 false None true [] HNobody 0 [] (1 :: service)]) :: (Worker poService 1 1, [AStart 1 start]) :: others))) order in
  stuckFor s 0 /\ stuckFor s 1.
Proof. intros. exists (1%nat :: repeat 0%nat 21). cbn [map]. twoStuck. Qed.
Print Assumptions C85_stop_start_refuted.

(** The end of the metadata while the torrent is stopped, with a peer that metadata came from. *)
Theorem C85_metadata_end_refuted : forall i ks h n d service others,
  exists order, let s := lrun (threads (map threadProg ((Worker poService 1 i, [AMetaStop 1 true ks h n]) :: (Free, [AStop 1 false (Some (false, true)) true [] HMeta (S d) [] service]) :: others))) order in
  stuckFor s 0 /\ stuckFor s 1.
Proof. intros. exists (repeat 0%nat 6 ++ repeat 1%nat 10). cbn [map]. twoStuck. Qed.
Print Assumptions C85_metadata_end_refuted.

(** Asking for metadata with peers already there that do not offer it: the thread waits for itself. *)
Theorem C85_metadata_begin_refuted : forall n o others,
  exists order, stuckFor (lrun (threads (map threadProg ((Free, [AStart 1 (StMeta (S n) o)]) :: others))) order) 0.
Proof. intros. exists [0; 0]%nat. cbn [map]. eapply stuck_one; [cbv; reflexivity|apply below; reflexivity|reflexivity|cbn; tauto]. Qed.
Print Assumptions C85_metadata_begin_refuted.

(** Beside C85_no_deadlock_partial: the user stops a torrent while its threads announce, connect, write and check, the DHT
    answers, a packet brings a block over uTP, a client fails and another torrent is removed. *)
Definition busy : list (place * list act) :=
  [(Free, [AStop 1 true None true [(5, true); (6, false)] HTransfer 3 [1; 2] [1; 2]; AStart 1 (StTransfer 2 3 [(1, 2%nat)] [])]);
   (Worker poService 1 1, [AAnnounced 1 5 true 4; ATcpReceive true 7 1 [SaidPiece 2 [(8, 1%nat)]; SaidPex 7 true false 1 2]; AFinish 1 [1; 2]]);
   (Worker poService 1 2, [ATransferTimer 1 [(8, 1%nat)]; ATrackerTimer 1 6 false; AUpload 1 [] true; AMetaStop 1 false [] HMeta 1]);
   (Worker poStorage 1 1, [APieceChecked 1 0; AFlush 1]);
   (Worker poDht 0 1, [ARefreshTable 3 8]);
   (Free, [AUdp [(CbGetPeers 4 1 (Some (true, true, 2%nat)) true 3 true, false); (CbTracker 1 true, true)]; AUtpPackets [(true, 8, 1, true, [SaidHave 1 []])] [9]]);
   (Free, [AUdpWriter 2 (Some [CbTracker 1 true])]);
   (Free, [ARemove 2 true (Some (true, false)) false [] HMeta 2 [] []; ADhtStop [] [1]; ABandwidth [(true, 7); (false, 9)] [1; 2]])].

Example C85_busy_meets : Forall (fun x => Forall (fun a => calm a = true /\ runs (fst x) a = true) (snd x)) busy.
Proof. unfold busy. repeat constructor. Qed.

(** and they do get in each other's way: with the peers locked by the packet, the stop has to wait *)
Example C85_busy_waits : exists order, lstep (lrun (threads (map threadProg busy)) order) 0 = None /\ lstep (lrun (threads (map threadProg busy)) order) 5 <> None.
Proof. exists (repeat 1%nat 4 ++ repeat 0%nat 4). vm_compute. split; [reflexivity|discriminate]. Qed.
