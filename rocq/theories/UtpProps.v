(** Properties C37-C40. *)
From Coq Require Import Sorted.
From Verif Require Import Base BaseLemmas UtpModel UtpSpec UtpProofs UtpProofs2 UtpProofs3 UtpProofs4 UtpProofs5 UtpProofs6 UtpProofs7.

(** How a stream starts: connected with the number before the first packet, or connecting. *)
Definition starts (s0 : Z) (sp : stepType) (a : Z) : Prop := (sp = CONNECTED \/ sp = SYN_RECV) /\ a = (s0 - 1) mod 65536 \/ sp = SYN_SEND.

Lemma new_RI P s0 sp q a : starts s0 sp a -> RI P s0 0 [] [] (newStream sp q a).
Proof.
  intros H. refine (conj _ (conj _ (conj I (conj eq_refl (conj _ (conj _ _)))))); [lia|reflexivity|split; constructor| |auto]. cbn [newStream step rcv ack]. intros N1 N2. destruct H as [[_ ->]| ->]; [|congruence]. unfold u16. f_equal. lia.
Qed.

(** * C37 *)

(** Whatever arrives in whatever order, the bytes delivered are the first packets of the sender, and
    no byte once delivered changes. *)
Theorem C37_in_order : forall P s0 sp q a es1 es2 st1 st2, Forall (fun p => p <> []) P -> starts s0 sp a -> 0 <= q < 65536 ->
  genuine P s0 (newStream sp q a) (es1 ++ es2) -> run (newStream sp q a) es1 = Some st1 -> run st1 es2 = Some st2 ->
  exists n1 n2, (n1 <= n2 <= length P)%nat /\ delivered st1 = concat (firstn n1 P) /\ delivered st2 = concat (firstn n2 P).
Proof.
  intros P s0 sp q a es1 es2 st1 st2 N St Q G R1 R2.
  assert (G1 : genuine P s0 (newStream sp q a) es1 /\ genuine P s0 st1 es2).
  { revert G R1. generalize (newStream sp q a). induction es1 as [|e es1 IH]; intros st G R1; cbn [run] in R1; [injection R1 as <-; split; [exact I|exact G]|]. cbn [app genuine] in G. destruct G as (A & B & C). destruct (do_event st e) as [sta|] eqn:D; [|discriminate]. destruct (IH sta (C _ eq_refl) R1) as (X & Y). split; [|exact Y]. cbn [genuine]. refine (conj A (conj B _)). intros st' E. congruence. }
  destruct G1 as (G1 & G2). destruct (run_ok P s0 N es1 0 [] [] _ st1 (new_RI P s0 sp q a St) (ex_intro _ q (ex_intro _ [] (new_SI sp q a Q))) G1 R1) as (n1 & ks1 & rest1 & _ & I1 & J1). destruct (run_ok P s0 N es2 n1 ks1 rest1 st1 st2 I1 J1 G2 R2) as (n2 & ks2 & rest2 & L & I2 & _).
  exists n1, n2. destruct I1 as (_ & D1 & _). destruct I2 as (L2 & D2 & _). auto.
Qed.

(** On a connected stream, if the packet numbered 0 never has to wait, all that arrived contiguously
    is delivered: the first packet not delivered never came. Missing: packet 0 waiting (refuted
    below), streams that are connecting, closing. *)
Theorem C37_delivered_partial : forall P s0 sp q a es st, Forall (fun p => p <> []) P -> (sp = CONNECTED \/ sp = SYN_RECV) -> a = (s0 - 1) mod 65536 -> 0 <= q < 65536 ->
  genuine P s0 (newStream sp q a) es -> zero_in_order P s0 (newStream sp q a) es -> ~ In Close es -> run (newStream sp q a) es = Some st ->
  exists n, delivered st = concat (firstn n P) /\ ~ arrived P s0 (newStream sp q a) es n /\ (forall k, (k < n)%nat -> (k < length P)%nat) /\
  (forall k, arrived P s0 (newStream sp q a) es k -> (k < n)%nat \/ exists i, In (i, number s0 k) (received (rcv st)) /\ nth i (bufs st) [] = nth k P []).
Proof.
  intros P s0 sp q a es st N Sp Ha Q G Z Nc R.
  assert (St : starts s0 sp a) by (left; auto).
  destruct (run_live P s0 N es 0 [] _ st (new_RI P s0 sp q a St) (ex_intro _ q (ex_intro _ [] (new_SI sp q a Q))) G Z Nc) as (n & ks & _ & I & _ & L).
  - cbn. destruct Sp as [-> | ->]; discriminate.
  - cbn. destruct Sp as [-> | ->]; discriminate.
  - intros x [].
  - exact R.
  - destruct I as (I1 & I2 & I3 & I4 & (I5 & I6) & I7 & I8). exists n. split; [assumption|].
    assert (Lv : forall k, arrived P s0 (newStream sp q a) es k -> live n ks k) by (intros k (es1 & m & es2 & st1 & E1 & E2 & E3 & E4 & E5); exact (L k st1 m es1 es2 E1 E2 E3 E4 E5)).
    rewrite Forall_forall in I5. split; [intros A; destruct (Lv n A) as [B|(j & B)]; [lia|destruct (I5 _ B) as (C & _); cbn in C; lia]|]. split; [intros; lia|].
    intros k A. destruct (Lv k A) as [B|(j & B)]; [now left|right]. exists j. rewrite I4, app_nil_r. split; [apply in_map_iff; exists (j, k); auto|]. destruct (I5 _ B) as (_ & _ & _ & C). exact C.
Qed.

Definition data (s : Z) (d : list Z) : event := Packet {| mtype := 0; seq_nr := s; ack_nr := 0; wnd := 1000; exts := []; payload := d |}.

Definition zP := [[10]; [11]; [12]].
Definition z0 := newStream CONNECTED 1 65534.
Definition z1 := [data 0 [11]; data 1 [12]; data 65535 [10]].
Definition z2 := [data 1 [12]; data 0 [11]].

Lemma z_near : forall st k, (k < 3)%nat -> near zP st k.
Proof. intros st k Hk n Hn _. cbn [zP length] in Hn. lia. Qed.

Lemma z_genuine : genuine zP 65535 z0 (z1 ++ z2).
Proof.
  unfold z1, z2. cbn [app genuine]. repeat (split; [intros m Em _; injection Em as <-; first [exists 0%nat; split; [repeat split; cbn; lia|apply z_near; lia]|exists 1%nat; split; [repeat split; cbn; lia|apply z_near; lia]|exists 2%nat; split; [repeat split; cbn; lia|apply z_near; lia]]|split; [intros m Em T; vm_compute in T; discriminate|intros st' E; vm_compute in E; injection E as <-]]). exact I.
Qed.

Lemma z_arrived : forall k, (k < 3)%nat -> arrived zP 65535 z0 z1 k.
Proof.
  intros k Hk. destruct k as [|[|[|k]]]; [| | |lia].
  - exists [data 0 [11]; data 1 [12]], {| mtype := 0; seq_nr := 65535; ack_nr := 0; wnd := 1000; exts := []; payload := [10] |}, []. eexists. split; [reflexivity|]. split; [vm_compute; reflexivity|]. split; [reflexivity|]. split; [repeat split; cbn; lia|apply z_near; lia].
  - exists [], {| mtype := 0; seq_nr := 0; ack_nr := 0; wnd := 1000; exts := []; payload := [11] |}, [data 1 [12]; data 65535 [10]]. eexists. split; [reflexivity|]. split; [vm_compute; reflexivity|]. split; [reflexivity|]. split; [repeat split; cbn; lia|apply z_near; lia].
  - exists [data 0 [11]], {| mtype := 0; seq_nr := 1; ack_nr := 0; wnd := 1000; exts := []; payload := [12] |}, [data 65535 [10]]. eexists. split; [reflexivity|]. split; [vm_compute; reflexivity|]. split; [reflexivity|]. split; [repeat split; cbn; lia|apply z_near; lia].
Qed.

Lemma z_run : exists st1, run z0 z1 = Some st1 /\ delivered st1 = [10] /\ exists st2, run st1 z2 = Some st2 /\ delivered st2 = [10; 11].
Proof. eexists. split; [vm_compute; reflexivity|]. split; [reflexivity|]. eexists. split; [vm_compute; reflexivity|reflexivity]. Qed.

Lemma z_again st1 : run z0 z1 = Some st1 -> forall k, (1 <= k < 3)%nat -> arrived zP 65535 st1 z2 k.
Proof.
  intros R k Hk. vm_compute in R. injection R as <-. destruct k as [|[|[|k]]]; [lia| | |lia].
  - exists [data 1 [12]], {| mtype := 0; seq_nr := 0; ack_nr := 0; wnd := 1000; exts := []; payload := [11] |}, []. eexists. split; [reflexivity|]. split; [vm_compute; reflexivity|]. split; [reflexivity|]. split; [repeat split; cbn; lia|apply z_near; lia].
  - exists [], {| mtype := 0; seq_nr := 1; ack_nr := 0; wnd := 1000; exts := []; payload := [12] |}, [data 0 [11]]. eexists. split; [reflexivity|]. split; [vm_compute; reflexivity|]. split; [reflexivity|]. split; [repeat split; cbn; lia|apply z_near; lia].
Qed.

(** Packet 0 waiting when 65535 comes: it is not delivered, and stays in the way of those behind it
    even when it is sent again. *)
Theorem C37_zero_refuted : exists P s0 st es1 st1 es2 st2, st = newStream CONNECTED 1 ((s0 - 1) mod 65536) /\ P = [[10]; [11]; [12]] /\ genuine P s0 st (es1 ++ es2) /\
  run st es1 = Some st1 /\ (forall k, (k < 3)%nat -> arrived P s0 st es1 k) /\ delivered st1 = [10] /\ run st1 es2 = Some st2 /\ (forall k, (1 <= k < 3)%nat -> arrived P s0 st1 es2 k) /\ delivered st2 = [10; 11].
Proof.
  destruct z_run as (st1 & R1 & D1 & st2 & R2 & D2). exists zP, 65535, z0, z1, st1, z2, st2.
  change (z0 = newStream CONNECTED 1 65534 /\ zP = [[10]; [11]; [12]] /\ genuine zP 65535 z0 (z1 ++ z2) /\ run z0 z1 = Some st1 /\ (forall k, (k < 3)%nat -> arrived zP 65535 z0 z1 k) /\ delivered st1 = [10] /\ run st1 z2 = Some st2 /\ (forall k, (1 <= k < 3)%nat -> arrived zP 65535 st1 z2 k) /\ delivered st2 = [10; 11]).
  exact (conj eq_refl (conj eq_refl (conj z_genuine (conj R1 (conj z_arrived (conj D1 (conj R2 (conj (z_again st1 R1) D2)))))))).
Qed.

Lemma hang n : Z.of_nat n = 65537 -> run (newStream CONNECTED 1 0) (repeat (Packet (dup 2 1000 [7])) n) = None.
Proof.
  intros Hn. destruct n as [|n]; [lia|]. cbn [repeat run].
  assert (E : exists st, do_event (newStream CONNECTED 1 0) (Packet (dup 2 1000 [7])) = Some st /\ filled 0 2 [7] 1 st) by (eexists; split; [vm_compute; reflexivity|repeat split]).
  destruct E as (st & -> & F). destruct (dup_run 0 2 [7] st ltac:(discriminate) ltac:(unfold u16; lia) eq_refl eq_refl n 1 ltac:(lia) F) as [G|G]; [exact G|lia].
Qed.

(** The buffers of duplicates are never freed: 65537 copies of one packet that waits, and the search
    for a free buffer does not end. *)
Theorem C37_hang_refuted : exists m n, Z.of_nat n = 65537 /\ run (newStream CONNECTED 1 0) (repeat (Packet m) n) = None.
Proof.
  assert (E : exists n, Z.of_nat n = 65537) by (exists (Z.to_nat 65537); now apply Z2Nat.id). destruct E as (n & E). exists (dup 2 1000 [7]), n. split; [exact E|now apply hang].
Qed.

(** Not empty: a stream around the wrap of the numbers. *)
Example C37_example : exists st, run (newStream CONNECTED 1 65533) [data 65535 [11]; data 65534 [10]; Finish 1; data 65534 [10]; data 0 [12]; data 2 [14]; data 1 [13]] = Some st /\ delivered st = [10; 11; 12; 13; 14] /\ consumed (rcv st) = [10].
Proof. eexists. split; [vm_compute; reflexivity|]. split; reflexivity. Qed.

Example C37_hypotheses : let P := [[10]; [11]; [12]] in let es := [data 65535 [11]; data 65534 [10]; Finish 1; data 0 [12]] in
  genuine P 65534 (newStream CONNECTED 1 65533) es /\ zero_in_order P 65534 (newStream CONNECTED 1 65533) es /\ starts 65534 CONNECTED 65533.
Proof.
  cbv zeta. assert (Nr : forall st k, (k < 3)%nat -> near [[10]; [11]; [12]] st k) by (intros st k Hk n Hn _; cbn [length] in Hn; lia). split; [|split; [|left; auto]].
  - cbn [genuine]. repeat (split; [intros m Em _; first [discriminate|injection Em as <-; first [exists 0%nat; split; [repeat split; cbn; lia|apply Nr; lia]|exists 1%nat; split; [repeat split; cbn; lia|apply Nr; lia]|exists 2%nat; split; [repeat split; cbn; lia|apply Nr; lia]]]|split; [intros m Em T; vm_compute in T; discriminate|intros st' E; vm_compute in E; injection E as <-]]). exact I.
  - cbn [zero_in_order]. repeat (split; [intros m Em _ T; first [discriminate|injection Em as <-; first [discriminate T|exists 2%nat; split; [repeat split; cbn; lia|split; [apply Nr; lia|reflexivity]]]]|intros st' E; vm_compute in E; injection E as <-]). exact I.
Qed.

(** * C38 *)

(** What was sent, followed by what is held back, is what was written; the numbers count up from the
    first; a packet sent again was sent before; what is kept was sent, in order; the counter is its
    size. *)
Theorem C38_stream : forall sp q a es st, sp <> CLOSED -> 0 <= q < 65536 -> Forall not_ending es -> run (newStream sp q a) es = Some st ->
  concat (map snd (firsts (outs st))) ++ held_back st = written es /\
  map fst (firsts (outs st)) = map (fun k => (q + Z.of_nat k) mod 65536) (seq 0 (length (firsts (outs st)))) /\
  incl (repeats (outs st)) (firsts (outs st)) /\ sub (kept st) (firsts (outs st)) /\
  sentDataWithoutAckSize (snd_ st) mod 2 ^ 64 = kept_size st mod 2 ^ 64.
Proof.
  intros sp q a es st N Q F R. assert (H := run_send q es [] _ st (new_SI sp q a Q) N F R). pose proof (kept_size_ok _ _ _ H) as K. destruct H as ((_ & S & _) & _ & C & _ & E & _ & G). exact (conj C (conj E (conj G (conj S K)))).
Qed.

(** In every state that can be reached, a packet kept is forgotten only if the message acknowledges it
    by number or names it in a selective ack. *)
Theorem C38_forgotten : forall sp q a es st e st', 0 <= q < 65536 -> run (newStream sp q a) es = Some st -> do_event st e = Some st' -> not_ending e ->
  forall x, In x (kept st) -> In x (kept st') \/ exists m, e = Packet m /\ (mtype m = 0 \/ mtype m = 2) /\ (acknowledged m (fst x) \/ selected m (fst x)).
Proof.
  intros sp q a es st e st' Q R E N. destruct (run_send_any q es [] _ st (new_SI sp q a Q) R) as (W & H). exact (proj2 (event_send q W st e st' H E) N).
Qed.

(** As long as at most 65536 bytes and packets pass, no operation hangs, and every packet sent has 1
    to 1452 bytes. *)
Theorem C38_runs : forall sp q a es, 0 <= q < 65536 -> zlen (written es) + data_packets es <= 65536 ->
  exists st, run (newStream sp q a) es = Some st /\ Forall (fun x => 1 <= zlen (snd x) <= 1452) (firsts (outs st)).
Proof.
  intros sp q a es Q B. assert (N : NI 0 (newStream sp q a)) by (refine (conj _ (conj (Forall_nil _) _)); cbn; [lia|unfold zlen; cbn; lia]).
  destruct (run_N q es [] 0 _ (new_SI sp q a Q) N ltac:(change (zlen (@nil Z)) with 0; lia)) as (st & c & R & (_ & F & _)). exists st. split; assumption.
Qed.

Example C38_example : exists st, run (newStream CONNECTED 65535 0) [Write (repeat 5 700) true; Timeout; Packet {| mtype := 2; seq_nr := 1; ack_nr := 65535; wnd := 1000; exts := []; payload := [] |}; Write [1; 2] false] = Some st /\
  map (fun x => (fst x, length (snd x))) (firsts (outs st)) = [(65535, 700%nat); (0, 2%nat)] /\ map (fun x => (fst x, length (snd x))) (repeats (outs st)) = [(65535, 700%nat)] /\ kept st = [(0, [1; 2])].
Proof. eexists. split; [vm_compute; reflexivity|]. repeat split. Qed.

(** * C39 *)

(** Every datagram is parsed without reading outside it; if it is accepted, header, extensions and
    payload make up the datagram. *)
Theorem C39_header : forall d, bytes_ok d -> exists h, getUtpPacketHeaderSize d = Ok h /\ (h = 0 \/ 20 <= h <= zlen d) /\
  exists o, readDatagram d = Ok o /\ (h = 0 <-> o = None) /\
  forall m, o = Some m -> d = firstn 20 d ++ encode_exts (exts m) ++ payload m /\ first_type (exts m) = nth 1 d 0 /\ zlen (firstn 20 d ++ encode_exts (exts m)) = h.
Proof.
  intros d B. destruct (header_ok d B) as (h & H1 & H2). exists h. split; [assumption|]. split; [destruct H2 as [?|(? & _)]; auto|]. unfold readDatagram. rewrite H1. cbn [bind]. destruct (Z.eqb_spec h 0) as [->|N].
  - exists None. split; [reflexivity|]. split; [tauto|]. discriminate.
  - destruct H2 as [?|(R & es & W & F & E)]; [contradiction|]. unfold zlen in R. destruct (byteAt_ok d 0) as (tv & T1 & _); [lia|]. destruct (byteAt_ok d 1) as (e & E1 & E2); [lia|]. rewrite T1, E1. cbn [bind]. rewrite <- E2, W. cbn [bind]. eexists. split; [reflexivity|]. split; [split; [contradiction|discriminate]|].
    intros m Hm. injection Hm as <-. cbn [exts payload]. assert (D : d = firstn 20 d ++ encode_exts es ++ skipn (Z.to_nat h) d) by (rewrite <- E; symmetry; apply firstn_skipn). split; [exact D|]. split; [exact F|].
    assert (L : zlen d = zlen (firstn 20 d ++ encode_exts es) + zlen (skipn (Z.to_nat h) d)) by (rewrite <- zlen_app, <- app_assoc, <- D; reflexivity). unfold zlen in *. rewrite skipn_length in L. lia.
Qed.

Example C39_example : readDatagram ([1 * 16 * 2 + 1; 1; 0; 7] ++ repeat 0 12 ++ [0; 5; 0; 9] ++ [0; 4; 1; 0; 0; 0]) = Ok (Some {| mtype := 2; seq_nr := 5; ack_nr := 9; wnd := 0; exts := [(1, [1; 0; 0; 0])]; payload := [] |}).
Proof. vm_compute. reflexivity. Qed.

(** * C40 *)

(** As long as packet 0 never waits, the bitmask can be written without reading outside the list of
    stored packets, names exactly the packets stored, and all of them unless it is 98 bytes long.
    Bit [j] stands for the packet [j + 2] behind the acknowledged one. Missing: packet 0 waiting,
    refuted below. *)
Theorem C40_mask_partial : forall P s0 sp q a es st, Forall (fun p => p <> []) P -> (sp = CONNECTED \/ sp = SYN_RECV) -> a = (s0 - 1) mod 65536 -> 0 <= q < 65536 ->
  genuine P s0 (newStream sp q a) es -> zero_in_order P s0 (newStream sp q a) es -> ~ In Close es -> run (newStream sp q a) es = Some st ->
  exists n mask, delivered st = concat (firstn n P) /\ ack (rcv st) = (s0 + Z.of_nat n - 1) mod 65536 /\ selectiveAck (rcv st) = Ok mask /\
  (forall j, (j < 8 * length mask)%nat -> (bit mask j = true <-> exists i, In (i, (ack (rcv st) + 2 + Z.of_nat j) mod 65536) (received (rcv st)))) /\
  ((length mask < 98)%nat -> forall i s, In (i, s) (received (rcv st)) -> exists j, (j < 8 * length mask)%nat /\ s = (ack (rcv st) + 2 + Z.of_nat j) mod 65536).
Proof.
  intros P s0 sp q a es st N Sp Ha Q G Z Nc R.
  assert (St : starts s0 sp a) by (left; auto).
  assert (Sp' : step (newStream sp q a) <> SYN_SEND /\ step (newStream sp q a) <> CLOSED) by (cbn; destruct Sp as [-> | ->]; split; discriminate). destruct Sp' as (Sp1 & Sp2).
  destruct (run_live P s0 N es 0 [] _ st (new_RI P s0 sp q a St) (ex_intro _ q (ex_intro _ [] (new_SI sp q a Q))) G Z Nc Sp1 Sp2 ltac:(intros x []) R) as (n & ks & _ & I & _ & L).
  destruct I as (I1 & I2 & I3 & I4 & (I5 & I6) & I7 & I8). rewrite app_nil_r in I4.
  assert (St' : step st <> SYN_SEND /\ step st <> CLOSED).
  { clear - R Sp1 Sp2 Nc Q. assert (H : SI q [] (newStream sp q a)) by now apply new_SI. revert H R Sp1 Sp2. generalize (newStream sp q a). generalize (@nil Z). induction es as [|e es IH]; intros W s H R A B; cbn [run] in R; [injection R as <-; auto|].
    destruct (do_event s e) as [s1|] eqn:D; [|discriminate]. destruct (event_send q W s e s1 H D) as ((W' & H' & _) & _). apply (IH ltac:(intros Q'; apply Nc; now right) W' s1 H' R).
    - destruct e as [d g|m|cn| |]; cbn [do_event] in D.
      + unfold write in D. destruct (step s) eqn:T; try congruence; apply SI_split in H; destruct H as (W0 & M & _ & Pp); rewrite (proj2 (proj2 (writeLoop_ok q _ _ _ _ _ W0 M Pp (or_intror eq_refl) D))); congruence.
      + unfold readUdpPacket in D. assert (U : forall s2 b, updateState s m = Some (s2, b) -> step s2 <> SYN_SEND) by (intros s2 b U; destruct (updateState_ok q W s m s2 b H U) as (_ & _ & _ & _ & _ & _ & X & _ & _ & Y & _); destruct b; [rewrite (Y eq_refl); destruct (step s); congruence|destruct (X eq_refl) as (-> & _); assumption]).
        destruct (mtype m =? 2); [destruct (updateState s m) as [[s2 b]|]; [|discriminate]; injection D as <-; now apply (U s2 b)|]. destruct (mtype m =? 0).
        * destruct (payload m); [now injection D as <-|]. destruct (updateState s m) as [[s2 b]|]; [|discriminate]. specialize (U s2 b eq_refl). destruct b; [|now injection D as <-]. destruct (step s2) eqn:T; try congruence; try (destruct (receiveData _ _ _ _) as [[bs r]|]; [|discriminate]; injection D as <-; cbn; congruence); injection D as <-; congruence.
        * destruct (mtype m =? 1); [destruct (step s) eqn:T; injection D as <-; cbn; congruence|]. destruct (mtype m =? 3); injection D as <-; cbn; assumption.
      + injection D as <-. exact A.
      + injection D as <-. rewrite (proj1 (proj2 (proj2 (timeout_ok q W s H)))). exact A.
      + exfalso. apply Nc. now left.
    - destruct e as [d g|m|cn| |]; cbn [do_event] in D.
      + destruct (write_ok q W s d g s1 H B D) as (_ & _ & ->). exact B.
      + unfold readUdpPacket in D. assert (U : forall s2 b, updateState s m = Some (s2, b) -> step s2 <> CLOSED) by (intros s2 b U; destruct (updateState_ok q W s m s2 b H U) as (_ & _ & _ & _ & _ & _ & X & _ & _ & Y & _); destruct b; [rewrite (Y eq_refl); destruct (step s); congruence|destruct (X eq_refl) as (-> & _); assumption]).
        destruct (mtype m =? 2); [destruct (updateState s m) as [[s2 b]|]; [|discriminate]; injection D as <-; now apply (U s2 b)|]. destruct (mtype m =? 0).
        * destruct (payload m); [now injection D as <-|]. destruct (updateState s m) as [[s2 b]|]; [|discriminate]. specialize (U s2 b eq_refl). destruct b; [|now injection D as <-]. destruct (step s2) eqn:T; try congruence; (destruct (receiveData _ _ _ _) as [[bs r]|]; [|discriminate]; injection D as <-; cbn; congruence).
        * destruct (mtype m =? 1); [destruct (step s) eqn:T; injection D as <-; cbn; congruence|]. destruct (mtype m =? 3); injection D as <-; cbn; assumption.
      + injection D as <-. exact B.
      + injection D as <-. rewrite (proj1 (proj2 (proj2 (timeout_ok q W s H)))). exact B.
      + exfalso. apply Nc. now left. }
  destruct St' as (St1 & St2). specialize (I7 St1 St2).
  assert (F : Forall (fun x => (n < snd x)%nat /\ Z.of_nat (snd x) < Z.of_nat n + 32768) ks) by (eapply Forall_impl; [|exact I5]; cbn; intros; lia).
  destruct (selective_ok s0 n ks (rcv st) I7 I4 I6 F) as (mask & M1 & M2 & M3). exists n, mask. split; [assumption|]. split; [exact I7|]. split; [assumption|].
  assert (Nm : forall j, (ack (rcv st) + 2 + Z.of_nat j) mod 65536 = number s0 (n + 1 + j)) by (intros j; rewrite I7; unfold u16, number; lia).
  rewrite Forall_forall in F, M3. split.
  - intros j Hj. rewrite M2 by assumption. rewrite has_in, Nm, I4. split; [intros (i & Hi); exists i; apply in_map_iff; exists (i, (n + 1 + j)%nat); auto|]. intros (i & Hi). apply in_map_iff in Hi. destruct Hi as ((i' & k) & E & Hk). unfold tag in E. cbn [fst snd] in E. injection E as -> E.
    assert (Lm : (length mask <= 98)%nat). { clear - M1. unfold selectiveAck in M1. destruct (_ =? 0); [injection M1 as <-; cbn; lia|]. unfold prepareSelectiveAckData in M1. assert (Len : forall n s l x, ackBytes n s l = Ok x -> length x = n) by (induction n as [|n IH]; intros s l x E; cbn [ackBytes] in E; [now injection E as <-|]; destruct (ackByte 8 1 0 s l) as [[[b s'] l']|]; [|discriminate]; cbn [bind] in E; destruct (ackBytes n s' l') as [y|] eqn:Y; [|discriminate]; cbn [bind] in E; injection E as <-; cbn; f_equal; now apply (IH s' l')). apply Len in M1. rewrite M1. unfold getSelectiveAckDataSize. destruct (received (rcv st)); [cbn; lia|]. cbv zeta. unfold u8. match goal with |- context [u32 (u32 ?x + 7)] => generalize (u32 x + 7) end. intros y. unfold u32. lia. }
    specialize (F _ Hk). cbn in F. apply Z.eqb_eq in E. rewrite number_eq in E by lia. apply Z.eqb_eq in E. replace (n + 1 + j)%nat with k by lia. eauto.
  - intros Lm i s Hi. rewrite I4 in Hi. apply in_map_iff in Hi. destruct Hi as ((i' & k) & E & Hk). unfold tag in E. cbn [fst snd] in E. injection E as -> <-. specialize (F _ Hk). destruct (M3 _ Hk) as [X|X]; [|lia]. cbn in F, X. exists (k - (n + 1))%nat. split; [lia|]. rewrite Nm. f_equal. lia.
Qed.

(** The sender drops exactly the packets a selective ack names. *)
Theorem C40_dropped : forall sp q a es st base m mask, 0 <= q < 65536 -> run (newStream sp q a) es = Some st -> in_flight base st -> ack_nr m = (base - 1) mod 65536 -> (length mask <= 255)%nat ->
  sub (kept (ackSelective st m mask)) (kept st) /\
  forall x, In x (kept (ackSelective st m mask)) <-> In x (kept st) /\ ~ exists j, (j < 8 * length mask)%nat /\ bit mask j = true /\ fst x = (ack_nr m + 2 + Z.of_nat j) mod 65536.
Proof.
  intros sp q a es st base m mask Q R Fl E L. destruct (run_send_any q es [] _ st (new_SI sp q a Q) R) as (W & H). split; [exact (proj1 (ackSelective_kept q W st m mask H))|]. intros x. rewrite (selective_exact q W base st m mask H Fl E L), filter_In.
  assert (Eq : existsb (Z.eqb (fst x)) (ackedNumbers (ack_nr m) mask) = true <-> exists j, (j < 8 * length mask)%nat /\ bit mask j = true /\ fst x = (ack_nr m + 2 + Z.of_nat j) mod 65536).
  { rewrite existsb_exists. split.
    - intros (s & Hs & Es). apply Z.eqb_eq in Es. apply acked_in in Hs. destruct Hs as (i & j & Hi & Hj & T & ->). exists (i * 8 + j)%nat. split; [lia|]. unfold bit. rewrite Nat.div_add_l, (Nat.div_small j 8), Nat.add_0_r by lia. replace ((i * 8 + j) mod 8)%nat with j by (rewrite Nat.add_comm, Nat.mod_add, Nat.mod_small by lia; reflexivity). split; [assumption|]. rewrite Es. f_equal. lia.
    - intros (j & Hj & T & Es). exists (fst x). split; [|apply Z.eqb_refl]. apply acked_in. exists (j / 8)%nat, (j mod 8)%nat. split; [lia|]. split; [lia|]. split; [exact T|]. rewrite Es. f_equal. lia. }
  destruct (existsb (Z.eqb (fst x)) (ackedNumbers (ack_nr m) mask)); cbn [negb]; split; intros (A & B); (split; [exact A|]); try discriminate; try reflexivity.
  - exfalso. apply B. now apply Eq.
  - intros C. apply Eq in C. discriminate.
Qed.

(** Packet 0 in the way: packet 1 is stored and the bitmask does not name it. *)
Theorem C40_zero_refuted : exists st mask, run (newStream CONNECTED 1 65534) [data 0 [11]; data 1 [12]; data 65535 [10]] = Some st /\ ack (rcv st) = 65535 /\ In 1 (map snd (received (rcv st))) /\ selectiveAck (rcv st) = Ok mask /\ (0 < length mask)%nat /\ bit mask 0 = false.
Proof. eexists. exists [0]. split; [vm_compute; reflexivity|]. split; [reflexivity|]. split; [right; now left|]. split; [vm_compute; reflexivity|]. split; [cbn; lia|reflexivity]. Qed.

Example C40_example : exists st mask, run (newStream CONNECTED 1 100) [data 103 [11]; data 112 [12]; data 104 [13]] = Some st /\ selectiveAck (rcv st) = Ok mask /\ mask = [6; 4].
Proof. eexists. eexists. split; [vm_compute; reflexivity|]. split; vm_compute; reflexivity. Qed.

Example C40_flight : exists st, run (newStream CONNECTED 10 100) [Write [1] true; Write [2] true; Write [3] true] = Some st /\ in_flight 10 st /\
  kept (ackSelective st {| mtype := 2; seq_nr := 0; ack_nr := 9; wnd := 0; exts := []; payload := [] |} [1]) = [(10, [1]); (12, [3])].
Proof.
  eexists. split; [vm_compute; reflexivity|]. split; [|vm_compute; reflexivity]. exists [10; 11; 12]. split; [reflexivity|]. split; repeat constructor; lia.
Qed.

Print Assumptions C37_in_order.
Print Assumptions C37_delivered_partial.
Print Assumptions C37_zero_refuted.
Print Assumptions C37_hang_refuted.
Print Assumptions C38_stream.
Print Assumptions C38_forgotten.
Print Assumptions C38_runs.
Print Assumptions C39_header.
Print Assumptions C40_mask_partial.
Print Assumptions C40_dropped.
Print Assumptions C40_zero_refuted.
