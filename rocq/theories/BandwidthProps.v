(** C26: the bandwidth limiter. *)
From Verif Require Import BaseLemmas BandwidthModel BandwidthSpec BandwidthProofs
  BandwidthProofs2 BandwidthProofs3.

(** Over any run from the start, what users of a limited channel receive is at
    most the limit times the elapsed time, up to half a byte of rounding per
    tick; nothing undefined happens. *)
Theorem C26_never_above_limit : forall lim es c,
  (forall i, 0 <= lim i <= inf) -> Forall event_ok es -> 0 < lim c ->
  exists s out, run es (init lim) = Ok (s, out) /\
    1000 * handed c out <= lim c * elapsed es + 500 * ticks es.
Proof.
  intros lim es c Hl F Hc.
  destruct (run_ok es (init lim) (init_ok lim Hl) F) as (s & out & R & M & _ & H).
  exists s, out. split; [exact R|]. destruct (H c) as (_ & H1).
  cbn [init m_chans c_limit c_quota m_queue pots] in H1. specialize (H1 Hc).
  pose proof (credits_le (lim c) es ltac:(lia) F).
  destruct M as (M1 & M2 & _). pose proof (pots_nonneg c _ M1). destruct (M2 c) as (_ & ? & _). lia.
Qed.
Print Assumptions C26_never_above_limit.

(** The same for any later stretch [es2] of a run in which users stay
    connected: only a burst of three seconds' worth (and two bytes), and what
    was already set aside for the queued requests, comes on top. *)
Theorem C26_burst : forall lim es1 es2 c,
  (forall i, 0 <= lim i <= inf) -> Forall event_ok (es1 ++ es2) -> 0 < lim c ->
  6 * lim c + 3 <= inf ->
  all_active es1 (init lim) ->
  exists s1 out1 s2 out2, run es1 (init lim) = Ok (s1, out1) /\ run es2 s1 = Ok (s2, out2) /\
    1000 * handed c out2 <= 1000 * (3 * lim c + 2) + 1000 * pots c (m_queue s1)
                            + lim c * elapsed es2 + 500 * ticks es2.
Proof.
  intros lim es1 es2 c Hl F Hc Hi A. apply Forall_app in F. destruct F as (F1 & F2).
  pose proof (init_ok lim Hl) as M0.
  destruct (run_burst es1 (init lim) c M0 F1 A) as (s1 & out1 & R1 & B).
  - exact Hc.
  - change (c_limit (m_chans (init lim) c)) with (lim c). lia.
  - unfold burst. cbn. lia.
  - change (c_limit (m_chans (init lim) c)) with (lim c) in B.
    destruct (run_ok es1 (init lim) M0 F1) as (s1' & out1' & R1' & M & _ & H).
    rewrite R1 in R1'. inversion R1'; subst s1' out1'.
    destruct (run_ok es2 s1 M F2) as (s2 & out2 & R2 & M2 & _ & H2).
    exists s1, out1, s2, out2. split; [exact R1|]. split; [exact R2|].
    destruct (H c) as (L1 & _). cbn [init m_chans c_limit] in L1. destruct (H2 c) as (_ & H3).
    rewrite L1 in H3. specialize (H3 Hc).
    pose proof (credits_le (lim c) es2 ltac:(lia) F2).
    destruct M2 as (N1 & N2 & _). pose proof (pots_nonneg c _ N1). destruct (N2 c) as (_ & ? & _).
    unfold burst in B. lia.
Qed.
Print Assumptions C26_burst.

(** No request gets more than it asked for, and never a negative amount. *)
Theorem C26_at_most_asked : forall lim es s out,
  (forall i, 0 <= lim i <= inf) -> Forall event_ok es ->
  run es (init lim) = Ok (s, out) ->
  forall r, In r out -> 0 <= r_assigned r <= r_size r.
Proof.
  intros lim es s out Hl F R r Hr.
  destruct (run_ok es (init lim) (init_ok lim Hl) F) as (s' & out' & R' & _ & H & _).
  rewrite R in R'. inversion R'; subst. rewrite Forall_forall in H. apply H. exact Hr.
Qed.
Print Assumptions C26_at_most_asked.

(** The byte counter of the queue is always what the queued requests still miss. *)
Theorem C26_queued_bytes : forall lim es s out,
  (forall i, 0 <= lim i <= inf) -> Forall event_ok es ->
  run es (init lim) = Ok (s, out) ->
  m_bytes s = owed (m_queue s).
Proof.
  intros lim es s out Hl F R.
  destruct (run_ok es (init lim) (init_ok lim Hl) F) as (s' & out' & R' & (_ & _ & H) & _).
  rewrite R in R'. inversion R'; subst. exact H.
Qed.
Print Assumptions C26_queued_bytes.

(** A queued request is answered with at least one byte (or all it asked) as
    soon as its ten seconds are over, provided each tick credits every limited
    channel it waits on with at least one byte per unit of waiting priority. *)
Theorem C26_not_starved_partial : forall lim es1 s1 out1 es2 r,
  (forall i, 0 <= lim i <= inf) -> Forall event_ok (es1 ++ es2) ->
  run es1 (init lim) = Ok (s1, out1) -> m_abort s1 = false -> In r (m_queue s1) ->
  roomy (r_user r) (r_chans r) es2 s1 ->
  0 < ticks es2 -> r_ttl r <= elapsed es2 ->
  exists s2 out2 r', run es2 s1 = Ok (s2, out2) /\ In r' out2 /\ same_request r r' /\
    (r_assigned r' = r_size r' \/ 1 <= r_assigned r').
Proof.
  intros lim es1 s1 out1 es2 r Hl F R AB Hr Ro T E. apply Forall_app in F. destruct F as (F1 & F2).
  destruct (run_ok es1 (init lim) (init_ok lim Hl) F1) as (s' & out' & R' & M & _).
  rewrite R in R'. inversion R'; subst s' out'.
  destruct (run_serves es2 s1 r M F2 Hr AB Ro) as (s2 & out2 & r' & X1 & X2 & X3).
  exists s2, out2, r'. split; [exact X1|]. destruct X3 as [(X3 & X4)|(_ & X4 & X5)].
  - auto.
  - specialize (X5 T). lia.
Qed.
Print Assumptions C26_not_starved_partial.

(** Without that room a request can wait forever: at one byte per second, six
    requests on one channel share at most five bytes per tick, every share
    rounds down to nothing and the saved quota is cut back to three bytes. *)
Theorem C26_starved_refuted : exists s0,
  run (map (fun u => Request u 100 1 [0%nat]) [0;1;2;3;4;5]%nat) (init (fun _ => 1)) = Ok (s0, []) /\
  length (m_queue s0) = 6%nat /\
  forall n, exists s, run (repeat (Tick 1000 (fun _ => true)) n) s0 = Ok (s, []) /\
    length (m_queue s) = 6%nat.
Proof.
  eexists. split; [vm_compute; reflexivity|]. split; [reflexivity|].
  assert (G : forall n ttl b m, c_limit (m 0%nat) = 1 -> 0 <= c_quota (m 0%nat) <= 5 ->
    exists s, run (repeat (Tick 1000 (fun _ => true)) n) (MkMgr (hungry6 ttl) b false m) = Ok (s, []) /\
    length (m_queue s) = 6%nat).
  { induction n as [|n IH]; intros ttl b m L Q; cbn [repeat run].
    - eexists. split; reflexivity.
    - destruct (hungry_tick ttl b m L Q) as (m' & H1 & H2 & H3). cbn [step]. rewrite H1. cbn [bind].
      destruct (IH (ttl - 1000) b m' H2 H3) as (s & I1 & I2). rewrite I1. cbn [bind].
      exists s. split; [reflexivity|exact I2]. }
  intros n. apply (G n 10000).
  - reflexivity.
  - cbn. lia.
Qed.
Print Assumptions C26_starved_refuted.

(** Two requests of 20000 bytes at 10000 bytes per second, one disconnecting. *)
Definition ex_events : list event :=
  [Request 1 20000 1 [0%nat]; Request 2 20000 1 [0%nat];
   Tick 1000 (fun _ => true); Tick 1000 (fun u => Nat.eqb u 1); Tick 1000 (fun _ => true)].

Example C26_hypotheses : Forall event_ok ex_events.
Proof.
  unfold ex_events.
  assert (N : NoDup [0%nat]) by (constructor; [intros []|constructor]).
  repeat (apply Forall_cons; [cbn; unfold inf, zlen; cbn; repeat split; try lia; try exact N|]).
  constructor.
Qed.

Example C26_example :
  match run ex_events (init (fun _ => 10000)) with
  | Ok (s, out) => map (fun r => (r_user r, r_assigned r)) out = [(1%nat, 20000); (2%nat, 0)]
  | UB => False
  end.
Proof. vm_compute. reflexivity. Qed.

(** The non starvation hypotheses are met by a slow channel. *)
Fixpoint roomyb (u : nat) (l : list nat) (es : list event) (s : mgr) : bool :=
  match es with
  | [] => true
  | e :: es' =>
    match e with
    | Tick dt act =>
        act u && forallb (fun c => (c_limit (m_chans s c) =? 0) ||
          ((1000 * waiting c (m_queue s) <=? c_limit (m_chans s c) * Z.min dt 3000 + 500)
           && (waiting c (m_queue s) <=? inf))) l
    | Close => false
    | Request _ _ _ _ => true
    end &&
    match step e s with
    | Ok (s1, _) => roomyb u l es' s1
    | UB => false
    end
  end.

Lemma roomyb_ok u l es : forall s, roomyb u l es s = true -> roomy u l es s.
Proof.
  induction es as [|e es IH]; intros s H; [exact I|]. cbn [roomy roomyb] in *.
  apply andb_true_iff in H. destruct H as (H1 & H2). split.
  - destruct e; [exact I| |discriminate]. apply andb_true_iff in H1. destruct H1 as (H1 & H3).
    split; [exact H1|]. intros c Hc. rewrite forallb_forall in H3. specialize (H3 c Hc). lia.
  - destruct (step e s) as [[s1 o]|]; [apply IH; exact H2|discriminate].
Qed.

Definition ex_slow : mgr * request :=
  match run [Request 1 20000 1 [0%nat]; Request 2 20000 1 [0%nat]] (init (fun _ => 10)) with
  | Ok (s, _) => (s, hd (hungry 0 0) (m_queue s))
  | UB => (init (fun _ => 0), hungry 0 0)
  end.

Example C26_roomy : let '(s, r) := ex_slow in
  In r (m_queue s) /\ m_abort s = false /\
  roomy (r_user r) (r_chans r) (repeat (Tick 1000 (fun _ => true)) 10) s /\
  r_ttl r <= elapsed (repeat (Tick 1000 (fun _ => true)) 10).
Proof.
  refine (conj _ (conj _ (conj _ _))).
  - left. reflexivity.
  - reflexivity.
  - apply roomyb_ok. vm_compute. reflexivity.
  - vm_compute. discriminate.
Qed.
