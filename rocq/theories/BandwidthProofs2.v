(** The limiter over whole runs. *)
From Verif Require Import BaseLemmas BandwidthModel BandwidthSpec BandwidthProofs.

Definition mgr_ok (s : mgr) : Prop :=
  Forall req_ok (m_queue s) /\ chans_ok (m_chans s) /\ m_bytes s = owed (m_queue s).

Lemma queueChans_ok amount l : forall m ks m',
  queueChans amount l m = (ks, m') -> NoDup l -> chans_ok m -> 0 <= amount ->
  NoDup ks /\ incl ks l /\ (length ks <= length l)%nat /\ chans_ok m' /\
  forall c, c_limit (m' c) = c_limit (m c) /\ c_quota (m' c) <= c_quota (m c) /\
    (0 < c_limit (m c) ->
     c_quota (m' c) + (if mem c l then if mem c ks then 0 else amount else 0) <= c_quota (m c)).
Proof.
  induction l as [|i l IH]; intros m ks m' H N K A; cbn [queueChans] in H.
  - inversion H; subst. refine (conj (NoDup_nil _) (conj _ (conj _ (conj K _)))).
    + intros x [].
    + auto.
    + intros c. cbn. split; [reflexivity|]. lia.
  - inversion N as [|? ? Ni Nl]; subst.
    destruct (needQueueing amount (m i)) as [b c0] eqn:E.
    destruct (queueChans amount l (setChan i c0 m)) as [ks0 m0] eqn:D.
    inversion H; subst ks m'. clear H.
    assert (HC : chan_ok c0 /\ c_limit c0 = c_limit (m i) /\ c_quota c0 <= c_quota (m i) /\
                 (0 < c_limit (m i) -> c_quota c0 + (if b then 0 else amount) <= c_quota (m i))).
    { unfold needQueueing in E. pose proof (K i) as KI. destruct KI as (X1 & X2 & X3 & X4).
      destruct (c_limit (m i) =? 0) eqn:E1.
      - inversion E; subst. split; [apply K|]. split; [reflexivity|]. lia.
      - destruct (_ <? _) eqn:E2; inversion E; subst.
        + split; [apply K|]. split; [reflexivity|]. lia.
        + unfold chan_ok, withQuota. cbn [c_limit c_quota c_dist c_sum]. lia. }
    destruct HC as (HC1 & HC2 & HC3 & HC4).
    apply IH in D; try assumption.
    2:{ intros c. unfold setChan. destruct (Nat.eqb c i); [assumption|apply K]. }
    destruct D as (D1 & D2 & D3 & D4 & D5).
    assert (Nk : ~ In i ks0) by (intros X; apply Ni; apply D2; exact X).
    refine (conj _ (conj _ (conj _ (conj D4 _)))).
    + destruct b; [constructor; assumption|assumption].
    + destruct b; intros x Hx.
      * destruct Hx as [Hx|Hx]; [left; exact Hx|right; apply D2; exact Hx].
      * right. apply D2. exact Hx.
    + destruct b; cbn [length]; lia.
    + intros c. specialize (D5 c). unfold setChan in D5. unfold mem. cbn [existsb].
      fold (mem c l).
      destruct (Nat.eqb c i) eqn:Ec.
      * apply Nat.eqb_eq in Ec. subst c. cbn [orb].
        rewrite (proj2 (mem_not i l) Ni) in D5. destruct D5 as (Y1 & Y2 & Y3).
        split; [congruence|]. split; [lia|]. intros Hl. specialize (Y3 ltac:(lia)).
        destruct b.
        -- cbn [existsb]. rewrite Nat.eqb_refl. cbn [orb]. lia.
        -- fold (mem i ks0). rewrite (proj2 (mem_not i ks0) Nk). lia.
      * cbn [orb]. destruct D5 as (Y1 & Y2 & Y3). split; [exact Y1|]. split; [exact Y2|].
        intros Hl. specialize (Y3 Hl). destruct b; [|exact Y3].
        cbn [existsb]. rewrite Ec. cbn [orb]. exact Y3.
Qed.

Lemma request_ok s u a p named : mgr_ok s -> event_ok (Request u a p named) ->
  exists s' out, step (Request u a p named) s = Ok (s', out) /\ mgr_ok s' /\
    Forall (fun r => 0 <= r_assigned r <= r_size r) out /\
    (m_abort s' = m_abort s) /\
    (exists tail, m_queue s' = m_queue s ++ tail) /\
    forall c, c_limit (m_chans s' c) = c_limit (m_chans s c) /\
      c_quota (m_chans s' c) <= c_quota (m_chans s c) /\
      (0 < c_limit (m_chans s c) ->
       handed c out + c_quota (m_chans s' c) + pots c (m_queue s')
       <= c_quota (m_chans s c) + pots c (m_queue s)).
Proof.
  intros (F & K & B) (A1 & A2 & A3 & A4). unfold step, requestBandwidth.
  destruct (m_abort s) eqn:AB.
  { cbn. eexists s, []. refine (conj eq_refl (conj _ (conj (Forall_nil _) (conj AB (conj _ _))))).
    - exact (conj F (conj K B)).
    - exists []. rewrite app_nil_r. reflexivity.
    - intros c. cbn. split; [reflexivity|]. lia. }
  destruct named as [|i0 l0].
  { cbn [bind]. eexists s, _. refine (conj eq_refl (conj _ (conj _ (conj AB (conj _ _))))).
    - exact (conj F (conj K B)).
    - destruct (a =? 0); constructor; [cbn; lia|constructor].
    - exists []. rewrite app_nil_r. reflexivity.
    - intros c. split; [reflexivity|]. split; [lia|]. intros _.
      destruct (a =? 0); cbn; lia. }
  set (named := i0 :: l0) in *.
  destruct (queueChans a named (m_chans s)) as [ks m] eqn:Q.
  apply queueChans_ok in Q; try assumption; [|lia].
  destruct Q as (Q1 & Q2 & Q3 & Q4 & Q5).
  destruct ks as [|k ks].
  - cbn [bind]. eexists _, _. refine (conj eq_refl (conj _ (conj _ (conj _ (conj _ _))))).
    + refine (conj F (conj Q4 B)).
    + destruct (a =? 0); constructor; [cbn; lia|constructor].
    + reflexivity.
    + exists []. cbn [m_queue]. rewrite app_nil_r. reflexivity.
    + intros c. destruct (Q5 c) as (Y1 & Y2 & Y3). cbn [m_chans m_queue].
      split; [exact Y1|]. split; [exact Y2|]. intros Hl. specialize (Y3 Hl). cbn [mem existsb] in Y3.
      fold (mem c named) in Y3.
      destruct (a =? 0) eqn:E; cbn [handed r_named r_assigned]; fold (mem c named); destruct (mem c named);
      cbn in Y3; lia.
  - assert (Hz : (2 <? zlen (k :: ks)) = false) by (unfold zlen in *; lia).
    rewrite Hz. cbn [bind Z.eqb]. eexists _, _.
    refine (conj eq_refl (conj _ (conj (Forall_nil _) (conj _ (conj _ _))))).
    + refine (conj _ (conj Q4 _)); cbn [m_queue m_bytes].
      * apply Forall_app. split; [exact F|]. constructor; [|constructor].
        unfold req_ok. cbn [r_prio r_assigned r_size r_chans r_named].
        repeat split; try lia; assumption.
      * rewrite owed_app. cbn [owed r_size r_assigned]. lia.
    + reflexivity.
    + eexists. reflexivity.
    + intros c. destruct (Q5 c) as (Y1 & Y2 & Y3). cbn [m_chans m_queue handed].
      split; [exact Y1|]. split; [exact Y2|]. intros Hl. specialize (Y3 Hl).
      rewrite pots_app. cbn [pots]. unfold paid. cbn [r_named r_chans r_assigned r_size].
      destruct (mem c named); [destruct (mem c (k :: ks))|]; lia.
Qed.

Lemma filter_ok q f : Forall req_ok q -> Forall req_ok (filter f q).
Proof. intros F. apply Forall_forall. intros x Hx. apply filter_In in Hx.
  rewrite Forall_forall in F. apply F. tauto. Qed.

Lemma handed_dropped c l : handed c (map (fun r => withAssigned r 0) l) = 0.
Proof. induction l as [|r l IH]; cbn; [reflexivity|]. destruct (existsb _ _); lia. Qed.

Definition credit (l dt : Z) : Z := (l * Z.min dt 3000 + 500) / 1000.

(** The state after the third pass, used twice below. *)
Lemma tick_passes act dt q b m q1 out1 b1 m1 cs m2 :
  Forall req_ok q -> chans_ok m -> 0 <= dt <= 3000 ->
  dropInactive act q b m = (q1, out1, b1, m1) ->
  sumPrios q1 [] m1 = (cs, m2) ->
  let m3 := onChans (updateQuota dt) cs m2 in
  chans_ok m3 /\ covers q1 m3 /\
  forall c, c_limit (m3 c) = c_limit (m c) /\
    (0 < waiting c q1 -> c_sum (m3 c) = waiting c q1 /\
       (0 < c_limit (m c) -> Z.min inf ((c_limit (m c) * dt + 500) / 1000) <= c_dist (m3 c))) /\
    (0 < c_limit (m c) -> c_quota (m3 c) <= c_quota (m1 c) + (c_limit (m c) * dt + 500) / 1000).
Proof.
  intros F K Hdt D Sm m3.
  apply dropInactive_ok in D; try assumption. destruct D as (D1 & D2 & D3 & D4 & D5).
  assert (F1 : Forall req_ok q1) by (rewrite D1; apply filter_ok; assumption).
  apply sumPrios_ok in Sm; try assumption; [|constructor|intros ? []|].
  2:{ intros c Hw _. destruct (D5 c) as (_ & _ & _ & _ & X). apply X. right. exact Hw. }
  destruct Sm as (S1 & S2 & S3).
  assert (W := fun c => waiting_nonneg c q1 F1).
  assert (K2 : chans_ok m2).
  { intros c. rewrite S3. destruct (D4 c) as (? & ? & ? & ?). specialize (W c).
    unfold chan_ok, withSum. cbn [c_limit c_quota c_dist c_sum]. lia. }
  assert (AT : forall c, m3 c = if mem c cs then updateQuota dt (m2 c) else m2 c).
  { intros c. apply onChans_at. exact S1. }
  assert (MW : forall c, mem c cs = true <-> 0 < waiting c q1).
  { intros c. rewrite mem_In, S2. cbn. tauto. }
  assert (SUM : forall c, 0 < waiting c q1 -> c_sum (m2 c) = waiting c q1).
  { intros c Hw. rewrite S3. cbn [withSum c_sum]. destruct (D5 c) as (_ & _ & _ & _ & X).
    rewrite X by (right; exact Hw). lia. }
  assert (LIM : forall c, c_limit (m2 c) = c_limit (m c)).
  { intros c. rewrite S3. cbn. apply D5. }
  refine (conj _ (conj _ _)).
  - intros c. rewrite AT. destruct (mem c cs); [|apply K2]. apply updateQuota_ok; [apply K2|exact Hdt].
  - intros c Hl Hw. rewrite AT in *. pose proof (proj2 (MW c) Hw) as M. rewrite M in *.
    destruct (updateQuota_ok dt (m2 c) (K2 c) Hdt) as (U1 & U2 & U3 & U4).
    rewrite U2 in Hl. destruct U4 as (U5 & U6 & U7 & U8); [lia|].
    rewrite U3, U6, (SUM c Hw). split; [exact Hw|]. lia.
  - intros c. destruct (updateQuota_ok dt (m2 c) (K2 c) Hdt) as (U1 & U2 & U3 & U4).
    rewrite AT. rewrite LIM in *.
    refine (conj _ (conj _ _)).
    + destruct (mem c cs); [|apply LIM]. rewrite U2. reflexivity.
    + intros Hw. rewrite (proj2 (MW c) Hw). rewrite U3. split; [apply SUM; exact Hw|].
      intros Hl. apply U4. lia.
    + intros Hl. assert (c_quota (m2 c) = c_quota (m1 c)) by (rewrite S3; reflexivity).
      destruct (mem c cs).
      * destruct U4 as (U5 & _); [lia|]. lia.
      * assert (0 <= (c_limit (m c) * dt + 500) / 1000) by (apply Z.div_pos; nia). lia.
Qed.

Lemma tick_ok s dt act : mgr_ok s -> 0 <= dt ->
  let '(s', out) := updateQuotas dt act s in
  mgr_ok s' /\ Forall (fun r => 0 <= r_assigned r <= r_size r) out /\ m_abort s' = m_abort s /\
  forall c, c_limit (m_chans s' c) = c_limit (m_chans s c) /\
    (0 < c_limit (m_chans s c) ->
     handed c out + c_quota (m_chans s' c) + pots c (m_queue s')
     <= c_quota (m_chans s c) + pots c (m_queue s) + credit (c_limit (m_chans s c)) dt).
Proof.
  intros (F & K & B) Hdt.
  assert (CR : forall c, 0 < c_limit (m_chans s c) -> 0 <= credit (c_limit (m_chans s c)) dt).
  { intros c Hl. apply Z.div_pos; nia. }
  assert (TRIV : mgr_ok s /\ Forall (fun r => 0 <= r_assigned r <= r_size r) [] /\ m_abort s = m_abort s /\
    forall c, c_limit (m_chans s c) = c_limit (m_chans s c) /\
    (0 < c_limit (m_chans s c) ->
     handed c [] + c_quota (m_chans s c) + pots c (m_queue s)
     <= c_quota (m_chans s c) + pots c (m_queue s) + credit (c_limit (m_chans s c)) dt)).
  { refine (conj (conj F (conj K B)) (conj (Forall_nil _) (conj eq_refl _))).
    intros c. split; [reflexivity|]. intros Hl. specialize (CR c Hl). cbn [handed]. lia. }
  unfold updateQuotas. destruct (m_abort s) eqn:AB; [destruct TRIV as (a0 & b0 & _ & d0); rewrite AB; exact (conj a0 (conj b0 (conj eq_refl d0)))|].
  destruct (m_queue s) as [|r0 q0] eqn:Q.
  { destruct TRIV as (a0 & b0 & _ & d0). rewrite Q. exact (conj a0 (conj b0 (conj AB d0))). }
  clear TRIV. rewrite <- Q in *. clear Q r0 q0.
  set (d := if 3000 <? dt then 3000 else dt).
  assert (Hd : 0 <= d <= 3000) by (unfold d; destruct (3000 <? dt) eqn:?; lia).
  assert (Ed : d = Z.min dt 3000) by (unfold d; destruct (3000 <? dt) eqn:?; lia).
  destruct (dropInactive act (m_queue s) (m_bytes s) (m_chans s)) as [[[q1 out1] b1] m1] eqn:D.
  destruct (sumPrios q1 [] m1) as [cs m2] eqn:Sm.
  destruct (tick_passes act d _ _ _ _ _ _ _ _ _ F K Hd D Sm) as (T1 & T2 & T3).
  apply dropInactive_ok in D; try assumption. destruct D as (D1 & D2 & D3 & D4 & D5).
  assert (F1 : Forall req_ok q1) by (rewrite D1; apply filter_ok; assumption).
  destruct (distribute d q1 b1 (onChans (updateQuota d) cs m2)) as [[[q2 out2] b2] m4] eqn:DD.
  apply distribute_ok in DD; try assumption. destruct DD as (E1 & E2 & E3 & E4 & E5).
  cbn [m_queue m_bytes m_chans m_abort].
  refine (conj (conj E1 (conj E4 _)) (conj _ (conj eq_refl _))).
  - cbn [m_bytes m_queue]. lia.
  - apply Forall_rev. apply Forall_app. split.
    + rewrite D2. apply Forall_map. apply Forall_forall. intros r Hr. apply filter_In in Hr.
      rewrite Forall_forall in F. destruct (F r (proj1 Hr)) as (_ & ? & _). cbn. lia.
    + eapply Forall_impl; [|exact E2]. intros r (_ & ? & _). assumption.
  - intros c. specialize (T3 c). specialize (D5 c). specialize (E5 c).
    destruct T3 as (T3 & _ & T4). destruct D5 as (_ & _ & X3 & _). destruct E5 as (E5 & _ & E6).
    split; [congruence|]. intros Hl. rewrite handed_rev, handed_app.
    specialize (T4 Hl). specialize (X3 ltac:(lia)). specialize (E6 ltac:(lia)).
    assert (handed c out1 = 0) by (rewrite D2; apply handed_dropped).
    unfold credit. rewrite <- Ed. lia.
Qed.

Lemma close_ok s : mgr_ok s ->
  let '(s', out) := close s in
  mgr_ok s' /\ Forall (fun r => 0 <= r_assigned r <= r_size r) out /\
  forall c, c_limit (m_chans s' c) = c_limit (m_chans s c) /\
     handed c out + c_quota (m_chans s' c) + pots c (m_queue s')
     <= c_quota (m_chans s c) + pots c (m_queue s).
Proof.
  intros (F & K & B). unfold close. cbn [m_queue m_chans].
  refine (conj (conj (Forall_nil _) (conj K eq_refl)) (conj _ _)).
  - apply Forall_rev. eapply Forall_impl; [|exact F]. intros r (_ & ? & _). assumption.
  - intros c. split; [reflexivity|]. rewrite handed_rev. cbn [pots].
    assert (handed c (m_queue s) <= pots c (m_queue s)); [|lia].
    clear B K. induction F; cbn [handed pots]; [lia|].
    fold (mem c (r_named x)). unfold paid. destruct H as (_ & ? & _).
    destruct (mem c (r_named x)); [destruct (mem c (r_chans x))|]; lia.
Qed.

(** Quota credited over a run. *)
Fixpoint credits (l : Z) (es : list event) : Z :=
  match es with
  | [] => 0
  | Tick dt _ :: es' => credit l dt + credits l es'
  | _ :: es' => credits l es'
  end.

Lemma run_ok es : forall s, mgr_ok s -> Forall event_ok es ->
  exists s' out, run es s = Ok (s', out) /\ mgr_ok s' /\
    Forall (fun r => 0 <= r_assigned r <= r_size r) out /\
    forall c, c_limit (m_chans s' c) = c_limit (m_chans s c) /\
      (0 < c_limit (m_chans s c) ->
       handed c out + c_quota (m_chans s' c) + pots c (m_queue s')
       <= c_quota (m_chans s c) + pots c (m_queue s) + credits (c_limit (m_chans s c)) es).
Proof.
  induction es as [|e es IH]; intros s M F.
  - cbn [run]. eexists _, _. refine (conj eq_refl (conj M (conj (Forall_nil _) _))).
    intros c. cbn. split; [reflexivity|]. lia.
  - inversion F as [|? ? He Fe]; subst. cbn [run].
    assert (STEP : exists s1 o1, step e s = Ok (s1, o1) /\ mgr_ok s1 /\
      Forall (fun r => 0 <= r_assigned r <= r_size r) o1 /\
      forall c, c_limit (m_chans s1 c) = c_limit (m_chans s c) /\
      (0 < c_limit (m_chans s c) ->
       handed c o1 + c_quota (m_chans s1 c) + pots c (m_queue s1)
       <= c_quota (m_chans s c) + pots c (m_queue s) + credits (c_limit (m_chans s c)) [e])).
    { destruct e as [u a p named|dt act|].
      - destruct (request_ok s u a p named M He) as (s1 & o1 & X1 & X2 & X3 & _ & _ & X4).
        exists s1, o1. refine (conj X1 (conj X2 (conj X3 _))). intros c.
        destruct (X4 c) as (Y1 & _ & Y2). split; [exact Y1|]. intros Hl. specialize (Y2 Hl).
        cbn [credits]. lia.
      - pose proof (tick_ok s dt act M He) as T. cbn [step].
        destruct (updateQuotas dt act s) as [s1 o1]. destruct T as (T1 & T2 & _ & T3).
        exists s1, o1. refine (conj eq_refl (conj T1 (conj T2 _))). intros c.
        destruct (T3 c) as (Y1 & Y2). split; [exact Y1|]. intros Hl. specialize (Y2 Hl).
        cbn [credits]. lia.
      - pose proof (close_ok s M) as T. cbn [step].
        destruct (close s) as [s1 o1]. destruct T as (T1 & T2 & T3).
        exists s1, o1. refine (conj eq_refl (conj T1 (conj T2 _))). intros c.
        destruct (T3 c) as (Y1 & Y2). split; [exact Y1|]. intros Hl.
        cbn [credits]. lia. }
    destruct STEP as (s1 & o1 & X1 & X2 & X3 & X4). rewrite X1. cbn [bind].
    destruct (IH s1 X2 Fe) as (s2 & o2 & Z1 & Z2 & Z3 & Z4). rewrite Z1. cbn [bind].
    exists s2, (o1 ++ o2). refine (conj eq_refl (conj Z2 (conj _ _))).
    + apply Forall_app. split; assumption.
    + intros c. destruct (X4 c) as (A1 & A2). destruct (Z4 c) as (B1 & B2).
      split; [congruence|]. intros Hl. specialize (A2 Hl). rewrite A1 in B2. specialize (B2 Hl).
      rewrite handed_app. destruct e; cbn [credits] in *; lia.
Qed.

Lemma credits_le l es : 0 <= l -> Forall event_ok es ->
  1000 * credits l es <= l * elapsed es + 500 * ticks es.
Proof.
  intros Hl. induction 1 as [|e es He F IH]; cbn [credits elapsed ticks]; [lia|].
  destruct e; try exact IH. unfold credit.
  assert (1000 * ((l * Z.min dt 3000 + 500) / 1000) <= l * Z.min dt 3000 + 500)
    by (apply Z.mul_div_le; lia).
  lia.
Qed.

Lemma init_ok lim : (forall c, 0 <= lim c <= inf) -> mgr_ok (init lim).
Proof.
  intros H. unfold mgr_ok, init. cbn. refine (conj (Forall_nil _) (conj _ eq_refl)).
  intros c. unfold chan_ok. cbn. specialize (H c). lia.
Qed.
