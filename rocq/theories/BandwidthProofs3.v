(** No starvation when the limit leaves room for the waiting requests, and the
    burst bound. *)
From Verif Require Import BaseLemmas BandwidthModel BandwidthSpec BandwidthProofs BandwidthProofs2.

Lemma waiting_filter c f q : Forall req_ok q -> waiting c (filter f q) <= waiting c q.
Proof.
  induction 1 as [|r q (H & _) F IH]; cbn [filter waiting]; [lia|].
  destruct (f r); cbn [waiting]; destruct (existsb _ _); lia.
Qed.

Lemma waiting_in c q r : Forall req_ok q -> In r q -> In c (r_chans r) -> 0 < waiting c q.
Proof.
  intros F. induction F as [|x q Hx F IH]; intros Hr Hc; [destruct Hr|].
  cbn [waiting]. pose proof (waiting_nonneg c q F). destruct Hx as (? & _).
  destruct Hr as [->|Hr].
  - apply mem_In in Hc. unfold mem in Hc. rewrite Hc. lia.
  - specialize (IH Hr Hc). destruct (existsb _ _); lia.
Qed.

Lemma distribute_serves dt q r : forall b m keep out b' m',
  Forall req_ok q -> chans_ok m -> covers q m -> In r q ->
  (forall c, In c (r_chans r) -> c_limit (m c) = 0 \/ c_sum (m c) <= c_dist (m c)) ->
  distribute dt q b m = (keep, out, b', m') ->
  exists r', same_request r r' /\
    (r_assigned r' = r_size r' \/ 1 <= r_assigned r') /\
    (In r' out \/ (In r' keep /\ r_ttl r' = r_ttl r - dt /\ 0 < r_ttl r')).
Proof.
  induction q as [|x q IH]; intros b m keep out b' m' F K C Hr Hs H; [destruct Hr|].
  cbn [distribute] in H. inversion F as [|? ? Hx Fq]; subst.
  set (x0 := withTtl x (r_ttl x - dt)) in *.
  assert (Hx0 : req_ok x0) by exact Hx.
  assert (W := fun c => waiting_nonneg c q Fq).
  destruct (assignBandwidth m x0) as [[m1 x1] a] eqn:A. pose proof A as A0.
  apply assign_ok in A; try assumption.
  2:{ intros c Hc Hl. apply (C c Hl). apply (waiting_in c (x :: q) x F); [left; reflexivity|exact Hc]. }
  destruct A as (A1 & A2 & A3 & A4).
  change (r_chans x0) with (r_chans x) in *. change (r_prio x0) with (r_prio x) in *.
  change (r_size x0) with (r_size x) in *. change (r_assigned x0) with (r_assigned x) in *.
  assert (SAME : forall c, c_limit (m1 c) = c_limit (m c) /\ c_sum (m1 c) = c_sum (m c) /\
                           c_dist (m1 c) = c_dist (m c)).
  { intros c. rewrite A3. destruct (mem c _); [|auto].
    destruct (useQuota_at a (m c)) as (U1 & U2 & U3 & _). auto. }
  assert (SR : same_request x x1) by (subst x1; repeat split).
  destruct Hr as [->|Hr].
  - (* this request *)
    assert (G : r_assigned x1 = r_size x1 \/ 1 <= r_assigned x1).
    { pose proof Hx as (P1 & P2 & _). unfold assignBandwidth in A0.
      change (r_size x0) with (r_size r) in A0. change (r_assigned x0) with (r_assigned r) in A0.
      destruct (r_size r - r_assigned r =? 0) eqn:E.
      - left. inversion A0; subst. subst x0. cbn. lia.
      - right. change (r_prio x0) with (r_prio r) in A0. change (r_chans x0) with (r_chans r) in A0.
        pose proof (share_pos m (r_prio r) (r_chans r) (r_size r - r_assigned r) K P1 ltac:(lia) Hs).
        inversion A0; subst. cbn. lia. }
    exists x1. split; [exact SR|]. split; [exact G|].
    destruct (finished x1) eqn:Fi.
    + destruct (distribute dt q _ m1) as [[[k0 o0] b0] m0]. inversion H; subst. left. left. reflexivity.
    + destruct (distribute dt q _ m1) as [[[k0 o0] b0] m0]. inversion H; subst. right.
      split; [left; reflexivity|]. split; [reflexivity|].
      unfold finished in Fi. apply orb_false_iff in Fi. destruct Fi as (F1 & F2).
      apply orb_false_iff in F1. destruct F1 as (F1 & _). lia.
  - (* a later one *)
    assert (K1 : chans_ok m1 /\ covers q m1).
    { assert (Q1 : forall c, 0 < c_limit (m c) -> mem c (r_chans x) = true ->
        0 < c_sum (m c) /\ a <= c_quota (m c) /\
        (0 < waiting c q -> c_dist (m c) * waiting c q <= (c_quota (m c) - a) * c_sum (m c))).
      { intros c Hl M. destruct Hx as (P1 & _). destruct (C c Hl) as (C1 & C2).
        { cbn [waiting]. fold (mem c (r_chans x)). rewrite M. specialize (W c). lia. }
        split; [exact C1|].
        cbn [waiting] in C2. fold (mem c (r_chans x)) in C2. rewrite M in C2.
        specialize (A4 c (proj1 (mem_In _ _) M) Hl).
        destruct (K c) as (_ & _ & K3 & _). specialize (W c). split; nia. }
      split.
      - intros c. rewrite A3. destruct (mem c (r_chans x)) eqn:M; [|apply K].
        destruct (useQuota_at a (m c)) as (U1 & U2 & U3 & U4). specialize (Q1 c).
        destruct (K c) as (X1 & X2 & X3 & X4). unfold chan_ok. rewrite U1, U2, U3, U4.
        destruct (c_limit (m c) =? 0) eqn:E; [lia|].
        destruct (Q1 ltac:(lia) M) as (_ & ? & _). lia.
      - intros c Hl Hw. rewrite A3 in *. destruct (mem c (r_chans x)) eqn:M.
        + destruct (useQuota_at a (m c)) as (U1 & U2 & U3 & U4). rewrite U1 in Hl.
          rewrite U2, U3, U4. destruct (c_limit (m c) =? 0) eqn:E; [lia|].
          destruct (Q1 c Hl M) as (? & ? & ?). split; auto.
        + specialize (C c Hl). cbn [waiting] in C. fold (mem c (r_chans x)) in C. rewrite M in C.
          rewrite Z.add_0_l in C. apply C. exact Hw. }
    destruct K1 as (K1 & C1).
    assert (Hs1 : forall c, In c (r_chans r) -> c_limit (m1 c) = 0 \/ c_sum (m1 c) <= c_dist (m1 c)).
    { intros c Hc. destruct (SAME c) as (-> & -> & ->). apply Hs. exact Hc. }
    destruct (finished x1).
    + destruct (distribute dt q _ m1) as [[[k0 o0] b0] m0] eqn:D. inversion H; subst.
      destruct (IH _ _ _ _ _ _ Fq K1 C1 Hr Hs1 D) as (r' & R1 & R2 & R3).
      exists r'. split; [exact R1|]. split; [exact R2|].
      destruct R3 as [R3|R3]; [left; right; exact R3|right; exact R3].
    + destruct (distribute dt q _ m1) as [[[k0 o0] b0] m0] eqn:D. inversion H; subst.
      destruct (IH _ _ _ _ _ _ Fq K1 C1 Hr Hs1 D) as (r' & R1 & R2 & R3).
      exists r'. split; [exact R1|]. split; [exact R2|].
      destruct R3 as [R3|(R3 & R4)]; [left; exact R3|right; split; [right; exact R3|exact R4]].
Qed.

Lemma tick_serves s dt act r : mgr_ok s -> 0 <= dt -> In r (m_queue s) -> m_abort s = false ->
  act (r_user r) = true ->
  (forall c, In c (r_chans r) -> c_limit (m_chans s c) = 0 \/
     (1000 * waiting c (m_queue s) <= c_limit (m_chans s c) * Z.min dt 3000 + 500
      /\ waiting c (m_queue s) <= inf)) ->
  let '(s', out) := updateQuotas dt act s in
  exists r', same_request r r' /\
    (r_assigned r' = r_size r' \/ 1 <= r_assigned r') /\
    (In r' out \/ (In r' (m_queue s') /\ r_ttl r' = r_ttl r - Z.min dt 3000 /\ 0 < r_ttl r')).
Proof.
  intros (F & K & B) Hdt Hr AB Ha Hc.
  unfold updateQuotas. rewrite AB. destruct (m_queue s) as [|r0 q0] eqn:Q; [destruct Hr|].
  rewrite <- Q in *. clear Q r0 q0.
  set (d := if 3000 <? dt then 3000 else dt).
  assert (Hd : 0 <= d <= 3000) by (unfold d; destruct (3000 <? dt) eqn:?; lia).
  assert (Ed : d = Z.min dt 3000) by (unfold d; destruct (3000 <? dt) eqn:?; lia).
  destruct (dropInactive act (m_queue s) (m_bytes s) (m_chans s)) as [[[q1 out1] b1] m1] eqn:D.
  destruct (sumPrios q1 [] m1) as [cs m2] eqn:Sm.
  destruct (tick_passes act d _ _ _ _ _ _ _ _ _ F K Hd D Sm) as (T1 & T2 & T3).
  apply dropInactive_ok in D; try assumption. destruct D as (D1 & D2 & D3 & D4 & D5).
  assert (F1 : Forall req_ok q1) by (rewrite D1; apply filter_ok; assumption).
  destruct (distribute d q1 b1 (onChans (updateQuota d) cs m2)) as [[[q2 out2] b2] m4] eqn:DD.
  assert (Hr1 : In r q1) by (rewrite D1; apply filter_In; auto).
  assert (HS : forall c, In c (r_chans r) ->
     c_limit (onChans (updateQuota d) cs m2 c) = 0 \/
     c_sum (onChans (updateQuota d) cs m2 c) <= c_dist (onChans (updateQuota d) cs m2 c)).
  { intros c Hi. destruct (T3 c) as (X1 & X2 & _).
    destruct (X2 (waiting_in c q1 r F1 Hr1 Hi)) as (X3 & X4). rewrite X1, X3.
    destruct (Hc c Hi) as [?|(Y1 & Y2)]; [left; assumption|].
    destruct (K c) as (L & _).
    destruct (Z.eq_dec (c_limit (m_chans s c)) 0); [left; assumption|right].
    specialize (X4 ltac:(lia)).
    assert (waiting c q1 <= waiting c (m_queue s)) by (rewrite D1; apply waiting_filter; assumption).
    assert (waiting c (m_queue s) <= (c_limit (m_chans s c) * d + 500) / 1000).
    { apply Z.div_le_lower_bound; [lia|]. rewrite Ed. lia. }
    lia. }
  destruct (distribute_serves d q1 r _ _ _ _ _ _ F1 T1 T2 Hr1 HS DD) as (r' & R1 & R2 & R3).
  exists r'. split; [exact R1|]. split; [exact R2|]. cbn [m_queue].
  destruct R3 as [R3|(R3 & R4 & R5)].
  - left. rewrite <- in_rev. apply in_or_app. right. exact R3.
  - right. rewrite <- Ed. auto.
Qed.

Lemma same_trans a b c : same_request a b -> same_request b c -> same_request a c.
Proof. unfold same_request. intuition congruence. Qed.

(** Along a roomy run a queued request is answered or its time has not come. *)
Lemma run_serves es : forall s r, mgr_ok s -> Forall event_ok es -> In r (m_queue s) ->
  m_abort s = false -> roomy (r_user r) (r_chans r) es s ->
  exists s' out r', run es s = Ok (s', out) /\ same_request r r' /\
    ((In r' out /\ (r_assigned r' = r_size r' \/ 1 <= r_assigned r')) \/
     (In r' (m_queue s') /\ r_ttl r' = r_ttl r - elapsed es /\ (0 < ticks es -> 0 < r_ttl r'))).
Proof.
  induction es as [|e es IH]; intros s r M F Hr AB R.
  - exists s, [], r. split; [reflexivity|]. split; [unfold same_request; auto|].
    right. cbn. split; [exact Hr|]. split; lia.
  - inversion F as [|? ? He Fe]; subst. cbn [roomy] in R. destruct R as (R1 & R2).
    cbn [run].
    destruct e as [u a p named|dt act|].
    + destruct (request_ok s u a p named M He) as (s1 & o1 & X1 & X2 & X3 & X4 & (tl & X5) & _).
      rewrite X1 in R2 |- *. cbn [bind].
      assert (Hr1 : In r (m_queue s1)) by (rewrite X5; apply in_or_app; left; exact Hr).
      destruct (IH s1 r X2 Fe Hr1 ltac:(congruence) R2) as (s2 & o2 & r' & Y1 & Y2 & Y3).
      rewrite Y1. cbn [bind]. exists s2, (o1 ++ o2), r'. split; [reflexivity|]. split; [exact Y2|].
      cbn [elapsed ticks]. destruct Y3 as [(Y3 & Y4)|Y3]; [left|right; exact Y3].
      split; [apply in_or_app; right; exact Y3|exact Y4].
    + destruct R1 as (Ra & Rb). cbn [event_ok] in He.
      pose proof (tick_ok s dt act M He) as T.
      pose proof (tick_serves s dt act r M He Hr AB Ra Rb) as V.
      cbn [step] in R2 |- *. destruct (updateQuotas dt act s) as [s1 o1].
      destruct T as (T1 & _ & T2 & _). destruct V as (r1 & V1 & V2 & V3). cbn [bind].
      destruct V3 as [V3|(V3 & V4 & V5)].
      * destruct (run_ok es s1 T1 Fe) as (s2 & o2 & Z1 & _). rewrite Z1. cbn [bind].
        exists s2, (o1 ++ o2), r1. split; [reflexivity|]. split; [exact V1|]. left.
        split; [apply in_or_app; left; exact V3|exact V2].
      * pose proof V1 as (W1 & W2 & W3 & W4 & W5).
        rewrite <- W1, <- W4 in R2.
        destruct (IH s1 r1 T1 Fe V3 ltac:(congruence) R2) as (s2 & o2 & r' & Y1 & Y2 & Y3).
        rewrite Y1. cbn [bind]. exists s2, (o1 ++ o2), r'. split; [reflexivity|].
        split; [exact (same_trans _ _ _ V1 Y2)|].
        cbn [elapsed ticks]. destruct Y3 as [(Y3 & Y4)|(Y3 & Y4 & Y5)].
        -- left. split; [apply in_or_app; right; exact Y3|exact Y4].
        -- right. split; [exact Y3|]. split; [lia|]. intros _.
           assert (0 <= ticks es) by (clear; induction es as [|[]]; cbn [ticks]; lia).
           destruct (Z.eq_dec (ticks es) 0) as [E|E]; [|apply Y5; lia].
           assert (elapsed es = 0).
           { clear - E. induction es as [|e es IHe]; [reflexivity|]. destruct e; cbn [ticks elapsed] in *.
             - auto.
             - assert (0 <= ticks es) by (clear; induction es as [|[]]; cbn [ticks]; lia). lia.
             - auto. }
           lia.
    + destruct R1.
Qed.

(** Burst: without returned quota a channel never holds more than about three
    seconds of its limit. *)
Definition no_returns (e : event) (s : mgr) : Prop :=
  match e with
  | Tick _ act => forallb (fun r => act (r_user r)) (m_queue s) = true
  | _ => True
  end.

Definition burst (l : Z) : Z := 3 * l + 2.

Lemma tick_burst s dt act c : mgr_ok s -> 0 <= dt ->
  forallb (fun r => act (r_user r)) (m_queue s) = true ->
  0 < c_limit (m_chans s c) ->
  3 * c_limit (m_chans s c) + 2 + (c_limit (m_chans s c) * 3000 + 500) / 1000 <= inf ->
  c_quota (m_chans s c) <= burst (c_limit (m_chans s c)) ->
  c_quota (m_chans (fst (updateQuotas dt act s)) c) <= burst (c_limit (m_chans s c)).
Proof.
  intros (F & K & B) Hdt HA Hl Hinf Hb. unfold updateQuotas.
  destruct (m_abort s); [exact Hb|]. destruct (m_queue s) as [|r0 q0] eqn:Q; [exact Hb|].
  rewrite <- Q in *. clear Q r0 q0.
  set (d := if 3000 <? dt then 3000 else dt).
  assert (Hd : 0 <= d <= 3000) by (unfold d; destruct (3000 <? dt) eqn:?; lia).
  destruct (dropInactive act (m_queue s) (m_bytes s) (m_chans s)) as [[[q1 out1] b1] m1] eqn:D.
  destruct (sumPrios q1 [] m1) as [cs m2] eqn:Sm.
  destruct (tick_passes act d _ _ _ _ _ _ _ _ _ F K Hd D Sm) as (T1 & T2 & T3).
  apply dropInactive_ok in D; try assumption. destruct D as (D1 & D2 & D3 & D4 & D5).
  assert (F1 : Forall req_ok q1) by (rewrite D1; apply filter_ok; assumption).
  destruct (distribute d q1 b1 (onChans (updateQuota d) cs m2)) as [[[q2 out2] b2] m4] eqn:DD.
  apply distribute_ok in DD; try assumption. destruct DD as (E1 & E2 & E3 & E4 & E5).
  cbn [fst m_chans]. destruct (E5 c) as (_ & E6 & _). destruct (D5 c) as (X1 & _ & _ & X4 & _).
  specialize (X4 HA).
  apply sumPrios_ok in Sm; try assumption; [|constructor|intros ? []|].
  2:{ intros c' Hw _. destruct (D5 c') as (_ & _ & _ & _ & X). apply X. right. exact Hw. }
  destruct Sm as (S1 & S2 & S3).
  rewrite onChans_at in E6 by exact S1.
  assert (L2 : c_limit (m2 c) = c_limit (m_chans s c)) by (rewrite S3; exact X1).
  assert (Q2 : c_quota (m2 c) = c_quota (m_chans s c)) by (rewrite S3; exact X4).
  destruct (mem c cs); [|lia].
  assert (K2 : chan_ok (m2 c)).
  { rewrite S3. destruct (D4 c) as (? & ? & ? & ?). pose proof (waiting_nonneg c q1 F1).
    unfold chan_ok, withSum. cbn [c_limit c_quota c_dist c_sum]. lia. }
  destruct (updateQuota_ok d (m2 c) K2 Hd) as (_ & _ & _ & U4).
  destruct U4 as (_ & _ & U7 & _); [lia|]. rewrite L2, Q2 in U7.
  assert ((c_limit (m_chans s c) * d + 500) / 1000 <= (c_limit (m_chans s c) * 3000 + 500) / 1000).
  { apply Z.div_le_mono; nia. }
  unfold burst in *.
  destruct (inf - c_quota (m_chans s c) <? (c_limit (m_chans s c) * d + 500) / 1000) eqn:G; lia.
Qed.

Fixpoint all_active (es : list event) (s : mgr) : Prop :=
  match es with
  | [] => True
  | e :: es' => no_returns e s /\ match step e s with Ok (s1, _) => all_active es' s1 | UB => False end
  end.

Lemma run_burst es : forall s c, mgr_ok s -> Forall event_ok es -> all_active es s ->
  0 < c_limit (m_chans s c) ->
  3 * c_limit (m_chans s c) + 2 + (c_limit (m_chans s c) * 3000 + 500) / 1000 <= inf ->
  c_quota (m_chans s c) <= burst (c_limit (m_chans s c)) ->
  exists s' out, run es s = Ok (s', out) /\ c_quota (m_chans s' c) <= burst (c_limit (m_chans s c)).
Proof.
  induction es as [|e es IH]; intros s c M F A Hl Hi Hb.
  - exists s, []. split; [reflexivity|exact Hb].
  - inversion F as [|? ? He Fe]; subst. cbn [all_active] in A. destruct A as (A1 & A2). cbn [run].
    assert (STEP : exists s1 o1, step e s = Ok (s1, o1) /\ mgr_ok s1 /\
       c_limit (m_chans s1 c) = c_limit (m_chans s c) /\
       c_quota (m_chans s1 c) <= burst (c_limit (m_chans s c))).
    { destruct e as [u a p named|dt act|].
      - destruct (request_ok s u a p named M He) as (s1 & o1 & X1 & X2 & _ & _ & _ & X4).
        exists s1, o1. destruct (X4 c) as (Y1 & Y2 & _). repeat split; auto; try apply X2. lia.
      - pose proof (tick_ok s dt act M He) as T. pose proof (tick_burst s dt act c M He A1 Hl Hi Hb) as U.
        cbn [step]. destruct (updateQuotas dt act s) as [s1 o1]. destruct T as (T1 & _ & _ & T3).
        exists s1, o1. refine (conj eq_refl (conj T1 (conj _ U))). apply T3.
      - cbn [step]. pose proof (close_ok s M) as T. destruct (close s) as [s1 o1] eqn:E.
        destruct T as (T1 & _ & T3). exists s1, o1. refine (conj eq_refl (conj T1 (conj _ _))); [apply T3|].
        unfold close in E. inversion E; subst. exact Hb. }
    destruct STEP as (s1 & o1 & X1 & X2 & X3 & X4). rewrite X1 in A2 |- *. cbn [bind].
    destruct (IH s1 c X2 Fe A2) as (s2 & o2 & Y1 & Y2); try (rewrite X3; assumption).
    rewrite Y1. cbn [bind]. exists s2, (o1 ++ o2). split; [reflexivity|]. rewrite X3 in Y2. exact Y2.
Qed.

(** Starvation at a tiny limit: one byte per second shared by six requests. *)
Definition hungry (ttl : Z) (u : nat) : request := MkReq u 1 0 100 ttl [0%nat] [0%nat].
Definition hungry6 (ttl : Z) : list request :=
  map (hungry ttl) [0%nat; 1%nat; 2%nat; 3%nat; 4%nat; 5%nat].

Lemma hungry_tick ttl b m : c_limit (m 0%nat) = 1 -> 0 <= c_quota (m 0%nat) <= 5 ->
  exists m', updateQuotas 1000 (fun _ => true) (MkMgr (hungry6 ttl) b false m)
     = (MkMgr (hungry6 (ttl - 1000)) b false m', []) /\
     c_limit (m' 0%nat) = 1 /\ 0 <= c_quota (m' 0%nat) <= 5.
Proof.
  intros L Q. unfold updateQuotas. cbn [m_abort m_queue hungry6 map].
  change (3000 <? 1000) with false. cbn iota.
  cbn [dropInactive r_user m_bytes m_chans hungry r_chans].
  set (m1 := onChans (fun c => withSum c 0) [0%nat] _).
  assert (M1 : m1 0%nat = withSum (m 0%nat) 0) by reflexivity.
  clearbody m1.
  cbn [sumPrios addPrio r_prio r_chans hungry].
  repeat (rewrite ?M1; cbn [withSum c_sum c_dist c_quota c_limit setChan Nat.eqb];
    change (0 =? 0) with true; change (0 + 1 =? 0) with false; change (0 + 1 + 1 =? 0) with false;
    change (0 + 1 + 1 + 1 =? 0) with false; change (0 + 1 + 1 + 1 + 1 =? 0) with false;
    change (0 + 1 + 1 + 1 + 1 + 1 =? 0) with false; cbn iota).
  cbn [app onChans].
  set (m3 := setChan 0 (updateQuota 1000 _) _).
  assert (M3 : c_limit (m3 0%nat) = 1 /\ c_sum (m3 0%nat) = 6 /\ 0 <= c_dist (m3 0%nat) <= 5 /\
               0 <= c_quota (m3 0%nat) <= 5).
  { unfold m3, setChan. cbn [Nat.eqb]. rewrite ?M1. unfold updateQuota.
    cbn [withSum c_sum c_dist c_quota c_limit]. rewrite L. cbn [Z.eqb].
    change (Z.quot (1 * 1000 + 500) 1000) with 1. unfold inf.
    rewrite Z.quot_div_nonneg by lia.
    destruct (2147483647 - c_quota (m 0%nat) <? 1) eqn:E1; [lia|].
    destruct (1 <? (c_quota (m 0%nat) + 1) / 3) eqn:E2; cbn [c_sum c_dist c_quota c_limit]; lia. }
  clearbody m3.
  assert (ONE : forall m, c_limit (m 0%nat) = 1 -> c_sum (m 0%nat) = 6 ->
      0 <= c_dist (m 0%nat) <= 5 -> forall u,
      exists m', assignBandwidth m (withTtl (hungry ttl u) (r_ttl (hungry ttl u) - 1000))
        = (m', hungry (ttl - 1000) u, 0) /\ c_limit (m' 0%nat) = 1 /\ c_sum (m' 0%nat) = 6 /\
          c_dist (m' 0%nat) = c_dist (m 0%nat) /\ c_quota (m' 0%nat) = c_quota (m 0%nat)).
  { clear. intros m L S6 D u. unfold assignBandwidth, hungry, withTtl. cbn [r_size r_assigned r_prio r_chans r_ttl r_user r_named].
    change (100 - 0 =? 0) with false. cbn iota. cbn [share]. rewrite L, S6.
    change (1 =? 0) with false. change (6 =? 0) with false. cbn iota.
    rewrite Z.quot_div_nonneg by lia.
    assert (Hz : Z.min (c_dist (m 0%nat) * 1 / 6) (100 - 0) = 0) by lia. rewrite Hz.
    eexists. split; [reflexivity|].
    cbn [onChans setChan Nat.eqb]. destruct (useQuota_at 0 (m 0%nat)) as (U1 & U2 & U3 & U4).
    rewrite U1, U2, U3, U4, L. cbn. rewrite Z.sub_0_r. repeat split; auto. }
  assert (DIST : forall us m b, c_limit (m 0%nat) = 1 -> c_sum (m 0%nat) = 6 ->
      0 <= c_dist (m 0%nat) <= 5 ->
      exists m', distribute 1000 (map (hungry ttl) us) b m = (map (hungry (ttl - 1000)) us, [], b, m') /\
        c_limit (m' 0%nat) = 1 /\ c_quota (m' 0%nat) = c_quota (m 0%nat)).
  { intros us. induction us as [|u us IH]; intros m0 b0 H1 H2 H3; cbn [map distribute].
    - exists m0. auto.
    - destruct (ONE m0 H1 H2 H3 u) as (m' & O1 & O2 & O3 & O4 & O5). rewrite O1.
      assert (Fi : finished (hungry (ttl - 1000) u) = false).
      { unfold finished, hungry. cbn [r_assigned r_size r_ttl]. change (0 <? 0) with false.
        rewrite andb_false_r. reflexivity. }
      rewrite Fi. destruct (IH m' (b0 - 0) O2 O3 ltac:(lia)) as (m2 & I1 & I2 & I3).
      rewrite I1. exists m2. rewrite Z.sub_0_r. split; [reflexivity|]. split; [exact I2|congruence]. }
  destruct M3 as (A1 & A2 & A3 & A4).
  destruct (DIST [0;1;2;3;4;5]%nat m3 b A1 A2 A3) as (m' & B1 & B2 & B3).
  cbn [map] in B1. rewrite B1. exists m'. split; [reflexivity|]. split; [exact B2|lia].
Qed.
