(** Invariants of the bandwidth limiter. *)
From Verif Require Import BaseLemmas BandwidthModel BandwidthSpec.

Definition mem (c : nat) (l : list nat) : bool := existsb (Nat.eqb c) l.

Lemma mem_In c l : mem c l = true <-> In c l.
Proof.
  unfold mem. rewrite existsb_exists. split.
  - intros (x & Hx & E). apply Nat.eqb_eq in E. subst. exact Hx.
  - intros. exists c. split; [assumption|]. apply Nat.eqb_refl.
Qed.

Lemma mem_not c l : mem c l = false <-> ~ In c l.
Proof. rewrite <- mem_In. destruct (mem c l); split; congruence. Qed.

Lemma onChans_at f l : forall m c, NoDup l ->
  onChans f l m c = if mem c l then f (m c) else m c.
Proof.
  induction l as [|i l IH]; intros m c N; [reflexivity|].
  inversion N; subst. cbn [onChans]. rewrite IH by assumption.
  unfold mem. cbn [existsb]. fold (mem c l). unfold setChan.
  destruct (Nat.eqb c i) eqn:E; cbn [orb]; [|reflexivity].
  apply Nat.eqb_eq in E. subst c. apply mem_not in H1. rewrite H1. reflexivity.
Qed.

(** Well formed channels and requests. *)
Definition chan_ok (c : chan) : Prop :=
  0 <= c_limit c <= inf /\ 0 <= c_quota c /\ 0 <= c_dist c /\ 0 <= c_sum c.
Definition chans_ok (m : nat -> chan) : Prop := forall c, chan_ok (m c).

Definition req_ok (r : request) : Prop :=
  1 <= r_prio r /\ 0 <= r_assigned r <= r_size r /\ r_size r <= inf /\
  NoDup (r_chans r) /\ incl (r_chans r) (r_named r).

Lemma incl_mem r c : req_ok r -> mem c (r_chans r) = true -> mem c (r_named r) = true.
Proof. intros (_ & _ & _ & _ & I) H. apply mem_In. apply I. apply mem_In. exact H. Qed.

(** What channel [c] has paid for request [r] but not handed out. *)
Definition paid (c : nat) (r : request) : Z :=
  if mem c (r_named r) then (if mem c (r_chans r) then r_assigned r else r_size r) else 0.
Fixpoint pots (c : nat) (q : list request) : Z :=
  match q with [] => 0 | r :: q' => paid c r + pots c q' end.

Lemma paid_nonneg c r : req_ok r -> 0 <= paid c r.
Proof. intros (_ & H & _). unfold paid. destruct (mem _ _); [destruct (mem _ _)|]; lia. Qed.

Lemma pots_nonneg c q : Forall req_ok q -> 0 <= pots c q.
Proof. induction 1; cbn [pots]; [lia|]. pose proof (paid_nonneg c x H). lia. Qed.

Lemma pots_app c a b : pots c (a ++ b) = pots c a + pots c b.
Proof. induction a; cbn [pots app]; lia. Qed.

Lemma handed_app c a b : handed c (a ++ b) = handed c a + handed c b.
Proof. induction a; cbn [handed app]; lia. Qed.

Lemma handed_rev c a : handed c (rev a) = handed c a.
Proof. induction a; cbn [rev handed]; [reflexivity|]. rewrite handed_app. cbn [handed]. lia. Qed.

Lemma owed_app a b : owed (a ++ b) = owed a + owed b.
Proof. induction a; cbn [owed app]; lia. Qed.

Lemma waiting_nonneg c q : Forall req_ok q -> 0 <= waiting c q.
Proof.
  induction 1; cbn [waiting]; [lia|]. destruct H as (? & _). destruct (existsb _ _); lia.
Qed.

(** First pass. *)
Lemma dropInactive_ok act q : forall b m keep out b' m',
  Forall req_ok q -> chans_ok m ->
  dropInactive act q b m = (keep, out, b', m') ->
  keep = filter (fun r => act (r_user r)) q /\
  out = map (fun r => withAssigned r 0) (filter (fun r => negb (act (r_user r))) q) /\
  b' - owed keep = b - owed q /\
  chans_ok m' /\
  forall c, c_limit (m' c) = c_limit (m c) /\
    c_dist (m' c) = c_dist (m c) /\
    (c_limit (m c) > 0 -> c_quota (m' c) + pots c keep <= c_quota (m c) + pots c q) /\
    (forallb (fun r => act (r_user r)) q = true -> c_quota (m' c) = c_quota (m c)) /\
    ((c_sum (m c) = 0 \/ 0 < waiting c keep) -> c_sum (m' c) = 0).
Proof.
  induction q as [|r q IH]; intros b m keep out b' m' F K H; cbn [dropInactive] in H.
  - inversion H; subst. cbn. refine (conj eq_refl (conj eq_refl (conj eq_refl (conj K _)))).
    intros c. repeat split; auto; intros; lia.
  - inversion F as [|? ? Hr Fq]; subst. cbn [filter].
    destruct Hr as (P1 & P2 & P3 & P4 & P5).
    destruct (act (r_user r)) eqn:A.
    + destruct (dropInactive act q b _) as [[[keep0 out0] b0] m0] eqn:D.
      inversion H; subst keep out b' m'. clear H.
      apply IH in D; [|assumption|].
      2:{ intros c. rewrite onChans_at by assumption. destruct (mem c _); [|apply K].
          destruct (K c) as (? & ? & ? & ?). unfold chan_ok, withSum. cbn. lia. }
      destruct D as (E1 & E2 & E3 & E4 & E5).
      cbn [negb]. refine (conj _ (conj E2 (conj _ (conj E4 _)))).
      * f_equal. exact E1.
      * cbn [owed]. lia.
      * intros c. specialize (E5 c). rewrite onChans_at in E5 by assumption.
        cbn [pots waiting forallb]. rewrite A. cbn [andb]. fold (mem c (r_chans r)).
        destruct (mem c (r_chans r)) eqn:M; cbn [withSum c_limit c_quota c_dist c_sum] in E5;
        destruct E5 as (X1 & X2 & X3 & X4 & X5);
        refine (conj X1 (conj X2 (conj _ (conj X4 _)))).
        -- intros; specialize (X3 H); lia.
        -- intros; apply X5; auto.
        -- intros; specialize (X3 H); lia.
        -- intros; apply X5; lia.
    + destruct (dropInactive act q _ _) as [[[keep0 out0] b0] m0] eqn:D.
      inversion H; subst keep out b' m'. clear H.
      apply IH in D; [|assumption|].
      2:{ intros c. rewrite onChans_at by assumption. destruct (mem c _); [|apply K].
          destruct (K c) as (? & ? & ? & ?). unfold chan_ok, returnQuota, withQuota.
          destruct (c_limit (m c) =? 0); cbn; lia. }
      destruct D as (E1 & E2 & E3 & E4 & E5).
      cbn [negb map]. refine (conj E1 (conj _ (conj _ (conj E4 _)))).
      * f_equal. exact E2.
      * cbn [owed]. lia.
      * intros c. specialize (E5 c). rewrite onChans_at in E5 by assumption.
        cbn [pots forallb]. rewrite A. cbn [andb].
        assert (Hp := incl_mem r c (conj P1 (conj P2 (conj P3 (conj P4 P5))))).
        unfold paid.
        destruct (mem c (r_chans r)) eqn:M.
        -- rewrite (Hp eq_refl). unfold returnQuota in E5.
           destruct (c_limit (m c) =? 0) eqn:L; cbn [withQuota c_limit c_quota c_dist c_sum] in E5;
           destruct E5 as (X1 & X2 & X3 & X4 & X5);
           refine (conj X1 (conj X2 (conj _ (conj _ X5)))); try (intros; discriminate);
           intros; try lia.
        -- destruct E5 as (X1 & X2 & X3 & X4 & X5).
           refine (conj X1 (conj X2 (conj _ (conj _ X5)))); try (intros; discriminate).
           intros G. specialize (X3 G). destruct (mem c (r_named r)); lia.
Qed.

(** Second pass. *)
Lemma addPrio_ok p l : forall acc m acc' m',
  addPrio p l acc m = (acc', m') -> NoDup l -> 1 <= p -> NoDup acc ->
  (forall c, In c acc -> 1 <= c_sum (m c)) ->
  (forall c, In c l -> ~ In c acc -> c_sum (m c) = 0) ->
  NoDup acc' /\ (forall c, In c acc' <-> In c acc \/ In c l) /\
  (forall c, m' c = if mem c l then withSum (m c) (c_sum (m c) + p) else m c).
Proof.
  induction l as [|i l IH]; intros acc m acc' m' H N P Na A0 A1; cbn [addPrio] in H.
  - inversion H; subst. refine (conj Na (conj _ _)); [|reflexivity]. intros; cbn; tauto.
  - inversion N as [|? ? Ni Nl]; subst.
    assert (IA : c_sum (m i) = 0 <-> ~ In i acc).
    { split.
      - intros E Hi. specialize (A0 i Hi). lia.
      - intros Hi. apply A1; [left; reflexivity|exact Hi]. }
    apply IH in H; try assumption.
    + destruct H as (Q1 & Q2 & Q3). refine (conj Q1 (conj _ _)).
      * intros c. rewrite Q2. destruct (c_sum (m i) =? 0) eqn:E.
        -- rewrite in_app_iff. cbn. tauto.
        -- assert (In i acc).
           { destruct (in_dec Nat.eq_dec i acc); [assumption|]. apply IA in n. lia. }
           cbn. split; [tauto|]. intros [?|[?|?]]; subst; tauto.
      * intros c. rewrite Q3. unfold mem. cbn [existsb]. fold (mem c l). unfold setChan.
        destruct (Nat.eqb c i) eqn:E; cbn [orb]; [|reflexivity].
        apply Nat.eqb_eq in E. subst c. apply mem_not in Ni. rewrite Ni. reflexivity.
    + destruct (c_sum (m i) =? 0) eqn:E; [|assumption].
      apply Z.eqb_eq in E. apply IA in E.
      rewrite <- (rev_involutive (acc ++ [i])). apply NoDup_rev. rewrite rev_app_distr. cbn.
      constructor; [rewrite <- in_rev; exact E|apply NoDup_rev; assumption].
    + intros c Hc. unfold setChan. destruct (Nat.eqb c i) eqn:E.
      * cbn [withSum c_sum]. destruct (c_sum (m i) =? 0) eqn:E0; [lia|].
        assert (In i acc).
        { destruct (in_dec Nat.eq_dec i acc); [assumption|]. apply IA in n. lia. }
        specialize (A0 i H0). lia.
      * apply A0. destruct (c_sum (m i) =? 0); [|assumption].
        apply in_app_or in Hc. destruct Hc as [?|[?|[]]]; [assumption|].
        subst. rewrite Nat.eqb_refl in E. discriminate.
    + intros c Hc Hn. unfold setChan. destruct (Nat.eqb c i) eqn:E.
      * apply Nat.eqb_eq in E. subst. contradiction.
      * apply A1; [right; assumption|]. intros Ha. apply Hn.
        destruct (c_sum (m i) =? 0); [|assumption]. apply in_or_app. left. exact Ha.
Qed.

Lemma sumPrios_ok q : forall acc m acc' m',
  sumPrios q acc m = (acc', m') -> Forall req_ok q -> NoDup acc ->
  (forall c, In c acc -> 1 <= c_sum (m c)) ->
  (forall c, 0 < waiting c q -> ~ In c acc -> c_sum (m c) = 0) ->
  NoDup acc' /\ (forall c, In c acc' <-> In c acc \/ 0 < waiting c q) /\
  (forall c, m' c = withSum (m c) (c_sum (m c) + waiting c q)).
Proof.
  induction q as [|r q IH]; intros acc m acc' m' H F Na A0 A1; cbn [sumPrios] in H.
  - inversion H; subst. refine (conj Na (conj _ _)).
    + intros c. cbn. intuition lia.
    + intros c. cbn. rewrite Z.add_0_r. unfold withSum. destruct (m' c). reflexivity.
  - inversion F as [|? ? Hr Fq]; subst. pose proof Hr as (P1 & _ & _ & P4 & _).
    destruct (addPrio _ _ _ _) as [acc1 m1] eqn:D.
    assert (W := fun c => waiting_nonneg c q Fq).
    apply addPrio_ok in D; try assumption.
    2:{ intros c Hc. apply A1. cbn [waiting]. fold (mem c (r_chans r)).
        apply mem_In in Hc. rewrite Hc. specialize (W c). lia. }
    destruct D as (D1 & D2 & D3).
    apply IH in H; try assumption.
    + destruct H as (Q1 & Q2 & Q3). refine (conj Q1 (conj _ _)).
      * intros c. rewrite Q2, D2. cbn [waiting]. fold (mem c (r_chans r)).
        specialize (W c). destruct (mem c (r_chans r)) eqn:M.
        -- apply mem_In in M. split; [|tauto]. intros [[?|?]|?]; [tauto|right; lia|right; lia].
        -- apply mem_not in M. rewrite Z.add_0_l. tauto.
      * intros c. rewrite Q3, D3. cbn [waiting]. fold (mem c (r_chans r)).
        destruct (mem c (r_chans r)); unfold withSum; cbn; f_equal; lia.
    + intros c Hc. rewrite D3. apply D2 in Hc. destruct (mem c (r_chans r)) eqn:M.
      * cbn [withSum c_sum]. destruct (in_dec Nat.eq_dec c acc) as [i|n].
        -- specialize (A0 c i). lia.
        -- rewrite A1; [lia| |exact n]. cbn [waiting]. fold (mem c (r_chans r)). rewrite M.
           specialize (W c). lia.
      * apply mem_not in M. apply A0. tauto.
    + intros c Hw Hn. rewrite D3. destruct (mem c (r_chans r)) eqn:M.
      * exfalso. apply Hn. apply D2. right. apply mem_In. exact M.
      * apply A1.
        -- cbn [waiting]. fold (mem c (r_chans r)). rewrite M. lia.
        -- intros Hi. apply Hn. apply D2. left. exact Hi.
Qed.

(** Third pass. *)
Lemma updateQuota_ok dt c : chan_ok c -> 0 <= dt <= 3000 ->
  chan_ok (updateQuota dt c) /\ c_limit (updateQuota dt c) = c_limit c /\
  c_sum (updateQuota dt c) = c_sum c /\
  (c_limit c > 0 ->
    c_quota (updateQuota dt c) <= c_quota c + (c_limit c * dt + 500) / 1000 /\
    c_dist (updateQuota dt c) = c_quota (updateQuota dt c) /\
    c_quota (updateQuota dt c) <= 3 * c_limit c + 2 + (if inf - c_quota c <? (c_limit c * dt + 500) / 1000 then inf else 0) /\
    Z.min inf ((c_limit c * dt + 500) / 1000) <= c_dist (updateQuota dt c)).
Proof.
  intros (L & Q & D & T) H. unfold updateQuota.
  destruct (c_limit c =? 0) eqn:E.
  - split; [unfold chan_ok; lia|]. split; [reflexivity|]. split; [reflexivity|]. lia.
  - rewrite Z.quot_div_nonneg by nia.
    assert (HA : 0 <= (c_limit c * dt + 500) / 1000 <= 3 * c_limit c).
    { split; [apply Z.div_pos; nia|]. apply Z.lt_succ_r. apply Z.div_lt_upper_bound; nia. }
    set (a := (c_limit c * dt + 500) / 1000) in *.
    rewrite (Z.quot_div_nonneg (c_quota c + a) 3) by lia.
    unfold chan_ok. cbn [c_limit c_quota c_dist c_sum]. unfold inf in *.
    destruct (2147483647 - c_quota c <? a) eqn:B.
    + repeat split; lia.
    + destruct (c_limit c <? (c_quota c + a) / 3) eqn:B2; repeat split; lia.
Qed.

(** The share of one request. *)
Lemma share_ok m p l : forall q, chans_ok m -> 0 <= p -> 0 <= q ->
  0 <= share m p l q <= q /\
  forall c, In c l -> 0 < c_limit (m c) -> 0 < c_sum (m c) ->
    share m p l q * c_sum (m c) <= c_dist (m c) * p.
Proof.
  induction l as [|i l IH]; intros q K P Q; cbn [share].
  - split; [lia|]. intros c [].
  - destruct (K i) as (L & Qi & D & T).
    destruct (c_limit (m i) =? 0) eqn:E.
    { destruct (IH q K P Q) as (X & Y). split; [exact X|]. intros c [Hc|Hc] H1 H2; [subst; lia|auto]. }
    destruct (c_sum (m i) =? 0) eqn:E2.
    { destruct (IH q K P Q) as (X & Y). split; [exact X|]. intros c [Hc|Hc] H1 H2; [subst; lia|auto]. }
    rewrite Z.quot_div_nonneg by nia.
    assert (0 <= c_dist (m i) * p / c_sum (m i)) by (apply Z.div_pos; nia).
    destruct (IH (Z.min (c_dist (m i) * p / c_sum (m i)) q) K P ltac:(lia)) as (X & Y).
    split; [lia|]. intros c [Hc|Hc] H1 H2; [|auto].
    subst i.
    assert (c_sum (m c) * (c_dist (m c) * p / c_sum (m c)) <= c_dist (m c) * p)
      by (apply Z.mul_div_le; lia).
    nia.
Qed.

(** Every channel that can pay its share pays at least one byte. *)
Lemma share_pos m p l : forall q, chans_ok m -> 1 <= p -> 1 <= q ->
  (forall c, In c l -> c_limit (m c) = 0 \/ c_sum (m c) <= c_dist (m c)) ->
  1 <= share m p l q.
Proof.
  induction l as [|i l IH]; intros q K P Q H; cbn [share]; [lia|].
  destruct (K i) as (L & Qi & D & T).
  destruct (c_limit (m i) =? 0) eqn:E; [apply IH; auto; intros; apply H; right; assumption|].
  destruct (c_sum (m i) =? 0) eqn:E2; [apply IH; auto; intros; apply H; right; assumption|].
  rewrite Z.quot_div_nonneg by nia.
  apply IH; auto; [|intros; apply H; right; assumption].
  destruct (H i ltac:(left; reflexivity)) as [H0|H0]; [lia|].
  assert (1 <= c_dist (m i) * p / c_sum (m i)) by (apply Z.div_le_lower_bound; nia).
  lia.
Qed.

Lemma useQuota_at q c : c_limit (useQuota q c) = c_limit c /\ c_dist (useQuota q c) = c_dist c /\
  c_sum (useQuota q c) = c_sum c /\
  c_quota (useQuota q c) = if c_limit c =? 0 then c_quota c else c_quota c - q.
Proof. unfold useQuota, withQuota. destruct (c_limit c =? 0); cbn; auto. Qed.

(** One request in the last pass. *)
Lemma assign_ok m r m' r' a :
  assignBandwidth m r = (m', r', a) -> req_ok r -> chans_ok m ->
  (forall c, In c (r_chans r) -> 0 < c_limit (m c) -> 0 < c_sum (m c)) ->
  r' = withAssigned r (r_assigned r + a) /\ 0 <= a <= r_size r - r_assigned r /\
  (forall c, m' c = if mem c (r_chans r) then useQuota a (m c) else m c) /\
  (forall c, In c (r_chans r) -> 0 < c_limit (m c) -> a * c_sum (m c) <= c_dist (m c) * r_prio r).
Proof.
  intros H (P1 & P2 & P3 & P4 & P5) K HS. unfold assignBandwidth in H.
  destruct (r_size r - r_assigned r =? 0) eqn:E.
  - inversion H; subst. split.
    { unfold withAssigned. destruct r'; cbn in *. f_equal; lia. }
    split; [lia|]. split.
    + intros c. destruct (mem c _); [|reflexivity]. unfold useQuota, withQuota.
      replace (r_size r' - r_assigned r') with 0 by lia.
      rewrite Z.sub_0_r. destruct (m' c) as [x1 x2 x3 x4]; cbn. destruct (x4 =? 0); reflexivity.
    + intros c Hc Hl. destruct (K c) as (? & ? & ? & ?).
      replace (r_size r' - r_assigned r') with 0 by lia. nia.
  - destruct (share_ok m (r_prio r) (r_chans r) (r_size r - r_assigned r) K ltac:(lia) ltac:(lia))
      as (X & Y).
    inversion H; subst. split; [reflexivity|]. split; [exact X|]. split.
    + intros c. apply onChans_at. assumption.
    + intros c Hc Hl. apply Y; auto.
Qed.

(** Quota of a channel covers the shares of the requests still to serve. *)
Definition covers (q : list request) (m : nat -> chan) : Prop :=
  forall c, 0 < c_limit (m c) -> 0 < waiting c q ->
    0 < c_sum (m c) /\ c_dist (m c) * waiting c q <= c_quota (m c) * c_sum (m c).

Lemma distribute_ok dt q : forall b m keep out b' m',
  Forall req_ok q -> chans_ok m -> covers q m ->
  distribute dt q b m = (keep, out, b', m') ->
  Forall req_ok keep /\ Forall req_ok out /\
  b' - owed keep = b - owed q /\ chans_ok m' /\
  forall c, c_limit (m' c) = c_limit (m c) /\ c_quota (m' c) <= c_quota (m c) /\
    (0 < c_limit (m c) -> c_quota (m' c) + pots c keep + handed c out <= c_quota (m c) + pots c q).
Proof.
  induction q as [|r q IH]; intros b m keep out b' m' F K C H; cbn [distribute] in H.
  - inversion H; subst. refine (conj (Forall_nil _) (conj (Forall_nil _) (conj eq_refl (conj K _)))).
    intros c. cbn. split; [reflexivity|]. split; lia.
  - inversion F as [|? ? Hr Fq]; subst.
    set (r0 := withTtl r (r_ttl r - dt)) in *.
    assert (Hr0 : req_ok r0) by exact Hr.
    assert (W := fun c => waiting_nonneg c q Fq).
    destruct (assignBandwidth m r0) as [[m1 r1] a] eqn:A.
    apply assign_ok in A; try assumption.
    2:{ intros c Hc Hl. apply (C c Hl). cbn [waiting]. apply mem_In in Hc.
        change (mem c (r_chans r) = true) in Hc. fold (mem c (r_chans r)). rewrite Hc.
        destruct Hr as (? & _). specialize (W c). lia. }
    destruct A as (A1 & A2 & A3 & A4).
    change (r_chans r0) with (r_chans r) in *. change (r_prio r0) with (r_prio r) in *.
    change (r_size r0) with (r_size r) in *. change (r_assigned r0) with (r_assigned r) in *.
    pose proof Hr as (P1 & P2 & P3 & P4 & P5).
    assert (Hr1 : req_ok r1).
    { subst r1. unfold req_ok, withAssigned, r0, withTtl. cbn. repeat split; try assumption; lia. }
    assert (Q1 : forall c, 0 < c_limit (m c) -> mem c (r_chans r) = true ->
       0 < c_sum (m c) /\ a <= c_quota (m c) /\
       (0 < waiting c q -> c_dist (m c) * waiting c q <= (c_quota (m c) - a) * c_sum (m c))).
    { intros c Hl M. destruct (C c Hl) as (C1 & C2).
      { cbn [waiting]. fold (mem c (r_chans r)). rewrite M. specialize (W c). lia. }
      split; [exact C1|].
      cbn [waiting] in C2. fold (mem c (r_chans r)) in C2. rewrite M in C2.
      specialize (A4 c (proj1 (mem_In _ _) M) Hl).
      destruct (K c) as (_ & _ & K3 & _). specialize (W c). split; nia. }
    assert (K1 : chans_ok m1).
    { intros c. rewrite A3. destruct (mem c (r_chans r)) eqn:M; [|apply K].
      destruct (useQuota_at a (m c)) as (U1 & U2 & U3 & U4). specialize (Q1 c).
      destruct (K c) as (X1 & X2 & X3 & X4). unfold chan_ok. rewrite U1, U2, U3, U4.
      destruct (c_limit (m c) =? 0) eqn:E; [lia|].
      destruct (Q1 ltac:(lia) M) as (_ & ? & _). lia. }
    assert (C1 : covers q m1).
    { intros c Hl Hw. rewrite A3 in *. destruct (mem c (r_chans r)) eqn:M.
      - destruct (useQuota_at a (m c)) as (U1 & U2 & U3 & U4). rewrite U1 in Hl.
        rewrite U2, U3, U4. destruct (c_limit (m c) =? 0) eqn:E; [lia|].
        destruct (Q1 c Hl M) as (? & ? & ?). split; auto.
      - specialize (C c Hl). cbn [waiting] in C. fold (mem c (r_chans r)) in C. rewrite M in C.
        rewrite Z.add_0_l in C. apply C. exact Hw. }
    assert (S1 : r_size r1 = r_size r /\ r_assigned r1 = r_assigned r + a /\
                 r_chans r1 = r_chans r /\ r_named r1 = r_named r) by (subst r1; auto).
    destruct S1 as (S1 & S2 & S3 & S4).
    assert (PT : forall c, 0 < c_limit (m c) ->
       c_quota (m1 c) + paid c r1 <= c_quota (m c) + paid c r).
    { intros c Hl. rewrite A3. unfold paid. rewrite S1, S2, S3, S4.
      pose proof (incl_mem r c Hr) as IM.
      destruct (mem c (r_chans r)) eqn:M.
      - rewrite (IM eq_refl). destruct (useQuota_at a (m c)) as (_ & _ & _ & U4). rewrite U4.
        destruct (c_limit (m c) =? 0) eqn:E; lia.
      - lia. }
    assert (QL : forall c, c_limit (m1 c) = c_limit (m c) /\ c_quota (m1 c) <= c_quota (m c)).
    { intros c. rewrite A3. destruct (mem c (r_chans r)); [|lia].
      destruct (useQuota_at a (m c)) as (U1 & _ & _ & U4). rewrite U1, U4.
      destruct (_ =? _); lia. }
    destruct (finished r1).
    + destruct (distribute dt q _ m1) as [[[keep0 out0] b0] m0] eqn:D.
      inversion H; subst keep out b' m'. clear H.
      apply IH in D; try assumption. destruct D as (D1 & D2 & D3 & D4 & D5).
      refine (conj D1 (conj _ (conj _ (conj D4 _)))).
      * constructor; assumption.
      * cbn [owed]. lia.
      * intros c. destruct (D5 c) as (X1 & X2 & X3). destruct (QL c) as (Y1 & Y2).
        rewrite Y1 in *. split; [congruence|]. split; [lia|].
        intros Hl. specialize (X3 Hl). specialize (PT c Hl).
        cbn [handed pots]. fold (mem c (r_named r1)).
        assert ((if mem c (r_named r1) then r_assigned r1 else 0) <= paid c r1).
        { unfold paid. destruct (mem c (r_named r1)); [|lia].
          destruct (mem c (r_chans r1)); [lia|]. destruct Hr1 as (_ & ? & _). lia. }
        lia.
    + destruct (distribute dt q _ m1) as [[[keep0 out0] b0] m0] eqn:D.
      inversion H; subst keep out b' m'. clear H.
      apply IH in D; try assumption. destruct D as (D1 & D2 & D3 & D4 & D5).
      refine (conj _ (conj D2 (conj _ (conj D4 _)))).
      * constructor; assumption.
      * cbn [owed]. lia.
      * intros c. destruct (D5 c) as (X1 & X2 & X3). destruct (QL c) as (Y1 & Y2).
        rewrite Y1 in *. split; [congruence|]. split; [lia|].
        intros Hl. specialize (X3 Hl). specialize (PT c Hl). cbn [pots]. lia.
Qed.
