(** C114: the sliding average. *)
From Verif Require Import Base SlidingModel.

Lemma int_in x : -2147483648 <= x <= 2147483647 -> int x = Ok x.
Proof. intros [A B]. unfold int. rewrite (proj2 (Z.leb_le _ _) A), (proj2 (Z.leb_le _ _) B). reflexivity. Qed.

Lemma quot_up d n : 0 <= d -> 1 <= n -> 0 <= Z.quot d n <= d /\ (n <= d -> 1 <= Z.quot d n).
Proof.
  intros D N. rewrite Z.quot_div_nonneg by lia. pose proof (Z.div_pos d n D ltac:(lia)). split; [split; [assumption|]|].
  - apply Z.div_le_upper_bound; [lia|]. rewrite <- (Z.mul_1_l d) at 1. apply Z.mul_le_mono_nonneg_r; lia.
  - intros L. apply Z.div_le_lower_bound; lia.
Qed.
Lemma quot_down d n : d <= 0 -> 1 <= n -> d <= Z.quot d n <= 0 /\ (n <= - d -> Z.quot d n <= -1).
Proof.
  intros D N. destruct (quot_up (- d) n ltac:(lia) N) as [A B]. rewrite Z.quot_opp_l in A, B by lia. split; [lia|]. intros L. specialize (B L). lia.
Qed.

Lemma move x t n : 1 <= n -> exists q, Z.quot (t - x) n = q /\ (x <= t -> x <= x + q <= t /\ (n <= t - x -> 1 <= q)) /\ (t <= x -> t <= x + q <= x /\ (n <= x - t -> q <= -1)).
Proof.
  intros N. exists (Z.quot (t - x) n). split; [reflexivity|]. split; intros C.
  - destruct (quot_up (t - x) n ltac:(lia) N) as [A B]. revert A B. generalize (Z.quot (t - x) n). intros. lia.
  - destruct (quot_down (t - x) n ltac:(lia) N) as [A B]. revert A B. generalize (Z.quot (t - x) n). intros. lia.
Qed.

(** What holds after samples between [lo] and [hi]. *)
Definition within (lo hi : Z) (a : average) : Prop :=
  0 <= m_num_samples a <= 16 /\ (m_num_samples a = 0 -> m_mean a = 0) /\ (0 < m_num_samples a -> 64 * lo <= m_mean a <= 64 * hi) /\
  0 <= m_average_deviation a <= 64 * (hi - lo).

Lemma add_ok lo hi a s : 0 <= lo -> hi <= 33554431 -> within lo hi a -> lo <= s <= hi ->
  exists a', add_sample s a = Ok a' /\ within lo hi a' /\ m_num_samples a' = Z.min 16 (m_num_samples a + 1) /\
  m_mean a' = m_mean a + Z.quot (64 * s - m_mean a) (m_num_samples a') /\
  (0 < m_num_samples a -> m_average_deviation a' = m_average_deviation a + Z.quot (Z.abs (m_mean a - 64 * s) - m_average_deviation a) (m_num_samples a' - 1)).
Proof.
  intros L Hh (N & Z0 & Me & De) [S1 S2]. unfold add_sample. replace (s * 64) with (64 * s) by lia. rewrite int_in by lia. cbn [bind].
  set (n := if m_num_samples a <? 16 then m_num_samples a + 1 else m_num_samples a).
  assert (Hn : n = Z.min 16 (m_num_samples a + 1)) by (unfold n; destruct (Z.ltb_spec (m_num_samples a) 16); lia). clearbody n.
  assert (Mr : 0 <= m_mean a <= 64 * hi) by (destruct (Z.eq_dec (m_num_samples a) 0) as [Q|Q]; [rewrite (Z0 Q); lia|specialize (Me ltac:(lia)); lia]).
  destruct (move (m_mean a) (64 * s) n ltac:(lia)) as (q & Eq & Q1 & Q2).
  destruct (Z.ltb_spec 0 (m_num_samples a)) as [P|P].
  - specialize (Me P). rewrite int_in by lia. cbn [bind]. rewrite int_in by lia. cbn [bind]. rewrite int_in by lia. cbn [bind]. rewrite Eq. rewrite int_in by (clear Eq; lia). cbn [bind].
    rewrite (proj2 (Z.ltb_lt 1 n)) by (clear Eq; lia). set (dv := Z.abs (m_mean a - 64 * s)). assert (Dv : 0 <= dv <= 64 * (hi - lo)) by (clear Eq; unfold dv; lia).
    rewrite int_in by (clear Eq; lia). cbn [bind].
    destruct (move (m_average_deviation a) dv (n - 1) ltac:(lia)) as (q' & Eq' & Q3 & Q4). rewrite Eq'.
    rewrite int_in by (clear Eq Eq'; clearbody dv; lia). cbn [bind]. eexists. split; [reflexivity|]. unfold within. cbn [m_mean m_average_deviation m_num_samples].
    split; [clear Eq Eq'; clearbody dv; repeat split; lia|]. split; [exact Hn|]. split; [rewrite Eq; reflexivity|intros _; fold dv; rewrite Eq'; reflexivity].
  - cbn [bind]. rewrite int_in by lia. cbn [bind]. rewrite Eq. rewrite int_in by (clear Eq; lia). cbn [bind]. assert (n = 1) as N1 by lia.
    rewrite (proj2 (Z.ltb_ge 1 n)) by lia. eexists. split; [reflexivity|]. unfold within. cbn [m_mean m_average_deviation m_num_samples].
    rewrite Eq. rewrite N1, Z.quot_1_r in Eq. rewrite Z0 in * by lia. split; [repeat split; lia|]. split; [exact Hn|]. split; [reflexivity|intros; lia].
Qed.

Lemma samples_app l1 : forall l2 a, samples (l1 ++ l2) a = bind (samples l1 a) (samples l2).
Proof. induction l1 as [|s l1 IH]; intros l2 a; [reflexivity|]. cbn [app samples]. destruct (add_sample s a); [|reflexivity]. cbn [bind]. apply IH. Qed.

Lemma samples_ok lo hi l : 0 <= lo -> hi <= 33554431 -> Forall (fun s => lo <= s <= hi) l -> forall a, within lo hi a ->
  exists a', samples l a = Ok a' /\ within lo hi a' /\ m_num_samples a' = Z.min 16 (m_num_samples a + zlen l).
Proof.
  intros L Hh F. induction F as [|s l Hs F IH]; intros a W.
  - exists a. split; [reflexivity|]. split; [exact W|]. destruct W as (N & _). unfold zlen. cbn [length]. lia.
  - destruct (add_ok lo hi a s L Hh W Hs) as (a1 & E & W1 & N1 & _). destruct (IH a1 W1) as (a' & E' & W' & N'). exists a'. cbn [samples]. rewrite E. cbn [bind].
    split; [exact E'|]. split; [exact W'|]. rewrite N', N1. unfold zlen. cbn [length]. lia.
Qed.

Lemma out64 x lo hi : 0 <= lo -> hi <= 33554431 -> 64 * lo <= x <= 64 * hi -> exists m, bind (int (x + 32)) (fun y => Ok (Z.quot y 64)) = Ok m /\ lo <= m <= hi.
Proof.
  intros L Hh X. rewrite int_in by lia. cbn [bind]. eexists. split; [reflexivity|]. rewrite Z.quot_div_nonneg by lia. split.
  - apply Z.div_le_lower_bound; lia.
  - apply Z.lt_succ_r. apply Z.div_lt_upper_bound; lia.
Qed.

Lemma new_within lo hi : lo <= hi -> within lo hi newAverage.
Proof. intros H. unfold within. cbn [newAverage m_mean m_average_deviation m_num_samples]. repeat split; lia. Qed.

(** After any samples from 0 to 33554431 nothing overflowed; the mean lies between the least and the greatest of them and the deviation is not larger than
    their difference. *)
Theorem C114_between : forall lo hi l, 0 <= lo -> hi <= 33554431 -> l <> [] -> Forall (fun s => lo <= s <= hi) l ->
  exists a m d, samples l newAverage = Ok a /\ mean a = Ok m /\ avg_deviation a = Ok d /\ lo <= m <= hi /\ 0 <= d <= hi - lo /\ num_samples a = Z.min 16 (zlen l).
Proof.
  intros lo hi l L Hh NE F. assert (LH : lo <= hi) by (destruct F as [|s l Hs F]; [congruence|lia]).
  destruct (samples_ok lo hi l L Hh F newAverage (new_within lo hi LH)) as (a & E & (N & _ & Me & De) & Nn). exists a.
  assert (P : 0 < m_num_samples a) by (rewrite Nn; destruct l; [congruence|]; unfold zlen; cbn [newAverage m_num_samples length]; lia).
  unfold mean, avg_deviation, num_samples. rewrite (proj2 (Z.ltb_lt _ _) P). destruct (out64 (m_mean a) lo hi L Hh (Me P)) as (m & -> & M).
  destruct (out64 (m_average_deviation a) 0 (hi - lo) ltac:(lia) ltac:(lia) ltac:(lia)) as (d & Ed & D). rewrite Ed. exists m.
  exists (if 1 <? m_num_samples a then d else 0). split; [exact E|]. split; [reflexivity|]. split; [destruct (1 <? m_num_samples a); reflexivity|].
  split; [exact M|]. split; [destruct (1 <? m_num_samples a); lia|exact Nn].
Qed.
Print Assumptions C114_between.

Lemma toward s k : forall a, 0 <= s <= 33554431 -> within 0 33554431 a -> 0 < m_num_samples a -> exists a', samples (repeat s k) a = Ok a' /\ within 0 33554431 a' /\ 0 < m_num_samples a' /\
  (Z.abs (m_mean a' - 64 * s) <= 15 \/ Z.abs (m_mean a' - 64 * s) + Z.of_nat k <= Z.abs (m_mean a - 64 * s)).
Proof.
  induction k as [|k IH]; intros a Hs W P; [exists a; split; [reflexivity|]; split; [exact W|]; split; [exact P|right; lia]|].
  destruct (add_ok 0 33554431 a s ltac:(lia) ltac:(lia) W Hs) as (a1 & E & W1 & N1 & M1 & _). pose proof W as (N & _).
  destruct (IH a1 Hs W1 ltac:(clear M1; lia)) as (a' & E' & W' & P' & Q). exists a'. cbn [repeat samples]. rewrite E. cbn [bind]. split; [exact E'|]. split; [exact W'|]. split; [exact P'|].
  destruct Q as [Q|Q]; [left; exact Q|].
  assert (T : Z.abs (m_mean a1 - 64 * s) <= 15 \/ Z.abs (m_mean a1 - 64 * s) + 1 <= Z.abs (m_mean a - 64 * s)).
  { destruct (move (m_mean a) (64 * s) (m_num_samples a1) ltac:(clear M1; lia)) as (q & Eq & Q1 & Q2). rewrite M1, Eq. clear M1 Eq. lia. }
  clear M1. lia.
Qed.

Lemma calm s k : forall a, 0 <= s <= 33554431 -> within 0 33554431 a -> 0 < m_num_samples a -> Z.abs (m_mean a - 64 * s) <= 15 -> exists a', samples (repeat s k) a = Ok a' /\
  within 0 33554431 a' /\ 0 < m_num_samples a' /\ Z.abs (m_mean a' - 64 * s) <= 15 /\ (m_average_deviation a' <= 29 \/ m_average_deviation a' + Z.of_nat k <= m_average_deviation a).
Proof.
  induction k as [|k IH]; intros a Hs W P C; [exists a; split; [reflexivity|]; split; [exact W|]; split; [exact P|]; split; [exact C|right; lia]|].
  destruct (add_ok 0 33554431 a s ltac:(lia) ltac:(lia) W Hs) as (a1 & E & W1 & N1 & M1 & D1). pose proof W as (N & _ & _ & De). specialize (D1 P).
  assert (C1 : Z.abs (m_mean a1 - 64 * s) <= 15).
  { destruct (move (m_mean a) (64 * s) (m_num_samples a1) ltac:(clear M1 D1; lia)) as (q & Eq & Q1 & Q2). rewrite M1, Eq. clear M1 D1 Eq. lia. }
  clear M1.
  destruct (IH a1 Hs W1 ltac:(clear D1; lia) C1) as (a' & E' & W' & P' & C' & Q). exists a'. cbn [repeat samples]. rewrite E. cbn [bind]. repeat (split; [assumption|]).
  destruct Q as [Q|Q]; [left; exact Q|].
  assert (T : m_average_deviation a1 <= 29 \/ m_average_deviation a1 + 1 <= m_average_deviation a).
  { set (dv := Z.abs (m_mean a - 64 * s)) in *. clearbody dv.
    destruct (move (m_average_deviation a) dv (m_num_samples a1 - 1) ltac:(clear D1; lia)) as (q & Eq & Q1 & Q2). rewrite D1, Eq. clear D1 Eq. lia. }
  clear D1. lia.
Qed.

(** When the samples stay the same, the mean comes to be that sample and the deviation 0, whatever was before, and they stay so. *)
Theorem C114_settles : forall l s, Forall (fun x => 0 <= x <= 33554431) l -> 0 <= s <= 33554431 ->
  exists k0, forall k, (k0 <= k)%nat -> exists a, samples (l ++ repeat s k) newAverage = Ok a /\ mean a = Ok s /\ avg_deviation a = Ok 0.
Proof.
  intros l s F Hs. destruct (samples_ok 0 33554431 l ltac:(lia) ltac:(lia) F newAverage (new_within 0 33554431 ltac:(lia))) as (a0 & E0 & W0 & N0).
  destruct (add_ok 0 33554431 a0 s ltac:(lia) ltac:(lia) W0 Hs) as (a1 & E1 & W1 & N1 & _). pose proof W0 as (R0 & _).
  assert (P1 : 0 < m_num_samples a1) by lia.
  set (e1 := Z.abs (m_mean a1 - 64 * s)). destruct (toward s (Z.to_nat e1) a1 Hs W1 P1) as (a2 & E2 & W2 & P2 & Q2). fold e1 in Q2.
  assert (C2 : Z.abs (m_mean a2 - 64 * s) <= 15) by (destruct Q2; [assumption|assert (0 <= e1) by (unfold e1; lia); rewrite Z2Nat.id in * by assumption; lia]).
  exists (1 + (Z.to_nat e1 + Z.to_nat (m_average_deviation a2)))%nat. intros k Hk.
  replace k with (1 + (Z.to_nat e1 + (k - 1 - Z.to_nat e1)))%nat by lia. set (j := (k - 1 - Z.to_nat e1)%nat). assert (J : (Z.to_nat (m_average_deviation a2) <= j)%nat) by (unfold j; lia).
  clearbody j. destruct (calm s j a2 Hs W2 P2 C2) as (a3 & E3 & W3 & P3 & C3 & Q3). exists a3. pose proof W2 as (_ & _ & _ & D2). pose proof W3 as (_ & _ & M3 & D3). specialize (M3 P3).
  assert (D : m_average_deviation a3 <= 29) by (destruct Q3; lia).
  split; [|split].
  - rewrite samples_app, E0. cbn [bind]. rewrite !repeat_app. cbn [repeat app samples]. rewrite E1. cbn [bind]. rewrite samples_app, E2. exact E3.
  - unfold mean. rewrite (proj2 (Z.ltb_lt _ _) P3), int_in by lia. cbn [bind]. f_equal. rewrite Z.quot_div_nonneg by lia.
    symmetry. apply Z.div_unique with (r := m_mean a3 + 32 - 64 * s); lia.
  - unfold avg_deviation. destruct (1 <? m_num_samples a3); [|reflexivity]. rewrite int_in by lia. cbn [bind]. f_equal. rewrite Z.quot_small; lia.
Qed.
Print Assumptions C114_settles.

Fixpoint total (l : list Z) : Z := match l with [] => 0 | x :: l' => x + total l' end.

Lemma near_step n m t s : 0 <= n -> 2 * Z.abs (n * m - 64 * t) <= n * (n - 1) ->
  2 * Z.abs ((n + 1) * (m + Z.quot (64 * s - m) (n + 1)) - 64 * (t + s)) <= (n + 1) * n.
Proof.
  intros N H. pose proof (Z.quot_rem' (64 * s - m) (n + 1)) as E. pose proof (Z.rem_bound_abs (64 * s - m) (n + 1) ltac:(lia)) as B.
  revert E B. generalize (Z.quot (64 * s - m) (n + 1)) (Z.rem (64 * s - m) (n + 1)). intros q r E B.
  assert (X : (n + 1) * (m + q) - 64 * (t + s) = (n * m - 64 * t) - r).
  { replace ((n + 1) * (m + q)) with (n * m + m + (n + 1) * q) by ring. lia. }
  rewrite X. replace ((n + 1) * n) with (n * (n - 1) + 2 * n) by ring. revert H. generalize (n * m - 64 * t) (n * (n - 1)). intros. lia.
Qed.

Lemma near l : Forall (fun x => 0 <= x <= 33554431) l -> forall a t a', within 0 33554431 a -> m_num_samples a + zlen l <= 16 ->
  2 * Z.abs (m_num_samples a * m_mean a - 64 * t) <= m_num_samples a * (m_num_samples a - 1) -> samples l a = Ok a' ->
  2 * Z.abs (m_num_samples a' * m_mean a' - 64 * (t + total l)) <= m_num_samples a' * (m_num_samples a' - 1).
Proof.
  intros F. induction F as [|s l Hs F IH]; intros a t a' W L H E.
  - injection E as <-. cbn [total]. rewrite Z.add_0_r. exact H.
  - cbn [samples] in E. destruct (add_ok 0 33554431 a s ltac:(lia) ltac:(lia) W Hs) as (a1 & E1 & W1 & N1 & M1 & _). rewrite E1 in E. cbn [bind] in E.
    unfold zlen in L. cbn [length] in L. pose proof W as (R & _). assert (N2 : m_num_samples a1 = m_num_samples a + 1) by (clear M1; lia).
    cbn [total]. rewrite Z.add_assoc. apply IH with (a := a1); [exact W1|clear M1; unfold zlen; lia| |exact E].
    rewrite M1, N2. replace (m_num_samples a + 1 - 1) with (m_num_samples a) by ring. apply near_step; [lia|exact H].
Qed.

(** For up to 16 samples the mean is their arithmetic mean, up to 5/8. *)
Theorem C114_average : forall l, Forall (fun x => 0 <= x <= 33554431) l -> 1 <= zlen l <= 16 ->
  exists a m, samples l newAverage = Ok a /\ mean a = Ok m /\ 8 * Z.abs (zlen l * m - total l) <= 5 * zlen l.
Proof.
  intros l F L. assert (W0 := new_within 0 33554431 ltac:(lia)).
  destruct (samples_ok 0 33554431 l ltac:(lia) ltac:(lia) F newAverage W0) as (a & E & (R & _ & Me & _) & Nn). cbn [newAverage m_num_samples] in Nn.
  assert (Nl : m_num_samples a = zlen l) by lia. pose proof (near l F newAverage 0 a W0 ltac:(cbn [newAverage m_num_samples]; lia) ltac:(cbn; lia) E) as H.
  rewrite Nl in *. specialize (Me ltac:(lia)). cbn [Z.add] in H. rewrite Z.add_0_l in H.
  exists a. unfold mean. rewrite Nl, (proj2 (Z.ltb_lt 0 (zlen l))), int_in by lia. cbn [bind]. eexists. split; [exact E|]. split; [reflexivity|].
  rewrite Z.quot_div_nonneg by lia. pose proof (Z.div_mod (m_mean a + 32) 64 ltac:(lia)) as D. pose proof (Z.mod_pos_bound (m_mean a + 32) 64 ltac:(lia)) as B.
  revert D B. generalize ((m_mean a + 32) / 64) ((m_mean a + 32) mod 64). intros m r D B.
  assert (X : 64 * (zlen l * m) - zlen l * m_mean a = zlen l * (32 - r)) by (replace (m_mean a) with (64 * m + r - 32) by lia; ring).
  assert (Y : Z.abs (zlen l * (32 - r)) <= zlen l * 32) by (rewrite Z.abs_mul, (Z.abs_eq (zlen l)) by lia; apply Z.mul_le_mono_nonneg_l; lia).
  assert (V : zlen l * (zlen l - 1) <= zlen l * 15) by (apply Z.mul_le_mono_nonneg_l; lia).
  clear D B Me Nl Nn E F. revert H X Y V. generalize (zlen l * m) (zlen l * m_mean a) (zlen l * (32 - r)) (zlen l * (zlen l - 1)). intros. lia.
Qed.
Print Assumptions C114_average.

(** Of two samples the deviation is their difference. *)
Theorem C114_two : forall x y, 0 <= x <= 33554431 -> 0 <= y <= 33554431 ->
  exists a, samples [x; y] newAverage = Ok a /\ avg_deviation a = Ok (Z.abs (x - y)).
Proof.
  intros x y X Y. destruct (add_ok 0 33554431 newAverage x ltac:(lia) ltac:(lia) (new_within 0 33554431 ltac:(lia)) X) as (a1 & E1 & W1 & N1 & M1 & _).
  assert (D1 : m_average_deviation a1 = 0).
  { unfold add_sample in E1. cbn [newAverage m_num_samples m_mean m_average_deviation] in E1. change (0 <? 0) with false in E1. change (0 <? 16) with true in E1. cbv iota in E1.
    change (1 <? 0 + 1) with false in E1. cbv iota in E1. rewrite (int_in (x * 64)) in E1 by lia. cbn [bind] in E1. rewrite int_in in E1 by lia. cbn [bind] in E1.
    change (0 + 1) with 1 in E1. rewrite Z.quot_1_r, int_in in E1 by lia. cbn [bind] in E1. injection E1 as <-. reflexivity. }
  cbn [newAverage m_num_samples m_mean] in N1, M1. assert (n1 : m_num_samples a1 = 1) by (clear M1; lia). rewrite n1, Z.quot_1_r in M1.
  destruct (add_ok 0 33554431 a1 y ltac:(lia) ltac:(lia) W1 Y) as (a2 & E2 & W2 & N2 & _ & D2). specialize (D2 ltac:(lia)).
  assert (n2 : m_num_samples a2 = 2) by (clear D2; lia). rewrite n2, D1 in D2. change (2 - 1) with 1 in D2. rewrite Z.quot_1_r in D2.
  exists a2. cbn [samples]. rewrite E1. cbn [bind]. rewrite E2. cbn [bind]. split; [reflexivity|]. unfold avg_deviation. rewrite n2. change (1 <? 2) with true. cbv iota.
  rewrite int_in by lia. cbn [bind]. f_equal. rewrite Z.quot_div_nonneg by lia. symmetry. apply Z.div_unique with (r := 32); lia.
Qed.
Print Assumptions C114_two.

(** A larger sample overflows. *)
Theorem C114_large : forall s a, 33554431 < s -> add_sample s a = UB.
Proof.
  intros s a H. unfold add_sample, int at 1. rewrite (proj2 (Z.leb_gt (s * 64) 2147483647)) by lia. rewrite andb_false_r. reflexivity.
Qed.
Print Assumptions C114_large.

Definition sample4 : average := match samples [100; 120; 80; 300] newAverage with Ok a => a | UB => newAverage end.
Example C114_ex : samples [100; 120; 80; 300] newAverage = Ok sample4 /\ mean sample4 = Ok 150 /\ avg_deviation sample4 = Ok 83 /\ num_samples sample4 = 4.
Proof. split; [vm_compute; reflexivity|]. split; [vm_compute; reflexivity|]. split; vm_compute; reflexivity. Qed.
