(** Proofs about big numbers: division, modular exponentiation, bytes. *)
From Coq Require Import Zpow_facts.
From Verif Require Import Base BaseLemmas ShaProofs BigModel BigSpec BigProofs BigProofs2.

(** The divisors for which no signed overflow is possible. *)
Definition divisor_ok (b : Z) : Prop := 0 < b <= 9223372036854775808 \/ base <= b.

Lemma trim_low l : digits_ok l -> trim l <> [] -> P (length (trim l) - 1) <= value l.
Proof.
  intros D Ne. destruct (trim_ok l D) as (V & Dt & L & T). specialize (T Ne). rewrite <- V.
  set (t := trim l) in *. assert (Lt : (1 <= length t)%nat) by (destruct t; [contradiction|cbn; lia]).
  rewrite (value_skipn (length t - 1) t).
  assert (F : length (firstn (length t - 1) t) = (length t - 1)%nat) by (apply firstn_length_le; lia). rewrite F.
  assert (S1 : skipn (length t - 1) t = [nth (length t - 1) t 0]).
  { pose proof (nth_skip (length t - 1) t 0 0) as N. rewrite Nat.add_0_r in N.
    assert (X : length (skipn (length t - 1) t) = 1%nat) by (rewrite skipn_length; lia).
    destruct (skipn (length t - 1) t) as [|a [|b r]]; try discriminate. cbn [nth] in N. congruence. }
  rewrite S1. cbn [value]. pose proof (nth_digit (length t - 1) t Dt) as N.
  pose proof (value_range _ (digits_firstn (length t - 1) t Dt)) as R. pose proof (P_pos (length t - 1)) as PP.
  nia.
Qed.

Lemma trim_top l : digits_ok l -> trim l <> [] ->
  value l < (nth (length (trim l) - 1) (trim l) 0 + 1) * P (length (trim l) - 1) /\
  nth (length (trim l) - 1) (trim l) 0 * P (length (trim l) - 1) <= value l.
Proof.
  intros D Ne. destruct (trim_ok l D) as (V & Dt & L & T). specialize (T Ne). rewrite <- V.
  set (t := trim l) in *. assert (Lt : (1 <= length t)%nat) by (destruct t; [contradiction|cbn; lia]).
  rewrite (value_skipn (length t - 1) t).
  assert (F : length (firstn (length t - 1) t) = (length t - 1)%nat) by (apply firstn_length_le; lia). rewrite F.
  assert (S1 : skipn (length t - 1) t = [nth (length t - 1) t 0]).
  { pose proof (nth_skip (length t - 1) t 0 0) as N. rewrite Nat.add_0_r in N.
    assert (X : length (skipn (length t - 1) t) = 1%nat) by (rewrite skipn_length; lia).
    destruct (skipn (length t - 1) t) as [|a [|b r]]; try discriminate. cbn [nth] in N. congruence. }
  rewrite S1. cbn [value].
  pose proof (value_range _ (digits_firstn (length t - 1) t Dt)) as R. rewrite F in R.
  split; nia.
Qed.

Lemma log2_norm v : 0 < v < base -> let s := 63 - Z.log2 v in
  0 <= s < 64 /\ 9223372036854775808 <= v * 2 ^ s /\ (v + 1) * 2 ^ s <= base.
Proof.
  intros V. cbv zeta. pose proof (Z.log2_spec v ltac:(lia)) as (A & B). pose proof (Z.log2_nonneg v) as N.
  assert (L : Z.log2 v < 64) by (apply Z.log2_lt_pow2; [lia|exact (proj2 V)]).
  assert (Pp : 0 < 2 ^ (63 - Z.log2 v)) by (apply Z.pow_pos_nonneg; lia).
  assert (X : 2 ^ Z.log2 v * 2 ^ (63 - Z.log2 v) = 9223372036854775808).
  { rewrite <- Z.pow_add_r by lia. replace (Z.log2 v + (63 - Z.log2 v)) with 63 by lia. reflexivity. }
  rewrite Z.pow_succ_r in B by lia. refine (conj _ (conj _ _)); [lia|nia|nia].
Qed.

Lemma norm_up v t p z B : v < (t + 1) * p -> 0 < p -> 0 < z -> (t + 1) * z <= B -> v * z < B * p.
Proof.
  intros V P Z0 T. apply Z.lt_le_trans with (((t + 1) * p) * z); [apply Z.mul_lt_mono_pos_r; assumption|].
  replace ((t + 1) * p * z) with ((t + 1) * z * p) by ring. apply Z.mul_le_mono_nonneg_r; lia.
Qed.

Lemma norm_low v t p z B : t * p <= v -> 0 < p -> 0 < z -> B <= t * z -> B * p <= v * z.
Proof.
  intros V P Z0 T. apply Z.le_trans with ((t * z) * p); [apply Z.mul_le_mono_nonneg_r; lia|].
  replace (t * z * p) with (t * p * z) by ring. apply Z.mul_le_mono_nonneg_r; lia.
Qed.

Lemma top_low x y p n B : x = y + p * n -> 0 <= y < p -> B * p <= x -> B <= n.
Proof.
  intros E Y L. destruct (Z.leb_spec B n) as [H|H]; [exact H|exfalso].
  assert (p * (n + 1) <= p * B) by (apply Z.mul_le_mono_nonneg_l; lia). lia.
Qed.

Lemma scaled_bound r z b : 0 < z -> 0 <= r * z < b * z -> 0 <= r < b.
Proof.
  intros Z0 [L H]. apply Z.mul_lt_mono_pos_r in H; [|exact Z0].
  split; [|exact H]. destruct (Z.leb_spec 0 r) as [R|R]; [exact R|exfalso].
  assert (r * z < 0) by (apply Z.mul_neg_pos; assumption). lia.
Qed.

Lemma shifted_high a z f k sk q pk : a * z = f + k * sk -> 0 <= f -> 0 < k -> 0 < z -> a < pk -> pk = k * q -> sk < q * z.
Proof.
  intros E F K Z0 A Q. apply (Z.mul_lt_mono_pos_l k); [exact K|].
  assert (a * z < pk * z) by (apply Z.mul_lt_mono_pos_r; assumption).
  replace (k * (q * z)) with (pk * z) by (rewrite Q; ring). lia.
Qed.

Theorem dbi_div_ok A b : digits_ok A -> digits_ok b -> length A = (2 * length b)%nat -> divisor_ok (value b) ->
  exists q r, dbi_div A b = Ok (DTrue q r) /\ length q = length b /\ length r = length b /\
    digits_ok q /\ digits_ok r /\
    value q = (value A / value b) mod P (length b) /\ value r = value A mod value b.
Proof.
  intros DA Db L OK. unfold dbi_div. rewrite L, Nat.eqb_refl. cbn [negb].
  destruct (trim_ok A DA) as (VA & DtA & LtA & TA). destruct (trim_ok b Db) as (VB & DtB & LtB & TB).
  pose proof (value_range A DA) as RA.
  assert (Bpos : 0 < value b) by (unfold divisor_ok in OK; lia).
  assert (NeB : trim b <> []) by (intros E; rewrite E in VB; cbn in VB; lia).
  assert (LB1 : (1 <= length (trim b))%nat) by (destruct (trim b); [contradiction|cbn; lia]).
  replace (Nat.eqb (length (trim b)) 0) with false by (symmetry; apply Nat.eqb_neq; lia).
  rewrite Compare_ok by assumption.
  pose proof (value_range _ DtA) as RtA. pose proof (value_range _ DtB) as RtB. rewrite VA in RtA. rewrite VB in RtB.
  destruct (Nat.ltb (length (trim A)) (length (trim b)) || (sgn (value A) (value b) =? -1)) eqn:Small.
  - (* smaller *)
    assert (LT : value A < value b).
    { apply orb_true_iff in Small. destruct Small as [H|H].
      - apply Nat.ltb_lt in H. pose proof (trim_low b Db NeB). pose proof (P_le (length (trim A)) (length (trim b) - 1) ltac:(lia)). lia.
      - unfold sgn in H. destruct (value A <? value b) eqn:E; [apply Z.ltb_lt in E; exact E|].
        destruct (value b <? value A); discriminate. }
    assert (LL : (length (trim A) <= length b)%nat).
    { destruct (Nat.le_gt_cases (length (trim A)) (length b)) as [H|H]; [exact H|exfalso].
      assert (NeA : trim A <> []) by (destruct (trim A); [cbn in H; lia|discriminate]).
      pose proof (trim_low A DA NeA). pose proof (P_le (length (trim b)) (length (trim A) - 1) ltac:(lia)). lia. }
    exists (repeat 0 (length b)), (pad (length b) (trim A)).
    rewrite repeat_length, pad_length, value_repeat, value_pad, VA by exact LL.
    refine (conj eq_refl (conj eq_refl (conj eq_refl (conj (digits_repeat _) (conj (digits_pad _ _ DtA) (conj _ _)))))).
    + rewrite Z.div_small by lia. rewrite Z.mod_0_l; [reflexivity|]. pose proof (P_pos (length b)); lia.
    + symmetry. apply Z.mod_small. lia.
  - apply orb_false_iff in Small. destruct Small as (Sm1 & Sm2). apply Nat.ltb_ge in Sm1.
    destruct (Nat.eqb (length (trim b)) 1) eqn:One.
    + apply Nat.eqb_eq in One. destruct (trim b) as [|b0 [|? ?]] eqn:Tb; try discriminate. cbn [nth].
      assert (Vb0 : value b = b0) by (rewrite <- VB; cbn [value]; lia).
      assert (D0 : 0 <= b0 < base) by (apply digits_cons in DtB; apply DtB).
      destruct OK as [OK|OK]; [|lia]. rewrite Vb0 in *.
      destruct (divDigit_ok b0 OK (trim A) DtA) as (q & k & E & Lq & Dq & Kr & V). rewrite E. cbn [bind].
      eexists. eexists. split; [reflexivity|].
      assert (Lf : (length (firstn (length b) q) <= length b)%nat) by (rewrite firstn_length; lia).
      rewrite !pad_length by (try exact Lf; cbn [length]; lia).
      assert (Dv : value A / b0 = value q /\ value A mod b0 = k).
      { rewrite <- VA, V. split.
        - rewrite Z.div_add_l by lia. rewrite Z.div_small by lia. lia.
        - rewrite Z.add_comm, Z_mod_plus_full. apply Z.mod_small. lia. }
      destruct Dv as (Dv1 & Dv2). rewrite Dv1, Dv2, !value_pad.
      refine (conj eq_refl (conj eq_refl (conj _ (conj _ (conj _ _))))).
      * apply digits_pad. apply digits_firstn. exact Dq.
      * apply digits_pad. apply digits_cons. split; [lia|constructor].
      * destruct (Nat.le_gt_cases (length b) (length q)) as [H|H].
        -- apply value_firstn; assumption.
        -- rewrite firstn_all2 by lia. symmetry. apply Z.mod_small. pose proof (value_range q Dq).
           pose proof (P_le (length q) (length b) ltac:(lia)). lia.
      * cbn [value]. lia.
    + apply Nat.eqb_neq in One.
      set (lB := length (trim b)) in *. set (lA := length (trim A)) in *.
      pose proof (nth_digit (lB - 1) (trim b) DtB) as Rtop.
      assert (Ttop : nth (lB - 1) (trim b) 0 <> 0) by (apply TB; exact NeB).
      destruct (trim_top b Db NeB) as (Top1 & Top2). fold lB in Top1, Top2.
      set (top := nth (lB - 1) (trim b) 0) in *. rewrite MsbPos_ok by lia.
      destruct (log2_norm top ltac:(lia)) as (S1 & S2 & S3). set (s := 63 - Z.log2 top) in *.
      assert (Sp : 0 < 2 ^ s) by (apply Z.pow_pos_nonneg; lia).
      destruct (shift_left_ok s (trim A) S1 DtA) as (LA1 & LA2 & LA3).
      destruct (shift_left_ok s (trim b) S1 DtB) as (LB2 & LB3 & LB4). rewrite VA in LA3. rewrite VB in LB4.
      fold lA in LA1. fold lB in LB2.
      assert (PB : P lB = base * P (lB - 1)) by (rewrite <- P_S; f_equal; lia).
      pose proof (P_pos (lB - 1)) as PP.
      set (pb := firstn lB (shift_left s (trim b))) in *.
      assert (Lpb : length pb = lB) by (unfold pb; apply firstn_length_le; lia).
      assert (Dpb : digits_ok pb) by (unfold pb; apply digits_firstn; exact LB3).
      assert (BS : value b * 2 ^ s < P lB) by (rewrite PB; apply (norm_up _ top); assumption).
      assert (Vpb : value pb = value b * 2 ^ s).
      { unfold pb. rewrite value_firstn by (try exact LB3; lia). rewrite LB4. apply Z.mod_small. split; [apply Z.mul_nonneg_nonneg; lia|exact BS]. }
      assert (Vlow : 9223372036854775808 * P (lB - 1) <= value pb) by (rewrite Vpb; apply (norm_low _ top); assumption).
      assert (V1 : base / 2 <= nth (length pb - 1) pb 0).
      { change (base / 2) with 9223372036854775808. rewrite Lpb.
        pose proof (value_snoc (lB - 1) pb) as X. replace (S (lB - 1)) with lB in X by lia.
        rewrite firstn_all2 in X by lia. pose proof (firstn_range (lB - 1) pb Dpb) as Y. apply (top_low _ _ _ _ _ X Y Vlow). }
      destruct (divLoop_ok pb ltac:(lia) Dpb V1 (S (lA - lB)) (shift_left s (trim A)) (repeat 0 (length b)) LA2)
        as (pa' & Q & qv & E & L1 & D1 & L2 & D2 & QV & EV & RV & VQ).
      * right. rewrite LA1, Lpb. lia.
      * set (k := S (lA - lB)). pose proof (value_skipn k (shift_left s (trim A))) as X.
        rewrite firstn_length_le in X by (rewrite LA1; unfold k; lia).
        pose proof (value_range _ (digits_firstn k _ LA2)) as Y.
        pose proof (P_pos k) as Pk. rewrite LA3 in X.
        assert (PA : P lA = P k * P (lB - 1)) by (rewrite <- P_add; f_equal; unfold k; lia).
        assert (S4 : 2 ^ s <= 9223372036854775808).
        { change 9223372036854775808 with (2 ^ 63). apply Z.pow_le_mono_r; lia. }
        assert (X3 : value (skipn k (shift_left s (trim A))) < P (lB - 1) * 2 ^ s).
        { apply (shifted_high (value A) (2 ^ s) (value (firstn k (shift_left s (trim A)))) (P k) _ _ (P lA)); [exact X|apply Y|exact Pk|exact Sp|apply RtA|exact PA]. }
        apply Z.lt_le_trans with (1 := X3). apply Z.le_trans with (2 := Vlow). rewrite Z.mul_comm. apply Z.mul_le_mono_nonneg_r; [clear - PP; lia|exact S4].
      * apply digits_repeat.
      * intros i Hi. apply nth_repeat.
      * rewrite E. eexists. eexists. split; [reflexivity|].
        rewrite repeat_length in *. rewrite value_repeat in VQ.
        assert (Rv : value (firstn lB pa') = value pa').
        { rewrite value_firstn by (try exact D1; rewrite L1, LA1; lia). apply Z.mod_small.
          pose proof (value_range pa' D1). lia. }
        destruct (shift_right_ok s (firstn lB pa') S1 (digits_firstn lB pa' D1)) as (R1 & R2 & R3).
        rewrite Rv in R3. rewrite LA3, Vpb in EV. rewrite Vpb in RV.
        pose proof (value_range pa' D1) as Rp.
        set (rr := value A - qv * value b).
        assert (Rr : value pa' = rr * 2 ^ s) by (unfold rr; lia).
        assert (Rr2 : 0 <= rr < value b) by (apply (scaled_bound _ (2 ^ s)); [exact Sp|]; rewrite <- Rr; split; [apply Rp|exact RV]).
        assert (RR : value pa' / 2 ^ s = rr) by (rewrite Rr; apply Z.div_mul; lia).
        assert (Dv : value A / value b = qv /\ value A mod value b = rr).
        { replace (value A) with (qv * value b + rr) by (unfold rr; lia). split.
          - rewrite Z.div_add_l by lia. rewrite Z.div_small by lia. lia.
          - rewrite Z.add_comm, Z_mod_plus_full. apply Z.mod_small. lia. }
        destruct Dv as (Dv1 & Dv2). rewrite Dv1, Dv2.
        assert (Lr : (length (shift_right s (firstn lB pa')) <= length b)%nat).
        { rewrite R1, firstn_length. lia. }
        refine (conj L2 (conj (pad_length _ _ Lr) (conj D2 (conj (digits_pad _ _ R2) (conj _ _))))).
        -- rewrite VQ. lia.
        -- rewrite value_pad, R3. exact RR.
Qed.

Lemma Mulm_ok a1 a2 m : digits_ok a1 -> digits_ok a2 -> digits_ok m -> length a1 = length m -> length a2 = length m ->
  divisor_ok (value m) ->
  exists r, Mulm a1 a2 m = Ok r /\ length r = length m /\ digits_ok r /\ value r = (value a1 * value a2) mod value m.
Proof.
  intros D1 D2 Dm L1 L2 OK. unfold Mulm. destruct (dbi_mul_ok a1 a2 D1 D2) as (A & B & C).
  destruct (dbi_div_ok (dbi_mul a1 a2) m B Dm ltac:(lia) OK) as (q & r & E & _ & Lr & _ & Dr & _ & Vr).
  exists r. rewrite E. cbn [bind]. refine (conj eq_refl (conj Lr (conj Dr _))). rewrite Vr, C. reflexivity.
Qed.

Lemma pow_halves r x d m r1 x1 : 0 < m -> 0 <= d -> r1 mod m = (r * x ^ (d mod 2)) mod m -> x1 = (x * x) mod m ->
  (r1 * x1 ^ (d / 2)) mod m = (r * x ^ d) mod m.
Proof.
  intros M D H ->. rewrite (Z.mul_mod r1) by lia. rewrite H. rewrite <- (Zpower_mod (x * x)) by lia.
  rewrite <- Z.mul_mod by lia. f_equal. rewrite <- Z.mul_assoc. f_equal.
  rewrite <- Z.pow_2_r, <- Z.pow_mul_r, <- Z.pow_add_r by lia. f_equal. lia.
Qed.

Lemma powBits_ok m last : digits_ok m -> divisor_ok (value m) -> forall n digit r x,
  digits_ok r -> digits_ok x -> length r = length m -> length x = length m ->
  0 <= digit < 2 ^ Z.of_nat n -> (last = true -> 0 < digit) ->
  exists r' x', powBits n last digit r x m = Ok (r', x') /\ digits_ok r' /\ digits_ok x' /\
    length r' = length m /\ length x' = length m /\
    value r' mod value m = (value r * value x ^ digit) mod value m /\
    (0 < digit \/ value r < value m -> value r' < value m) /\
    (last = false -> value x' mod value m = value x ^ (2 ^ Z.of_nat n) mod value m).
Proof.
  intros Dm OK. assert (Mp : 0 < value m) by (unfold divisor_ok in OK; lia).
  induction n as [|n IH]; intros digit r x Dr Dx Lr Lx Dg La; cbn [powBits].
  - change (2 ^ Z.of_nat 0) with 1 in *. assert (digit = 0) by lia. subst digit.
    exists r, x. refine (conj eq_refl (conj Dr (conj Dx (conj Lr (conj Lx (conj _ (conj _ _))))))).
    + rewrite Z.pow_0_r, Z.mul_1_r. reflexivity.
    + intros [H|H]; [lia|exact H].
    + intros _. rewrite Z.pow_1_r. reflexivity.
  - assert (Half : exists r1, (if Z.odd digit then Mulm r x m else Ok r) = Ok r1 /\ digits_ok r1 /\ length r1 = length m /\
       value r1 mod value m = (value r * value x ^ (digit mod 2)) mod value m /\
       (Z.odd digit = true \/ value r < value m -> value r1 < value m)).
    { rewrite Zmod_odd. destruct (Z.odd digit) eqn:O.
      - destruct (Mulm_ok r x m Dr Dx Dm Lr Lx OK) as (r1 & E & L1 & D1 & V1).
        exists r1. refine (conj E (conj D1 (conj L1 (conj _ _)))).
        + rewrite V1, Z.mod_mod by lia. rewrite Z.pow_1_r. reflexivity.
        + intros _. rewrite V1. apply Z.mod_pos_bound. lia.
      - exists r. refine (conj eq_refl (conj Dr (conj Lr (conj _ _)))).
        + rewrite Z.pow_0_r, Z.mul_1_r. reflexivity.
        + intros [H|H]; [discriminate|exact H]. }
    destruct Half as (r1 & E1 & D1 & L1 & V1 & B1). rewrite E1. cbn [bind].
    rewrite Z.shiftr_div_pow2 by lia. change (2 ^ 1) with 2.
    rewrite Nat2Z.inj_succ, Z.pow_succ_r in Dg by lia.
    assert (Od : Z.odd digit = true <-> digit mod 2 = 1).
    { rewrite Zmod_odd. destruct (Z.odd digit); split; intros; lia || congruence. }
    destruct (last && (digit / 2 =? 0)) eqn:Br.
    + apply andb_true_iff in Br. destruct Br as (-> & Br). apply Z.eqb_eq in Br. specialize (La eq_refl).
      assert (digit = 1) by lia. subst digit. change (1 mod 2) with 1 in V1.
      exists r1, x. refine (conj eq_refl (conj D1 (conj Dx (conj L1 (conj Lx (conj V1 (conj _ _))))))).
      * intros _. apply B1. left. reflexivity.
      * discriminate.
    + destruct (Mulm_ok x x m Dx Dx Dm Lx Lx OK) as (x1 & E2 & L2 & D2 & V2). rewrite E2. cbn [bind].
      destruct (IH (digit / 2) r1 x1 D1 D2 L1 L2 ltac:(lia)) as (r' & x' & I1 & I2 & I3 & I4 & I5 & I6 & I7 & I8).
      { intros ->. cbn [andb] in Br. apply Z.eqb_neq in Br. lia. }
      exists r', x'. refine (conj I1 (conj I2 (conj I3 (conj I4 (conj I5 (conj _ (conj _ _))))))).
      * rewrite I6. apply pow_halves; [exact Mp|apply Dg|exact V1|exact V2].
      * intros H. apply I7. destruct (Z.ltb_spec 0 (digit / 2)) as [Hd|Hd]; [left; exact Hd|right]. apply B1.
        destruct H as [H|H]; [left; apply Od; lia|right; exact H].
      * intros Hl. rewrite (I8 Hl), V2. rewrite <- Zpower_mod by lia.
        rewrite Nat2Z.inj_succ, Z.pow_succ_r by lia. rewrite Z.pow_mul_r by lia. rewrite Z.pow_2_r. reflexivity.
Qed.

Lemma pow_digits r x d B v m r1 x1 : 0 < m -> 0 <= d -> 0 <= B -> 0 <= v -> r1 mod m = (r * x ^ d) mod m -> x1 mod m = x ^ B mod m ->
  (r1 * x1 ^ v) mod m = (r * x ^ (d + B * v)) mod m.
Proof.
  intros M D HB V H X. rewrite (Z.mul_mod r1) by lia. rewrite H. rewrite (Zpower_mod x1) by lia. rewrite X.
  rewrite <- (Zpower_mod (x ^ B)) by lia. rewrite <- Z.mul_mod by lia. f_equal. rewrite <- Z.mul_assoc. f_equal.
  rewrite <- Z.pow_mul_r by lia. rewrite <- Z.pow_add_r; [reflexivity|exact D|]. apply Z.mul_nonneg_nonneg; assumption.
Qed.

Lemma powDigits_ok m : digits_ok m -> divisor_ok (value m) -> forall e r x,
  digits_ok e -> (e <> [] -> nth (length e - 1) e 0 <> 0) ->
  digits_ok r -> digits_ok x -> length r = length m -> length x = length m ->
  exists r', powDigits e r x m = Ok r' /\ digits_ok r' /\ length r' = length m /\
    value r' mod value m = (value r * value x ^ value e) mod value m /\
    (e <> [] \/ value r < value m -> value r' < value m).
Proof.
  intros Dm OK. assert (Mp : 0 < value m) by (unfold divisor_ok in OK; lia).
  induction e as [|d e IH]; intros r x De Top Dr Dx Lr Lx; cbn [powDigits].
  - exists r. refine (conj eq_refl (conj Dr (conj Lr (conj _ _)))).
    + cbn [value]. rewrite Z.pow_0_r, Z.mul_1_r. reflexivity.
    + intros [H|H]; [contradiction|exact H].
  - apply digits_cons in De. destruct De as (D1 & D2). pose proof (value_range e D2) as Re.
    set (last := match e with [] => true | _ :: _ => false end).
    assert (La : last = true -> 0 < d).
    { intros H. unfold last in H. destruct e; [|discriminate]. specialize (Top ltac:(discriminate)). cbn in Top. lia. }
    destruct (powBits_ok m last Dm OK 64 d r x Dr Dx Lr Lx D1 La) as (r1 & x1 & E & A1 & A2 & A3 & A4 & A5 & A6 & A7).
    rewrite E. cbn [bind].
    assert (Top' : e <> [] -> nth (length e - 1) e 0 <> 0).
    { intros Ne. specialize (Top ltac:(discriminate)). cbn [length] in Top.
      destruct e as [|y e]; [contradiction|]. cbn [length] in *.
      clear - Top. change (S (S (length e)) - 1)%nat with (S (length e)) in Top. cbn [nth] in Top.
      replace (S (length e) - 1)%nat with (length e) by lia. exact Top. }
    destruct (IH r1 x1 D2 Top' A1 A2 A3 A4) as (r' & I1 & I2 & I3 & I4 & I5).
    exists r'. refine (conj I1 (conj I2 (conj I3 (conj _ _)))).
    + rewrite I4. rewrite value_cons. destruct e as [|y e].
      * cbn [value]. rewrite Z.mul_0_r, Z.add_0_r, Z.pow_0_r, Z.mul_1_r. exact A5.
      * specialize (A7 eq_refl). change (2 ^ Z.of_nat 64) with base in A7.
        apply (pow_digits (value r) (value x) d base (value (y :: e)) (value m)); [exact Mp|apply D1|discriminate|apply Re|exact A5|exact A7].
    + intros _. apply I5. destruct e as [|y e]; [right|left; discriminate].
      apply A6. left. apply La. reflexivity.
Qed.

Lemma ofSmall_ok v n : 0 <= v < base -> (1 <= n)%nat ->
  length (ofSmall v n) = n /\ digits_ok (ofSmall v n) /\ value (ofSmall v n) = v.
Proof.
  intros V N. unfold ofSmall. destruct n as [|n]; [lia|].
  replace (S n - 1)%nat with n by lia. rewrite firstn_all2 by (cbn [length]; rewrite repeat_length; lia).
  cbn [length]. rewrite repeat_length, value_cons, value_repeat. refine (conj eq_refl (conj _ _)); [|lia].
  apply digits_cons. split; [exact V|apply digits_repeat].
Qed.

Lemma divisor_len m : digits_ok m -> 0 < value m -> (1 <= length m)%nat.
Proof. intros D H. destruct m; [cbn in H; lia|cbn; lia]. Qed.

Lemma Powm_ok a e m : digits_ok a -> digits_ok e -> digits_ok m -> length a = length m -> length e = length m ->
  divisor_ok (value m) -> value e <> 0 \/ value m <> 1 ->
  exists r, Powm a e m = Ok (Some r) /\ length r = length m /\ digits_ok r /\
    value r = value a ^ value e mod value m.
Proof.
  intros Da De Dm La Le OK H. unfold Powm. rewrite La, Le, Nat.eqb_refl. cbn [negb orb].
  assert (Mp : 0 < value m) by (unfold divisor_ok in OK; lia).
  destruct (trim_ok e De) as (V & Dt & _ & T).
  destruct (ofSmall_ok 1 (length m) ltac:(lia) (divisor_len m Dm Mp)) as (O1 & O2 & O3).
  destruct (powDigits_ok m Dm OK (trim e) (ofSmall 1 (length m)) a Dt T O2 Da O1 La) as (r & E & R1 & R2 & R3 & R4).
  exists r. rewrite E. cbn [bind]. refine (conj eq_refl (conj R2 (conj R1 _))).
  rewrite O3, V, Z.mul_1_l in R3. rewrite <- R3. symmetry. apply Z.mod_small.
  split; [apply value_range; exact R1|]. apply R4.
  destruct (trim e) eqn:Te; [right|left; discriminate]. rewrite O3. cbn [value] in V. lia.
Qed.

(** Bytes. *)
Lemma Forall_firstn {A} (R : A -> Prop) n l : Forall R l -> Forall R (firstn n l).
Proof. intros H. rewrite <- (firstn_skipn n l) in H. apply Forall_app in H. apply H. Qed.

Lemma Forall_skipn {A} (R : A -> Prop) n l : Forall R l -> Forall R (skipn n l).
Proof. intros H. rewrite <- (firstn_skipn n l) in H. apply Forall_app in H. apply H. Qed.

Lemma unle_app a b : unle (a ++ b) = unle a + 256 ^ zlen a * unle b.
Proof.
  induction a as [|x a IH]; [cbn [app unle]; unfold zlen; cbn [length]; change (256 ^ Z.of_nat 0) with 1; lia|].
  cbn [app unle]. rewrite IH. unfold zlen. cbn [length]. rewrite Nat2Z.inj_succ, Z.pow_succ_r by lia. ring.
Qed.

Lemma digitsOf_ok n : forall bytes, bytes_ok bytes -> (length bytes <= 8 * n)%nat ->
  length (digitsOf n bytes) = n /\ digits_ok (digitsOf n bytes) /\ value (digitsOf n bytes) = unle bytes.
Proof.
  induction n as [|n IH]; intros bytes B L; cbn [digitsOf].
  - destruct bytes; [|cbn in L; lia]. repeat split; constructor.
  - assert (B1 : bytes_ok (firstn 8 bytes)) by (apply Forall_firstn; exact B).
    assert (B2 : bytes_ok (skipn 8 bytes)) by (apply Forall_skipn; exact B).
    destruct (IH (skipn 8 bytes) B2 ltac:(rewrite skipn_length; lia)) as (I1 & I2 & I3).
    pose proof (unle_range _ B1) as R.
    assert (Z8 : zlen (firstn 8 bytes) <= 8) by (unfold zlen; rewrite firstn_length; lia).
    assert (Z9 : 256 ^ zlen (firstn 8 bytes) <= 256 ^ 8) by (apply Z.pow_le_mono_r; lia).
    refine (conj _ (conj _ _)).
    + cbn [length]. lia.
    + apply digits_cons. split; [|exact I2]. change (256 ^ 8) with base in Z9. lia.
    + rewrite value_cons, I3. rewrite <- (firstn_skipn 8 bytes) at 3. rewrite unle_app.
      destruct (Nat.le_gt_cases 8 (length bytes)) as [H|H].
      * unfold zlen. rewrite firstn_length_le by exact H. change (256 ^ Z.of_nat 8) with base. reflexivity.
      * rewrite skipn_all2 by lia. cbn [unle]. ring.
Qed.

Lemma unbe_rev l : unbe l = unle (rev l).
Proof.
  induction l as [|x l IH] using rev_ind; [reflexivity|].
  rewrite rev_app_distr. cbn [rev app unle]. rewrite <- IH. unfold unbe. rewrite fold_left_app. cbn [fold_left]. lia.
Qed.

Lemma Set_ok data : bytes_ok data ->
  length (Set_ data) = ((length data + 7) / 8)%nat /\ digits_ok (Set_ data) /\ value (Set_ data) = unbe data.
Proof.
  intros B. unfold Set_. destruct (digitsOf_ok ((length data + 7) / 8) (rev data)) as (A & C & D).
  - apply Forall_rev. exact B.
  - rewrite rev_length. lia.
  - refine (conj A (conj C _)). rewrite D, unbe_rev. reflexivity.
Qed.

Lemma bytesOf_ok m : digits_ok m ->
  length (flat_map (le 8) m) = (8 * length m)%nat /\ bytes_ok (flat_map (le 8) m) /\ unle (flat_map (le 8) m) = value m.
Proof.
  induction m as [|d m IH]; intros D; [repeat split; constructor|].
  apply digits_cons in D. destruct D as (D1 & D2). destruct (IH D2) as (I1 & I2 & I3).
  change (flat_map (le 8) (d :: m)) with (le 8 d ++ flat_map (le 8) m).
  rewrite app_length, le_length, unle_app, I1, I3, unle_le by exact D1.
  refine (conj _ (conj _ _)).
  - cbn [length]. lia.
  - apply Forall_app. split; [apply le_bytes|exact I2].
  - unfold zlen. rewrite le_length. change (256 ^ Z.of_nat 8) with base. reflexivity.
Qed.

Lemma Export_ok m size : digits_ok m -> (8 * length m <= size)%nat ->
  length (Export m size) = (8 * length m)%nat /\ bytes_ok (Export m size) /\ unbe (Export m size) = value m.
Proof.
  intros D L. unfold Export. destruct (bytesOf_ok m D) as (A & B & C).
  rewrite Nat.min_l by exact L. rewrite firstn_all2 by lia. rewrite rev_length, unbe_rev, rev_involutive.
  refine (conj A (conj _ C)). apply Forall_rev. exact B.
Qed.
