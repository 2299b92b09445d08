(** Proofs about big numbers: shifts and division. *)
From Verif Require Import Base BaseLemmas ShaProofs BigModel BigSpec BigProofs.

Lemma make_dword_ok l h : 0 <= l < base -> 0 <= h < base -> make_dword l h = l + base * h.
Proof.
  intros L H. unfold make_dword. rewrite Z.shiftl_mul_pow2 by lia. change (2 ^ 64) with base.
  unfold u128. rewrite Z.mod_small by lia. rewrite Z.lor_comm, (lor_add _ _ 64); [lia|lia|exact L|].
  exists h. reflexivity.
Qed.

Lemma pow_split s : 0 <= s <= 64 -> 2 ^ s * 2 ^ (64 - s) = base /\ 0 < 2 ^ s /\ 0 < 2 ^ (64 - s).
Proof.
  intros S0. rewrite <- Z.pow_add_r by lia. replace (s + (64 - s)) with 64 by lia.
  split; [reflexivity|]. split; apply Z.pow_pos_nonneg; lia.
Qed.

Lemma digit_join p r m h B : p * r = B -> 0 < p -> 0 <= m < r -> 0 <= h < p -> 0 <= p * m + h < B.
Proof.
  intros E P M H. assert (p * m <= p * (r - 1)) by (apply Z.mul_le_mono_nonneg_l; lia).
  assert (0 <= p * m) by (apply Z.mul_nonneg_nonneg; lia). lia.
Qed.

Lemma le_of_prod p r B : p * r = B -> 0 < p -> 0 < r -> p <= B.
Proof. intros E P R. assert (p * 1 <= p * r) by (apply Z.mul_le_mono_nonneg_l; lia). lia. Qed.

Lemma shlLoop_ok s : 0 < s < 64 -> forall l prev, digits_ok l -> 0 <= prev < base ->
  length (shlLoop s prev l) = S (length l) /\ digits_ok (shlLoop s prev l) /\
  value (shlLoop s prev l) = value l * 2 ^ s + prev / 2 ^ (64 - s).
Proof.
  intros S0. destruct (pow_split s ltac:(lia)) as (E & P1 & P2).
  set (p := 2 ^ s) in *. set (r := 2 ^ (64 - s)) in *.
  assert (Hp : forall v, 0 <= v < base -> 0 <= v / r < p).
  { intros v V. split; [apply Z.div_pos; lia|]. apply Z.div_lt_upper_bound; [lia|]. lia. }
  assert (Hpb : p <= base) by (apply (le_of_prod p r); assumption).
  induction l as [|x l IH]; intros prev D R; cbn [shlLoop].
  - rewrite Z.shiftr_div_pow2 by lia. fold r. specialize (Hp prev R). refine (conj eq_refl (conj _ _)).
    + apply digits_cons. split; [lia|constructor].
    + cbn [value]. lia.
  - apply digits_cons in D. destruct D as (D1 & D2). destruct (IH x D2 D1) as (I1 & I2 & I3).
    rewrite Z.shiftl_mul_pow2, Z.shiftr_div_pow2 by lia. fold r. fold p.
    assert (U : u64 (x * p) = p * (x mod r)).
    { unfold u64. rewrite <- E, (Z.mul_comm x p). apply Z.mul_mod_distr_l; lia. }
    assert (LO : Z.lor (u64 (x * p)) (prev / r) = u64 (x * p) + prev / r).
    { apply (lor_add _ _ s); [lia|apply Hp; exact R|]. rewrite U. exists (x mod r). unfold p. ring. }
    rewrite LO, U. pose proof (Hp prev R) as H0. pose proof (Z.mod_pos_bound x r P2) as H1.
    refine (conj _ (conj _ _)).
    + cbn [length]. lia.
    + apply digits_cons. split; [|exact I2]. apply (digit_join p r); [exact E|lia|lia|lia].
    + rewrite !value_cons, I3. pose proof (Z.div_mod x r ltac:(lia)) as DM.
      rewrite <- E. replace ((x + p * r * value l) * p) with (x * p + p * r * (value l * p)) by ring.
      rewrite DM at 3. ring.
Qed.

Lemma shift_left_ok s l : 0 <= s < 64 -> digits_ok l ->
  length (shift_left s l) = S (length l) /\ digits_ok (shift_left s l) /\
  value (shift_left s l) = value l * 2 ^ s.
Proof.
  intros S0 D. unfold shift_left. destruct (s =? 0) eqn:E.
  - apply Z.eqb_eq in E. subst s. rewrite app_length, value_app. cbn [length value].
    refine (conj _ (conj _ _)); [lia| |change (2 ^ 0) with 1; lia].
    apply digits_app. split; [exact D|]. apply digits_cons. split; [lia|constructor].
  - apply Z.eqb_neq in E. destruct (shlLoop_ok s ltac:(lia) l 0 D ltac:(lia)) as (A & B & C).
    refine (conj A (conj B _)). rewrite C. rewrite Z.div_0_l by (apply Z.pow_nonzero; lia). ring.
Qed.

Lemma shrLoop_ok s : 0 < s < 64 -> forall l, digits_ok l ->
  length (shrLoop s l) = length l /\ digits_ok (shrLoop s l) /\ value (shrLoop s l) = value l / 2 ^ s.
Proof.
  intros S0. destruct (pow_split s ltac:(lia)) as (E & P1 & P2).
  set (p := 2 ^ s) in *. set (r := 2 ^ (64 - s)) in *.
  assert (Hr : forall v, 0 <= v < base -> 0 <= v / p < r).
  { intros v V. split; [apply Z.div_pos; lia|]. apply Z.div_lt_upper_bound; [lia|]. lia. }
  assert (Hrb : r <= base) by (apply (le_of_prod r p); [lia|assumption|assumption]).
  induction l as [|x l IH]; intros D; [refine (conj eq_refl (conj (Forall_nil _) _)); cbn [shrLoop value]; rewrite Z.div_0_l by lia; reflexivity|].
  apply digits_cons in D. destruct D as (D1 & D2). destruct (IH D2) as (I1 & I2 & I3).
  cbn [shrLoop]. destruct l as [|y l].
  - rewrite Z.shiftr_div_pow2 by lia. fold p. pose proof (Hr x D1). refine (conj eq_refl (conj _ _)).
    + apply digits_cons. split; [lia|constructor].
    + cbn [value]. rewrite !Z.mul_0_r, !Z.add_0_r. reflexivity.
  - rewrite Z.shiftl_mul_pow2, Z.shiftr_div_pow2 by lia. fold r. fold p.
    assert (U : u64 (y * r) = r * (y mod p)).
    { unfold u64. rewrite <- E, (Z.mul_comm y r), (Z.mul_comm p r). apply Z.mul_mod_distr_l; lia. }
    assert (LO : Z.lor (x / p) (u64 (y * r)) = u64 (y * r) + x / p).
    { rewrite Z.lor_comm. apply (lor_add _ _ (64 - s)); [lia|apply Hr; exact D1|]. rewrite U. exists (y mod p). unfold r. ring. }
    rewrite LO, U. pose proof (Hr x D1) as H0. pose proof (Z.mod_pos_bound y p P1) as H1.
    refine (conj _ (conj _ _)).
    + cbn [length] in *. lia.
    + apply digits_cons. split; [|exact I2]. apply (digit_join r p); [lia|lia|lia|lia].
    + set (l' := y :: l) in *. rewrite (value_cons x l'), (value_cons _ (shrLoop s l')), I3.
      assert (M : y mod p = value l' mod p).
      { unfold l'. rewrite value_cons, <- E. replace (y + p * r * value l) with (y + (r * value l) * p) by ring.
        rewrite Z_mod_plus_full. reflexivity. }
      rewrite M. pose proof (Z.div_mod (value l') p ltac:(lia)) as DM.
      rewrite <- E. replace (x + p * r * value l') with (x + (r * value l') * p) by ring.
      rewrite Z.div_add by lia. rewrite DM at 3. ring.
Qed.

Lemma shift_right_ok s l : 0 <= s < 64 -> digits_ok l ->
  length (shift_right s l) = length l /\ digits_ok (shift_right s l) /\
  value (shift_right s l) = value l / 2 ^ s.
Proof.
  intros S0 D. unfold shift_right. destruct (s =? 0) eqn:E.
  - apply Z.eqb_eq in E. subst s. refine (conj eq_refl (conj D _)). change (2 ^ 0) with 1. rewrite Z.div_1_r. reflexivity.
  - apply Z.eqb_neq in E. apply shrLoop_ok; [lia|exact D].
Qed.

(** The most significant bit. *)
Lemma land_mask v s : 0 <= s -> 0 <= v < 2 ^ (2 * s) ->
  Z.land v (Z.shiftl (Z.ones s) s) = (v / 2 ^ s) * 2 ^ s.
Proof.
  intros S0 V. rewrite <- Z.shiftr_div_pow2, <- Z.shiftl_mul_pow2 by lia.
  assert (R : 0 <= Z.shiftr v s < 2 ^ s).
  { rewrite Z.shiftr_div_pow2 by lia. assert (0 < 2 ^ s) by (apply Z.pow_pos_nonneg; lia).
    split; [apply Z.div_pos; lia|]. apply Z.div_lt_upper_bound; [lia|]. rewrite <- Z.pow_add_r by lia.
    replace (s + s) with (2 * s) by lia. lia. }
  rewrite <- (Z.mod_small _ _ R), <- Z.land_ones by lia.
  apply Z.bits_inj'. intros i Hi. rewrite Z.land_spec, !Z.shiftl_spec by lia.
  destruct (Z.ltb_spec i s) as [L|L].
  - rewrite !(Z.testbit_neg_r _ (i - s)) by lia. apply andb_false_r.
  - rewrite Z.land_spec, Z.shiftr_spec by lia. replace (i - s + s) with i by lia. reflexivity.
Qed.

Lemma msbRound_ok mask s v r : 0 < s -> mask = Z.shiftl (Z.ones s) s -> 0 < v < 2 ^ (2 * s) ->
  (2 ^ s | s) \/ True -> (2 * s | r) -> (exists k, s = 2 ^ k /\ 0 <= k) -> 0 <= r ->
  let '(v', r') := msbRound mask s (v, r) in
  0 < v' < 2 ^ s /\ (s | r') /\ 0 <= r' /\ Z.log2 v' + r' = Z.log2 v + r.
Proof.
  intros S0 -> V _ Dr (k & K & K0) R0. unfold msbRound. rewrite land_mask by lia.
  assert (Pp : 0 < 2 ^ s) by (apply Z.pow_pos_nonneg; lia).
  destruct (v / 2 ^ s * 2 ^ s =? 0) eqn:E.
  - apply Z.eqb_eq in E. assert (D0 : v / 2 ^ s = 0) by nia. apply Z.div_small_iff in D0; [|lia].
    destruct D0 as [D0|D0]; [|lia]. refine (conj _ (conj _ (conj R0 eq_refl))); [lia|].
    destruct Dr as (q & ->). exists (2 * q). ring.
  - apply Z.eqb_neq in E. rewrite Z.shiftr_div_pow2 by lia.
    assert (D0 : 0 < v / 2 ^ s) by (assert (0 <= v / 2 ^ s) by (apply Z.div_pos; lia); nia).
    assert (LO : Z.lor r s = r + s).
    { destruct Dr as (q & ->). apply (lor_add _ _ (k + 1)); [lia| |].
      - rewrite K, Z.pow_add_r by lia. change (2 ^ 1) with 2. assert (0 < 2 ^ k) by (apply Z.pow_pos_nonneg; lia). lia.
      - exists q. rewrite Z.pow_add_r by lia. rewrite K. change (2 ^ 1) with 2. ring. }
    rewrite LO. refine (conj _ (conj _ (conj _ _))).
    + split; [exact D0|]. apply Z.div_lt_upper_bound; [lia|]. rewrite <- Z.pow_add_r by lia.
      replace (s + s) with (2 * s) by lia. lia.
    + destruct Dr as (q & ->). exists (2 * q + 1). ring.
    + lia.
    + rewrite <- Z.shiftr_div_pow2 by lia. rewrite Z.log2_shiftr by lia.
      assert (s <= Z.log2 v).
      { apply Z.log2_le_pow2; [lia|]. pose proof (Z.mul_div_le v (2 ^ s) ltac:(lia)). nia. }
      lia.
Qed.

Lemma MsbPos_ok v : 0 < v < base -> MsbPos v = Z.log2 v.
Proof.
  intros V. unfold MsbPos.
  assert (H : forall mask s k vr v0, 0 < s -> mask = Z.shiftl (Z.ones s) s -> s = 2 ^ k -> 0 <= k ->
     0 < fst vr < 2 ^ (2 * s) /\ (2 * s | snd vr) /\ 0 <= snd vr /\ Z.log2 (fst vr) + snd vr = v0 ->
     0 < fst (msbRound mask s vr) < 2 ^ s /\ (s | snd (msbRound mask s vr)) /\ 0 <= snd (msbRound mask s vr) /\
     Z.log2 (fst (msbRound mask s vr)) + snd (msbRound mask s vr) = v0).
  { intros mask s k [w r] v0 S0 M K K0 (A & B & C & D). cbn [fst snd] in *.
    pose proof (msbRound_ok mask s w r S0 M A (or_intror Logic.I) B (ex_intro _ k (conj K K0)) C) as X.
    destruct (msbRound mask s (w, r)) as [w' r']. cbn [fst snd]. destruct X as (X1 & X2 & X3 & X4).
    refine (conj X1 (conj X2 (conj X3 _))). lia. }
  assert (I : 0 < fst (v, 0) < 2 ^ (2 * 32) /\ (2 * 32 | snd (v, 0)) /\ 0 <= snd (v, 0) /\ Z.log2 (fst (v, 0)) + snd (v, 0) = Z.log2 v).
  { cbn [fst snd]. refine (conj V (conj _ (conj _ _))); [exists 0; reflexivity|lia|lia]. }
  apply (H 18446744069414584320 32 5) in I; [|lia|reflexivity|reflexivity|lia].
  apply (H 4294901760 16 4) in I; [|lia|reflexivity|reflexivity|lia].
  apply (H 65280 8 3) in I; [|lia|reflexivity|reflexivity|lia].
  apply (H 240 4 2) in I; [|lia|reflexivity|reflexivity|lia].
  apply (H 12 2 1) in I; [|lia|reflexivity|reflexivity|lia].
  apply (H 2 1 0) in I; [|lia|reflexivity|reflexivity|lia].
  match type of I with context [snd ?x] => set (z := x) in * end.
  destruct I as (I1 & _ & _ & I2). change (2 ^ 1) with 2 in I1.
  assert (E : fst z = 1) by lia. rewrite E in I2. change (Z.log2 1) with 0 in I2. lia.
Qed.

(** The single digit division. *)
Lemma divDigit_ok b0 : 0 < b0 <= 9223372036854775808 -> forall a, digits_ok a ->
  exists q k, divDigit a b0 = Ok (q, k) /\ length q = length a /\ digits_ok q /\
    0 <= k < b0 /\ value a = value q * b0 + k.
Proof.
  intros B0. induction a as [|x a IH]; intros D.
  - exists [], 0. cbn. repeat split; try lia; constructor.
  - apply digits_cons in D. destruct D as (D1 & D2). destruct (IH D2) as (q & k0 & E & L & Q & K & V).
    cbn [divDigit]. rewrite E. cbn [bind].
    rewrite make_dword_ok by lia.
    assert (S1 : s128 (x + base * k0) = x + base * k0).
    { unfold s128, u128. rewrite Z.mod_small by lia.
      replace (_ <? _) with true by (symmetry; apply Z.ltb_lt; lia). reflexivity. }
    rewrite S1. set (v := x + base * k0) in *.
    assert (U1 : u128 v = v) by (unfold u128; apply Z.mod_small; subst v; lia). rewrite U1.
    pose proof (Z.div_mod v b0 ltac:(lia)) as DM. pose proof (Z.mod_pos_bound v b0 ltac:(lia)) as MB.
    set (Q0 := v / b0) in *. set (r := v mod b0) in *.
    assert (QR : 0 <= Q0 < base).
    { subst Q0. split; [apply Z.div_pos; subst v; lia|]. apply Z.div_lt_upper_bound; [lia|]. subst v. nia. }
    assert (LQ : lo Q0 = Q0) by (unfold lo; apply Z.mod_small; exact QR). rewrite LQ.
    assert (R0 : 0 <= u64 (Q0 * b0) < base) by (unfold u64; apply Z.mod_pos_bound; lia).
    replace (in128 (v - u64 (Q0 * b0))) with true.
    2:{ symmetry. unfold in128. apply andb_true_iff. split; [apply Z.leb_le|apply Z.ltb_lt]; subst v; lia. }
    assert (K2 : lo (v - u64 (Q0 * b0)) = r).
    { unfold lo, u64. rewrite Zminus_mod_idemp_r. replace (v - Q0 * b0) with r by lia. apply Z.mod_small. lia. }
    rewrite K2. exists (Q0 :: q), r. refine (conj eq_refl (conj _ (conj _ (conj MB _)))).
    + cbn [length]. lia.
    + apply digits_cons. auto.
    + rewrite !value_cons, V. fold v in DM. subst v. 
      replace (x + base * (value q * b0 + k0)) with ((x + base * k0) + base * value q * b0) by ring.
      rewrite DM. ring.
Qed.

(** The correction loop. *)
Lemma adjust_ok v1 v2 u3 U2 qt : base / 2 <= v1 < base -> 0 <= v2 < base -> 0 <= u3 < base ->
  0 <= qt < base -> U2 <= v1 * base + v2 ->
  (forall Q, Q * (v1 * base + v2) > U2 * base + u3 -> qt < Q) ->
  forall fuel Q R, Q * v1 + R = U2 -> 0 <= R < base -> qt <= Q <= base + 1 ->
  base <= R + Z.of_nat fuel * v1 ->
  exists Q', adjust fuel v1 v2 u3 Q R = Some Q' /\ qt <= Q' < base /\ Q' * (v1 * base + v2) <= U2 * base + u3.
Proof.
  intros V1 V2 U3 QT HU HQ. induction fuel as [|fuel IH]; intros Q R E RR QQ F.
  - exfalso. lia.
  - cbn [adjust].
    assert (LR : lo R = R) by (unfold lo; apply Z.mod_small; exact RR). rewrite LR.
    rewrite make_dword_ok by assumption.
    destruct ((base <=? Q) || (u3 + base * R <? lo Q * v2)) eqn:T.
    + assert (Q1 : qt < Q).
      { apply orb_true_iff in T. destruct T as [T|T]; [apply Z.leb_le in T; lia|].
        destruct (Z.ltb_spec Q base) as [L|L]; [|lia].
        unfold lo in T. rewrite Z.mod_small in T by lia. apply Z.ltb_lt in T. apply HQ.
        replace (Q * (v1 * base + v2)) with (Q * v1 * base + Q * v2) by ring.
        replace (Q * v1) with (U2 - R) by lia. lia. }
      assert (W1 : u128 (Q - 1) = Q - 1) by (unfold u128; apply Z.mod_small; lia).
      assert (W2 : u128 (R + v1) = R + v1) by (unfold u128; apply Z.mod_small; lia).
      rewrite W1, W2. destruct (base <=? R + v1) eqn:BR.
      * apply Z.leb_le in BR. exists (Q - 1).
        assert (QB : Q - 1 < base).
        { destruct (Z.ltb_spec (Q - 1) base) as [L|L]; [exact L|]. exfalso. assert (QE : Q = base + 1) by lia. rewrite QE in E. lia. }
        refine (conj eq_refl (conj _ _)); [lia|].
        replace ((Q - 1) * (v1 * base + v2)) with ((Q * v1 - v1) * base + (Q - 1) * v2) by ring.
        replace (Q * v1) with (U2 - R) by lia.
        assert ((Q - 1) * v2 <= (base - 1) * (base - 1)) by (apply Z.mul_le_mono_nonneg; lia). lia.
      * apply Z.leb_gt in BR. apply IH; [lia|lia|lia|lia].
    + apply orb_false_iff in T. destruct T as (T1 & T2). apply Z.leb_gt in T1. apply Z.ltb_ge in T2.
      unfold lo in T2. rewrite Z.mod_small in T2 by lia.
      exists Q. refine (conj eq_refl (conj _ _)); [lia|].
      replace (Q * (v1 * base + v2)) with (Q * v1 * base + Q * v2) by ring.
      replace (Q * v1) with (U2 - R) by lia. lia.
Qed.

(** Multiply and subtract. *)
Lemma mulSub_ok q t rest : 0 <= q < base -> 0 <= t < base -> forall pb w c, digits_ok pb -> digits_ok w ->
  length w = length pb -> 0 <= c < base ->
  exists w' s, mulSub q pb (w ++ t :: rest) c = (w' ++ lo s :: rest, s) /\
    length w' = length pb /\ digits_ok w' /\
    value w' + P (length pb) * s = value w + P (length pb) * t - q * value pb - c.
Proof.
  intros Q T. induction pb as [|y pb IH]; intros [|d w] c B0 W L C; try discriminate.
  - exists [], (t - c). cbn [mulSub app length value]. rewrite P_0. repeat split; [constructor|lia].
  - apply digits_cons in B0. apply digits_cons in W. destruct B0 as (B1 & B2). destruct W as (W1 & W2).
    cbn [length] in L. cbn [mulSub app]. pose proof (prod_range q y Q B1) as R.
    set (m := q * y) in *. set (s0 := d - lo m - c) in *.
    assert (CC : u64 (hi m - hi s0) = m / base - s0 / base /\ 0 <= m / base - s0 / base < base).
    { assert (X : 0 <= m / base - s0 / base < base) by (subst s0; unfold lo; lia).
      split; [|exact X]. unfold u64, hi. rewrite <- Zminus_mod. apply Z.mod_small. exact X. }
    destruct CC as (C1 & C2). rewrite C1.
    destruct (IH w (m / base - s0 / base) B2 W2 ltac:(lia) C2) as (w' & s & E1 & E2 & E3 & E4).
    rewrite E1. exists (lo s0 :: w'), s. cbn [app length]. refine (conj eq_refl (conj _ (conj _ _))).
    + lia.
    + apply digits_cons. split; [apply lo_range|exact E3].
    + rewrite !value_cons, P_S.
      replace (lo s0 + base * value w' + base * P (length pb) * s) with
        (lo s0 + base * (value w' + P (length pb) * s)) by ring.
      rewrite E4. unfold lo at 1. rewrite (Z.mod_eq s0 base) by lia.
      replace (q * (y + base * value pb)) with (m + base * (q * value pb)) by (unfold m; ring).
      assert (X : s0 = d - (m - base * (m / base)) - c) by (subst s0; unfold lo; rewrite (Z.mod_eq m base) by lia; reflexivity).
      set (s1 := s0 / base) in *. rewrite X. ring.
Qed.

Lemma nth_skip {A} k (l : list A) i d : nth i (skipn k l) d = nth (k + i) l d.
Proof. revert l. induction k as [|k IH]; intros [|a l]; cbn; try reflexivity; [destruct i; reflexivity|]. apply IH. Qed.

Lemma skip_skip {A} a : forall b (l : list A), skipn b (skipn a l) = skipn (a + b) l.
Proof. induction a as [|a IH]; intros b [|x l]; cbn; try reflexivity; [apply skipn_nil|]. apply IH. Qed.

Lemma split2 {A} (l : list A) d : (2 <= length l)%nat ->
  exists pl, l = pl ++ [nth (length l - 2) l d; nth (length l - 1) l d] /\ length pl = (length l - 2)%nat.
Proof.
  intros H. exists (firstn (length l - 2) l). split; [|apply firstn_length_le; lia].
  rewrite <- (firstn_skipn (length l - 2) l) at 1. f_equal.
  assert (L : length (skipn (length l - 2) l) = 2%nat) by (rewrite skipn_length; lia).
  assert (N : forall i, nth i (skipn (length l - 2) l) d = nth (length l - 2 + i) l d).
  { intros i. apply nth_skip. }
  destruct (skipn (length l - 2) l) as [|a [|b [|c r]]]; try discriminate.
  pose proof (N 0%nat) as N0. pose proof (N 1%nat) as N1. cbn [nth] in N0, N1.
  rewrite Nat.add_0_r in N0. replace (length l - 2 + 1)%nat with (length l - 1)%nat in N1 by lia. congruence.
Qed.

Lemma split3 {A} (l : list A) d n : (2 <= n)%nat -> (n < length l)%nat ->
  exists wl rest, l = wl ++ [nth (n - 2) l d; nth (n - 1) l d; nth n l d] ++ rest /\ length wl = (n - 2)%nat.
Proof.
  intros H1 H2. exists (firstn (n - 2) l), (skipn (S n) l). split; [|apply firstn_length_le; lia].
  rewrite <- (firstn_skipn (n - 2) l) at 1. f_equal.
  assert (N : forall i, nth i (skipn (n - 2) l) d = nth (n - 2 + i) l d).
  { intros i. apply nth_skip. }
  assert (L : (3 <= length (skipn (n - 2) l))%nat) by (rewrite skipn_length; lia).
  assert (R : skipn (S n) l = skipn 3 (skipn (n - 2) l)) by (rewrite skip_skip; f_equal; lia).
  rewrite R.
  destruct (skipn (n - 2) l) as [|a [|b [|c r]]]; cbn [length] in L; try lia.
  pose proof (N 0%nat) as N0. pose proof (N 1%nat) as N1. pose proof (N 2%nat) as N2. cbn [nth] in N0, N1, N2.
  replace (n - 2 + 0)%nat with (n - 2)%nat in N0 by lia. replace (n - 2 + 1)%nat with (n - 1)%nat in N1 by lia.
  replace (n - 2 + 2)%nat with n in N2 by lia. cbn [skipn app]. congruence.
Qed.

Lemma est_low p b W qt v1 v2 vpl U2 u3 wl : 0 < p -> b = vpl + p * (v2 + base * v1) -> 0 <= vpl -> 0 <= v2 -> 0 <= qt ->
  b * qt <= W -> W = wl + p * (u3 + base * U2) -> wl < p -> u3 < base -> v1 * qt <= U2.
Proof.
  intros P B L V Q H E WL U. assert (N1 : 0 <= vpl * qt) by (apply Z.mul_nonneg_nonneg; lia).
  assert (N2 : 0 <= p * (v2 * qt)) by (repeat apply Z.mul_nonneg_nonneg; lia).
  assert (N3 : p * u3 <= p * (base - 1)) by (apply Z.mul_le_mono_nonneg_l; lia).
  assert (X : p * (v1 * qt) < p * (U2 + 1)).
  { assert (b * qt = vpl * qt + p * (v2 * qt) + base * (p * (v1 * qt))) by (rewrite B; ring). lia. }
  apply Z.mul_lt_mono_pos_l in X; lia.
Qed.

Lemma est_up p b W r qt Q v1 v2 vpl U2 u3 wl : 0 < p -> b = vpl + p * (v2 + base * v1) -> 0 <= vpl < p -> base * p <= b ->
  0 <= wl -> W = wl + p * (u3 + base * U2) -> W = b * qt + r -> r < b -> 0 <= Q < base ->
  Q * (v1 * base + v2) <= U2 * base + u3 -> Q <= qt + 1.
Proof.
  intros P B L BP WL E D R QR H.
  assert (N1 : Q * vpl <= base * p) by (apply Z.mul_le_mono_nonneg; lia).
  assert (N2 : p * (Q * (v1 * base + v2)) <= p * (U2 * base + u3)) by (apply Z.mul_le_mono_nonneg_l; lia).
  assert (X : b * Q < b * (qt + 2)).
  { assert (b * Q = Q * vpl + p * (Q * (v1 * base + v2))) by (rewrite B; ring). lia. }
  apply Z.mul_lt_mono_pos_l in X; lia.
Qed.

Lemma radix_unique P a c r d : 0 <= a < P -> 0 <= r < P -> a + P * c = r + P * d -> a = r /\ c = d.
Proof.
  intros A R E. assert (c = d); [|subst; lia].
  destruct (Z.lt_trichotomy c d) as [L|[L|L]]; [|exact L|].
  - assert (P * (c + 1) <= P * d) by (apply Z.mul_le_mono_nonneg_l; lia). lia.
  - assert (P * (d + 1) <= P * c) by (apply Z.mul_le_mono_nonneg_l; lia). lia.
Qed.

Lemma divStep_ok pb win : (2 <= length pb)%nat -> digits_ok pb -> base / 2 <= nth (length pb - 1) pb 0 ->
  digits_ok win -> (length pb < length win)%nat -> value win < value pb * base ->
  exists q win', divStep pb win = Some (q, win') /\ length win' = length win /\ digits_ok win' /\
    0 <= q < base /\ value win = q * value pb + value win' /\ value win' < value pb.
Proof.
  intros N Db V1 Dw Lw HW. unfold divStep.
  set (n := length pb) in *.
  destruct (split2 pb 0 N) as (pl & Epb & Lpl). fold n in Epb, Lpl.
  destruct (split3 win 0 n N Lw) as (wl & rest & Ewin & Lwl).
  pose proof (nth_digit (n - 1) pb Db) as R1. pose proof (nth_digit (n - 2) pb Db) as R2.
  pose proof (nth_digit n win Dw) as W1. pose proof (nth_digit (n - 1) win Dw) as W2.
  pose proof (nth_digit (n - 2) win Dw) as W3.
  set (v1 := nth (n - 1) pb 0) in *. set (v2 := nth (n - 2) pb 0) in *.
  set (u1 := nth n win 0) in *. set (u2 := nth (n - 1) win 0) in *. set (u3 := nth (n - 2) win 0) in *.
  clearbody v1 v2 u1 u2 u3.
  assert (Dpl : digits_ok pl) by (rewrite Epb in Db; apply digits_app in Db; apply Db).
  assert (Dwl : digits_ok wl) by (rewrite Ewin in Dw; apply digits_app in Dw; apply Dw).
  assert (Drest : digits_ok rest).
  { rewrite Ewin in Dw. apply digits_app in Dw. destruct Dw as (_ & Dw). apply digits_app in Dw. apply Dw. }
  pose proof (value_range pl Dpl) as Rpl. rewrite Lpl in Rpl.
  pose proof (value_range wl Dwl) as Rwl. rewrite Lwl in Rwl.
  pose proof (value_range rest Drest) as Rrest.
  pose proof (value_range pb Db) as Rpb. fold n in Rpb.
  set (p := P (n - 2)) in *. assert (Pp : 0 < p) by apply P_pos.
  assert (Pn : P n = base * (base * p)).
  { unfold p. rewrite <- !P_S. f_equal. lia. }
  assert (Vb : value pb = value pl + p * (v2 + base * v1)).
  { rewrite Epb at 1. rewrite value_app, Lpl. cbn [value]. unfold p. ring. }
  assert (Vw : value win = value wl + p * (u3 + base * (u2 + base * (u1 + base * value rest)))).
  { rewrite Ewin at 1. rewrite value_app, Lwl. cbn [value app]. unfold p. ring. }
  rewrite make_dword_ok by assumption. set (U2 := u2 + base * u1) in *.
  assert (N1 : 0 <= p * u1) by (apply Z.mul_nonneg_nonneg; lia).
  assert (N2 : 0 <= p * u2) by (apply Z.mul_nonneg_nonneg; lia).
  assert (N3 : 0 <= p * u3) by (apply Z.mul_nonneg_nonneg; lia).
  assert (Rest0 : value rest = 0).
  { destruct (Z.eq_dec (value rest) 0) as [Z0|Z0]; [exact Z0|exfalso].
    assert (p * 1 <= p * value rest) by (apply Z.mul_le_mono_nonneg_l; lia). lia. } rewrite Rest0 in Vw.
  assert (Vw' : value win = value wl + p * (u3 + base * U2)) by (rewrite Vw; unfold U2; ring).
  clear Vw. set (b := value pb) in *. set (W := value win) in *.
  assert (Bpos : base * p <= b).
  { assert (p * 1 <= p * v1) by (apply Z.mul_le_mono_nonneg_l; lia).
    assert (0 <= p * v2) by (apply Z.mul_nonneg_nonneg; lia). lia. }
  assert (HU : U2 <= v1 * base + v2).
  { assert (p * U2 < p * (v1 * base + v2 + 1)) by lia.
    assert (U2 < v1 * base + v2 + 1) by (apply (Z.mul_lt_mono_pos_l p); assumption). lia. }
  set (qt := W / b).
  assert (W0 : 0 <= W) by (subst W; apply value_range; exact Dw).
  assert (QT : 0 <= qt < base).
  { unfold qt. split; [apply Z.div_pos; lia|]. apply Z.div_lt_upper_bound; lia. }
  assert (QD : W = b * qt + W mod b) by (apply Z.div_mod; lia).
  pose proof (Z.mod_pos_bound W b ltac:(lia)) as RM. set (r := W mod b) in *.
  assert (HQ : forall Q, Q * (v1 * base + v2) > U2 * base + u3 -> qt < Q).
  { intros Q H. assert (W < Q * b).
    { assert (0 <= Q).
      { destruct (Z.leb_spec 0 Q) as [G|G]; [exact G|exfalso].
        assert (Q * (v1 * base + v2) <= 0) by (apply Z.mul_nonpos_nonneg; lia). unfold U2 in H. lia. }
      assert (Y1 : (U2 * base + u3 + 1) * p <= Q * (v1 * base + v2) * p) by (apply Z.mul_le_mono_nonneg_r; lia).
      assert (Y2 : W < (U2 * base + u3 + 1) * p).
      { rewrite Vw'. replace ((U2 * base + u3 + 1) * p) with (p * (u3 + base * U2) + p) by ring. lia. }
      assert (Y3 : Q * (v1 * base + v2) * p <= Q * b).
      { rewrite Vb. replace (Q * (value pl + p * (v2 + base * v1))) with (Q * value pl + Q * (v1 * base + v2) * p) by ring.
        assert (0 <= Q * value pl) by (apply Z.mul_nonneg_nonneg; lia). lia. }
      lia. }
    unfold qt. apply Z.div_lt_upper_bound; [lia|]. rewrite Z.mul_comm. assumption. }
  assert (UN : 0 <= U2) by (unfold U2; lia).
  clear N1 N2 N3.
  pose proof (Z.div_mod U2 v1 ltac:(lia)) as UD. pose proof (Z.mod_pos_bound U2 v1 ltac:(lia)) as UM.
  destruct (adjust_ok v1 v2 u3 U2 qt ltac:(lia) R2 W3 QT HU HQ 2 (U2 / v1) (U2 mod v1)) as (Q & E & Q1 & Q2).
  - lia.
  - lia.
  - split.
    + apply Z.div_le_lower_bound; [lia|].
      apply (est_low p b W qt v1 v2 (value pl) U2 u3 (value wl)); try assumption; try apply Rpl; try apply R2; try apply QT; try apply Rwl; try apply W3.
      rewrite QD. clear -RM. lia.
    + assert (U2 / v1 < base + 2); [|lia]. apply Z.div_lt_upper_bound; [lia|]. lia.
  - change (Z.of_nat 2) with 2. lia.
  - rewrite E. unfold lo at 1. rewrite (Z.mod_small Q base) by lia.
    assert (Q3 : Q <= qt + 1).
    { apply (est_up p b W r qt Q v1 v2 (value pl) U2 u3 (value wl)); try assumption; try apply RM; try apply Rwl.
      split; [|apply Q1]. apply Z.le_trans with qt; [apply QT|apply Q1]. }
    assert (Ew2 : win = (wl ++ [u3; u2]) ++ u1 :: rest) by (rewrite Ewin at 1; rewrite <- app_assoc; reflexivity).
    assert (Lw2 : length (wl ++ [u3; u2]) = length pb) by (rewrite app_length, Lwl; cbn [length]; fold n; lia).
    assert (Dw2 : digits_ok (wl ++ [u3; u2])).
    { apply digits_app. split; [exact Dwl|]. apply digits_cons. split; [exact W3|]. apply digits_cons. split; [exact W2|constructor]. }
    destruct (mulSub_ok Q u1 rest ltac:(lia) W1 pb (wl ++ [u3; u2]) 0 Db Dw2 Lw2 ltac:(lia)) as (w' & s & M1 & M2 & M3 & M4).
    rewrite <- Ew2 in M1. rewrite M1. fold n in M2, M4. fold b in M4.
    assert (M5 : value w' + P n * s = W - Q * b).
    { rewrite M4, value_app, Lwl. cbn [value]. rewrite Pn, Vw'. fold p. unfold U2. ring. }
    pose proof (value_range w' M3) as Rw. rewrite M2 in Rw. fold n in Rpb. fold b in Rpb.
    assert (Lres : length (w' ++ lo s :: rest) = length win).
    { rewrite Ewin. rewrite !app_length, M2, Lwl. cbn [length]. fold n. lia. }
    assert (Cases : Q = qt \/ Q = qt + 1) by lia.
    destruct Cases as [->| ->].
    + assert (S0 : value w' = r /\ s = 0).
      { apply (radix_unique (P n)); [exact Rw|clear - RM Rpb; lia|]. rewrite M5. clear - QD. lia. }
      destruct S0 as [Wr S0]. subst s. change (0 <? 0) with false. cbn iota.
      exists qt, (w' ++ lo 0 :: rest). refine (conj _ (conj Lres (conj _ (conj QT _)))).
      * unfold lo at 1. rewrite Z.mod_small by lia. reflexivity.
      * apply digits_app. split; [exact M3|]. apply digits_cons. split; [apply lo_range|exact Drest].
      * rewrite value_app, value_cons, Rest0, M2. change (lo 0) with 0.
        replace (value w' + P n * (0 + base * 0)) with (value w') by ring. split; [lia|]. lia.
    + assert (S0 : value w' = r - b + P n /\ s = -1).
      { apply (radix_unique (P n)); [exact Rw|clear - RM Rpb; lia|]. rewrite M5. clear - QD. lia. }
      destruct S0 as [Wr S0]. subst s. change (-1 <? 0) with true. cbn iota.
      assert (W4 : u128 (qt + 1 - 1) = qt) by (unfold u128; rewrite Z.mod_small; lia).
      rewrite W4. unfold addBack. fold n.
      rewrite <- M2. rewrite firstn_app_exact, skipn_app_exact.
      change (u64 (lo (-1) + 1)) with 0.
      unfold Add_h. pose proof (addLoop_ok w' pb 0 M3 Db ltac:(fold n; exact M2) ltac:(lia)) as AD.
      destruct (addLoop w' pb 0) as [a c] eqn:EA. destruct AD as (A1 & A2 & A3 & A4). cbn [fst].
      rewrite M2 in A1, A4. fold b in A4. pose proof (value_range a A2) as Ra. rewrite A1 in Ra.
      assert (VA : value a = r).
      { refine (proj1 (radix_unique (P n) _ c _ 1 Ra _ _)); [clear - RM Rpb; lia|]. clear - A4 Wr. lia. }
      exists qt, (a ++ 0 :: rest). refine (conj _ (conj _ (conj _ (conj QT _)))).
      * unfold lo. rewrite Z.mod_small by lia. reflexivity.
      * rewrite <- Lres, !app_length, A1, M2. reflexivity.
      * apply digits_app. split; [exact A2|]. apply digits_cons. split; [lia|exact Drest].
      * rewrite value_app, value_cons, Rest0, VA. split; [lia|]. lia.
Qed.

(** The loop. *)
Lemma divLoop_ok pb : (2 <= length pb)%nat -> digits_ok pb -> base / 2 <= nth (length pb - 1) pb 0 ->
  forall n pa Q, digits_ok pa -> length pa = (n + length pb)%nat \/ (n + length pb <= length pa)%nat ->
  value (skipn n pa) < value pb -> digits_ok Q -> (forall i, (i < n)%nat -> nth i Q 0 = 0) ->
  exists pa' Q' qv, divLoop n pb pa Q = Some (pa', Q') /\ length pa' = length pa /\ digits_ok pa' /\
    length Q' = length Q /\ digits_ok Q' /\
    0 <= qv < P n /\ value pa = qv * value pb + value pa' /\ value pa' < value pb /\
    value Q' = value Q + qv mod P (length Q).
Proof.
  intros N Db V1. induction n as [|j IH]; intros pa Q Da La HV DQ Z0.
  - exists pa, Q, 0. cbn [divLoop skipn] in *. rewrite P_0. repeat split; try assumption; try lia.
    rewrite Z.mod_0_l by (pose proof (P_pos (length Q)); lia). lia.
  - cbn [divLoop].
    assert (Lj : (j < length pa)%nat) by lia.
    assert (Sk : skipn j pa = nth j pa 0 :: skipn (S j) pa).
    { clear - Lj. revert j Lj. induction pa as [|a pa IH]; intros [|j] H; cbn [length] in H; try lia; [reflexivity|].
      cbn [skipn nth]. rewrite IH by lia. reflexivity. }
    pose proof (digits_skipn j pa Da) as Ds. pose proof (nth_digit j pa Da) as Nd.
    destruct (divStep_ok pb (skipn j pa) N Db V1 Ds) as (q & win & E & Lw & Dw & Q1 & Q2 & Q3).
    { rewrite skipn_length. lia. }
    { rewrite Sk, value_cons. pose proof (value_range _ (digits_skipn (S j) pa Da)). lia. }
    rewrite E.
    set (pa1 := firstn j pa ++ win). set (Qn := if Nat.ltb j (length Q) then upd j q Q else Q).
    assert (Fj : length (firstn j pa) = j) by (apply firstn_length_le; lia).
    assert (D1 : digits_ok pa1) by (apply digits_app; split; [apply digits_firstn; exact Da|exact Dw]).
    assert (L1 : length pa1 = length pa) by (unfold pa1; rewrite app_length, Fj, Lw, skipn_length; lia).
    assert (S1 : skipn j pa1 = win) by (unfold pa1; rewrite skipn_app, skipn_all2 by lia; rewrite Fj, Nat.sub_diag; reflexivity).
    assert (LQ : length Qn = length Q) by (unfold Qn; destruct (Nat.ltb j (length Q)); [apply upd_length|reflexivity]).
    assert (DQn : digits_ok Qn).
    { unfold Qn. destruct (Nat.ltb j (length Q)); [|exact DQ]. apply Forall_upd; assumption. }
    destruct (IH pa1 Qn D1 ltac:(right; lia) ltac:(rewrite S1; exact Q3) DQn) as (pa' & Q' & qv & I1 & I2 & I3 & I4 & I5 & I6 & I7 & I8 & I9).
    { intros i Hi. unfold Qn. destruct (Nat.ltb j (length Q)); [|apply Z0; lia].
      rewrite nth_upd_other by lia. apply Z0. lia. }
    exists pa', Q', (q * P j + qv). rewrite I1.
    refine (conj eq_refl (conj _ (conj I3 (conj _ (conj I5 (conj _ (conj _ (conj I8 _)))))))).
    + congruence.
    + congruence.
    + rewrite P_S. pose proof (P_pos j). nia.
    + rewrite (value_skipn j pa), Fj, Q2.
      unfold pa1 in I7. rewrite value_app, Fj in I7.
      replace (value (firstn j pa) + P j * (q * value pb + value win)) with
        ((value (firstn j pa) + P j * value win) + q * P j * value pb) by ring.
      rewrite I7. ring.
    + rewrite I9, LQ. unfold Qn. destruct (Nat.ltb j (length Q)) eqn:LT.
      * apply Nat.ltb_lt in LT. rewrite value_upd by exact LT. rewrite Z0 by lia.
        pose proof (P_le (S j) (length Q) ltac:(lia)) as PL. rewrite P_S in PL. pose proof (P_pos j) as PJ.
        rewrite !Z.mod_small by nia. ring.
      * apply Nat.ltb_ge in LT. f_equal. replace j with (length Q + (j - length Q))%nat by lia.
        rewrite P_add. replace (q * (P (length Q) * P (j - length Q)) + qv) with
          (qv + (q * P (j - length Q)) * P (length Q)) by ring.
        rewrite Z_mod_plus_full. reflexivity.
Qed.
