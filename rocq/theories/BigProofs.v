(** Proofs about big numbers: values, multiplication, comparison, addition. *)
From Verif Require Import Base BaseLemmas ShaProofs BigModel BigSpec.

Definition P (n : nat) : Z := base ^ Z.of_nat n.

Lemma P_0 : P 0 = 1. Proof. reflexivity. Qed.
Lemma P_S n : P (S n) = base * P n.
Proof. unfold P. rewrite Nat2Z.inj_succ, Z.pow_succ_r by lia. reflexivity. Qed.
Lemma P_pos n : 0 < P n.
Proof. unfold P. apply Z.pow_pos_nonneg; lia. Qed.
Lemma P_add a b : P (a + b) = P a * P b.
Proof. unfold P. rewrite Nat2Z.inj_add, Z.pow_add_r by lia. reflexivity. Qed.
Lemma P_le a b : (a <= b)%nat -> P a <= P b.
Proof. intros H. unfold P. apply Z.pow_le_mono_r; lia. Qed.

#[global] Opaque P.

Lemma digits_cons d l : digits_ok (d :: l) <-> (0 <= d < base) /\ digits_ok l.
Proof.
  unfold digits_ok. split.
  - intros H. inversion H; subst. auto.
  - intros (A & B). constructor; assumption.
Qed.

Lemma digits_app a b : digits_ok (a ++ b) <-> digits_ok a /\ digits_ok b.
Proof. unfold digits_ok. apply Forall_app. Qed.

Lemma digits_repeat n : digits_ok (repeat 0 n).
Proof. unfold digits_ok. apply Forall_forall. intros x H. apply repeat_spec in H. lia. Qed.

Lemma digits_firstn n l : digits_ok l -> digits_ok (firstn n l).
Proof. intros H. rewrite <- (firstn_skipn n l) in H. apply digits_app in H. apply H. Qed.
Lemma digits_skipn n l : digits_ok l -> digits_ok (skipn n l).
Proof. intros H. rewrite <- (firstn_skipn n l) in H. apply digits_app in H. apply H. Qed.

Lemma value_cons d l : value (d :: l) = d + base * value l.
Proof. reflexivity. Qed.

Lemma value_app a b : value (a ++ b) = value a + P (length a) * value b.
Proof.
  induction a as [|x a IH].
  - cbn [app value length]. rewrite P_0. lia.
  - change (value ((x :: a) ++ b)) with (x + base * value (a ++ b)).
    cbn [length]. rewrite IH, P_S, value_cons. ring.
Qed.

Lemma value_range l : digits_ok l -> 0 <= value l < P (length l).
Proof.
  induction l as [|d l IH]; intros H.
  - cbn [value length]. rewrite P_0. lia.
  - apply digits_cons in H. destruct H as (A & B). specialize (IH B).
    cbn [length]. rewrite P_S, value_cons. lia.
Qed.

Lemma value_repeat n : value (repeat 0 n) = 0.
Proof. induction n as [|n IH]; [reflexivity|]. cbn [repeat]. rewrite value_cons, IH. reflexivity. Qed.

Lemma value_zero l : digits_ok l -> value l = 0 -> l = repeat 0 (length l).
Proof.
  induction l as [|d l IH]; intros H E; [reflexivity|].
  apply digits_cons in H. destruct H as (A & B). rewrite value_cons in E.
  pose proof (value_range l B). cbn [length repeat].
  assert (value l = 0) by lia. assert (d = 0) by lia. subst d. f_equal. apply IH; assumption.
Qed.

Lemma value_inj a : forall b, digits_ok a -> digits_ok b -> length a = length b -> value a = value b -> a = b.
Proof.
  induction a as [|x a IH]; intros [|y b] A B L E; try discriminate; [reflexivity|].
  apply digits_cons in A. apply digits_cons in B. destruct A as (A1 & A2). destruct B as (B1 & B2).
  rewrite !value_cons in E. assert (x = y) by lia. assert (value a = value b) by lia.
  subst y. f_equal. apply IH; auto.
Qed.

Lemma value_pad n l : value (pad n l) = value l.
Proof. unfold pad. rewrite value_app, value_repeat. ring. Qed.
Lemma pad_length n l : (length l <= n)%nat -> length (pad n l) = n.
Proof. intros H. unfold pad. rewrite app_length, repeat_length. lia. Qed.
Lemma digits_pad n l : digits_ok l -> digits_ok (pad n l).
Proof. intros H. unfold pad. apply digits_app. split; [exact H|apply digits_repeat]. Qed.

Lemma value_skipn n l : value l = value (firstn n l) + P (length (firstn n l)) * value (skipn n l).
Proof. rewrite <- value_app, firstn_skipn. reflexivity. Qed.

Lemma value_firstn n l : digits_ok l -> (n <= length l)%nat -> value (firstn n l) = value l mod P n.
Proof.
  intros H L. rewrite (value_skipn n l), firstn_length_le by exact L.
  pose proof (value_range (firstn n l) (digits_firstn n l H)) as R. rewrite firstn_length_le in R by exact L.
  rewrite (Z.mul_comm (P n)), Z_mod_plus_full. symmetry. apply Z.mod_small. exact R.
Qed.

Lemma value_nth j l : digits_ok l -> value (upd j 0 l) = value l - P j * nth j l 0.
Proof.
  revert j. induction l as [|d l IH]; intros [|j] H; cbn [upd nth].
  - rewrite P_0. reflexivity.
  - cbn. ring.
  - rewrite !value_cons, P_0. ring.
  - apply digits_cons in H. destruct H as (_ & H). rewrite !value_cons, IH, P_S by exact H. ring.
Qed.

Lemma value_upd j x l : (j < length l)%nat -> value (upd j x l) = value l + P j * (x - nth j l 0).
Proof.
  revert j. induction l as [|d l IH]; intros [|j] H; cbn [upd nth length] in *; [lia..| |].
  - rewrite !value_cons, P_0. ring.
  - rewrite !value_cons, IH, P_S by lia. ring.
Qed.

Lemma lo_range v : 0 <= lo v < base.
Proof. unfold lo. lia. Qed.

Lemma shiftr64 v : Z.shiftr v 64 = v / base.
Proof. rewrite Z.shiftr_div_pow2 by lia. reflexivity. Qed.

Lemma trim_ok l : digits_ok l ->
  value (trim l) = value l /\ digits_ok (trim l) /\ (length (trim l) <= length l)%nat /\
  (trim l <> [] -> nth (length (trim l) - 1) (trim l) 0 <> 0).
Proof.
  induction l as [|d l IH]; intros H; [repeat split; auto; intros X; contradiction|].
  apply digits_cons in H. destruct H as (A & B). destruct (IH B) as (I1 & I2 & I3 & I4). cbn [trim].
  destruct (trim l) as [|t ts] eqn:T.
  - rewrite (value_cons d l), <- I1. destruct (d =? 0) eqn:E.
    + apply Z.eqb_eq in E. subst. refine (conj eq_refl (conj (Forall_nil _) (conj _ _))); [cbn; lia|]. intros X; contradiction.
    + apply Z.eqb_neq in E. refine (conj eq_refl (conj _ (conj _ _))).
      * apply digits_cons. auto.
      * cbn in *. lia.
      * intros _. exact E.
  - rewrite (value_cons d l), <- I1. refine (conj eq_refl (conj _ (conj _ _))).
    + apply digits_cons. auto.
    + cbn [length] in *. lia.
    + intros _. specialize (I4 ltac:(discriminate)). cbn [length] in *.
      replace (S (S (length ts)) - 1)%nat with (S (S (length ts) - 1)) by lia. exact I4.
Qed.

(** Multiplication. *)
Lemma prod_range x y : 0 <= x < base -> 0 <= y < base -> 0 <= x * y <= (base - 1) * (base - 1).
Proof. intros A B. nia. Qed.

Lemma mulRow_ok x zs b : forall p c, 0 <= x < base -> 0 <= c < base -> digits_ok b -> digits_ok p ->
  length p = length b -> exists q, mulRow x b (p ++ 0 :: zs) c = q ++ zs /\
    length q = S (length b) /\ digits_ok q /\ value q = value p + x * value b + c.
Proof.
  induction b as [|y b IH]; intros [|d p] c X C Bd Pd L; try discriminate.
  - exists [lo c]. cbn [mulRow app]. refine (conj eq_refl (conj eq_refl (conj _ _))).
    + apply digits_cons. split; [apply lo_range|constructor].
    + cbn [value]. unfold lo. lia.
  - apply digits_cons in Bd. apply digits_cons in Pd. destruct Bd as (B1 & B2). destruct Pd as (P1 & P2).
    pose proof (prod_range x y X B1) as R. cbn [mulRow app].
    assert (E1 : u128 (c + x * y) = c + x * y) by (unfold u128; apply Z.mod_small; lia).
    assert (E2 : u128 (c + x * y + d) = c + x * y + d) by (unfold u128; apply Z.mod_small; lia).
    rewrite E1, E2, shiftr64. set (v := c + x * y + d) in *.
    destruct (IH p (v / base)) as (q & Q1 & Q2 & Q3 & Q4); auto; [subst v; lia|].
    exists (lo v :: q). rewrite Q1. refine (conj eq_refl (conj _ (conj _ _))).
    + cbn [length]. lia.
    + apply digits_cons. split; [apply lo_range|exact Q3].
    + rewrite !value_cons, Q4. unfold lo. rewrite (Z.mod_eq v base) by lia. subst v. ring.
Qed.

Lemma mulLoop_ok b : forall a p n, digits_ok a -> digits_ok b -> digits_ok p -> length p = length b ->
  (length a <= n)%nat ->
  let r := mulLoop a b (p ++ repeat 0 n) in
  length r = (length b + n)%nat /\ digits_ok r /\ value r = value p + value a * value b.
Proof.
  induction a as [|x a IH]; intros p n A Bd Pd L N; cbn [mulLoop].
  - cbv zeta. rewrite app_length, repeat_length, value_app, value_repeat. refine (conj _ (conj _ _)); [lia| |cbn [value]; ring].
    apply digits_app. split; [exact Pd|apply digits_repeat].
  - apply digits_cons in A. destruct A as (A1 & A2). cbn [length] in N.
    destruct n as [|n]; [lia|]. cbn [repeat].
    destruct (mulRow_ok x (repeat 0 n) b p 0 A1 ltac:(lia) Bd Pd L) as (q & Q1 & Q2 & Q3 & Q4).
    rewrite Q1. destruct q as [|d0 q]; [discriminate|]. cbn [app]. cbv zeta.
    apply digits_cons in Q3. destruct Q3 as (D0 & Q3). cbn [length] in Q2.
    destruct (IH q n A2 Bd Q3 ltac:(lia) ltac:(lia)) as (R1 & R2 & R3).
    refine (conj _ (conj _ _)).
    + cbn [length]. rewrite R1. lia.
    + apply digits_cons. auto.
    + rewrite !value_cons, R3. rewrite value_cons in Q4.
      replace (d0 + base * (value q + value a * value b)) with
        ((d0 + base * value q) + base * (value a * value b)) by ring. rewrite Q4. ring.
Qed.

Lemma Mul_h_ok a b : digits_ok a -> digits_ok b ->
  let r := Mul_h a b (repeat 0 (length a + length b)) in
  length r = (length a + length b)%nat /\ digits_ok r /\ value r = value a * value b.
Proof.
  intros A Bd. unfold Mul_h.
  destruct (trim_ok a A) as (A1 & A2 & A3 & _). destruct (trim_ok b Bd) as (B1 & B2 & B3 & _).
  replace (length a + length b)%nat with (length (trim b) + (length a + length b - length (trim b)))%nat by lia.
  rewrite repeat_app.
  destruct (mulLoop_ok (trim b) (trim a) (repeat 0 (length (trim b))) (length a + length b - length (trim b))%nat)
    as (R1 & R2 & R3); auto; [apply digits_repeat|apply repeat_length|lia|].
  cbv zeta in *. refine (conj _ (conj R2 _)); [rewrite R1; lia|].
  rewrite R3, value_repeat, A1, B1. ring.
Qed.

(** Squares. *)
Fixpoint cross (a : list Z) : Z :=
  match a with [] => 0 | x :: a' => x * value a' + base * base * cross a' end.
Fixpoint squares (a : list Z) : Z :=
  match a with [] => 0 | x :: a' => x * x + base * base * squares a' end.

Lemma square_split a : value a * value a = squares a + 2 * base * cross a.
Proof.
  induction a as [|x a IH]; [reflexivity|]. rewrite value_cons. cbn [squares cross].
  replace ((x + base * value a) * (x + base * value a)) with
    (x * x + 2 * base * x * value a + base * base * (value a * value a)) by ring.
  rewrite IH. ring.
Qed.

Lemma cross_nonneg a : digits_ok a -> 0 <= cross a.
Proof.
  induction a as [|x a IH]; intros H; [cbn; lia|]. apply digits_cons in H. destruct H as (A & B).
  pose proof (value_range a B). specialize (IH B). cbn [cross]. nia.
Qed.
Lemma squares_nonneg a : 0 <= squares a.
Proof. induction a as [|x a IH]; [cbn; lia|]. cbn [squares]. nia. Qed.

Lemma sqCross_ok : forall a p n, digits_ok a -> digits_ok p -> length p = (length a - 1)%nat ->
  (length a <= n)%nat -> a <> [] ->
  let r := sqCross a (p ++ repeat 0 n) in
  length r = (length p + n)%nat /\ digits_ok r /\ value r = value p + cross a.
Proof.
  induction a as [|x a IH]; intros p n A Pd L N Ne; [contradiction|]. clear Ne.
  apply digits_cons in A. destruct A as (A1 & A2). cbn [length] in *.
  destruct n as [|n]; [lia|]. cbn [sqCross repeat].
  destruct (mulRow_ok x (repeat 0 n) a p 0 A1 ltac:(lia) A2 Pd ltac:(lia)) as (q & Q1 & Q2 & Q3 & Q4).
  rewrite Q1. destruct q as [|d0 q]; [discriminate|]. cbn [length] in Q2.
  apply digits_cons in Q3. destruct Q3 as (D0 & Q3). rewrite value_cons in Q4.
  destruct a as [|y a].
  - destruct q; [|discriminate]. destruct p; [|discriminate]. cbn [app cross value] in *.
    destruct n as [|n]; cbn [repeat sqCross]; cbv zeta.
    + refine (conj eq_refl (conj _ _)); [apply digits_cons; split; [lia|constructor]|]. cbn [value]. lia.
    + refine (conj _ (conj _ _)).
      * cbn [length]. rewrite repeat_length. reflexivity.
      * apply digits_cons. split; [lia|]. apply digits_cons. split; [lia|]. apply digits_repeat.
      * rewrite !value_cons, value_repeat. lia.
  - destruct q as [|d1 q]; [discriminate|]. cbn [length] in Q2. cbn [app].
    apply digits_cons in Q3. destruct Q3 as (D1 & Q3). rewrite value_cons in Q4.
    destruct (IH q n A2 Q3) as (R1 & R2 & R3); [cbn [length]; lia|cbn [length] in *; lia|discriminate|].
    cbv zeta in *. refine (conj _ (conj _ _)).
    + cbn [length] in *. rewrite R1. lia.
    + apply digits_cons. split; [exact D0|]. apply digits_cons. split; [exact D1|exact R2].
    + rewrite !value_cons, R3.
      change (cross (x :: y :: a)) with (x * value (y :: a) + base * base * cross (y :: a)).
      replace (d0 + base * (d1 + base * (value q + cross (y :: a)))) with
        ((d0 + base * (d1 + base * value q)) + base * base * cross (y :: a)) by ring.
      rewrite Q4. ring.
Qed.

Lemma lor_bit c v : 0 <= c <= 1 -> Z.lor c (2 * v) = c + 2 * v.
Proof.
  intros H. rewrite Z.lor_comm, (lor_add (2 * v) c 1); [lia|lia|change (2 ^ 1) with 2; lia|].
  exists v. change (2 ^ 1) with 2. lia.
Qed.

Lemma sqDouble_ok n : forall dst c, digits_ok dst -> 0 <= c <= 1 -> (n <= length dst)%nat ->
  let r := sqDouble n dst c in
  length r = length dst /\ digits_ok r /\
  exists c', 0 <= c' <= 1 /\ value (firstn n r) + P n * c' = 2 * value (firstn n dst) + c /\
    skipn n r = skipn n dst.
Proof.
  induction n as [|n IH]; intros dst c D C N.
  - destruct dst; cbn [sqDouble]; cbv zeta; refine (conj eq_refl (conj D _)); exists c; rewrite P_0; cbn [firstn value skipn];
      (split; [exact C|split; [lia|reflexivity]]).
  - destruct dst as [|d dst]; [cbn in N; lia|]. cbn [sqDouble length] in *.
    apply digits_cons in D. destruct D as (D1 & D2).
    assert (E : Z.lor c (u128 (Z.shiftl d 1)) = c + 2 * d).
    { rewrite Z.shiftl_mul_pow2 by lia. change (2 ^ 1) with 2. unfold u128. rewrite Z.mod_small by lia.
      rewrite (Z.mul_comm d). apply lor_bit. exact C. }
    rewrite E, shiftr64. set (v := c + 2 * d) in *.
    destruct (IH dst (v / base) D2 ltac:(subst v; lia) ltac:(lia)) as (R1 & R2 & (c' & R3 & R4 & R5)).
    cbv zeta in *. refine (conj _ (conj _ _)).
    + cbn [length]. lia.
    + apply digits_cons. split; [apply lo_range|exact R2].
    + exists c'. split; [exact R3|]. cbn [firstn skipn]. split; [|exact R5].
      rewrite !value_cons, P_S. unfold lo. rewrite (Z.mod_eq v base) by lia.
      replace (v - base * (v / base) + base * value (firstn n (sqDouble n dst (v / base))) + base * P n * c')
        with (v - base * (v / base) + base * (value (firstn n (sqDouble n dst (v / base))) + P n * c')) by ring.
      rewrite R4. subst v. ring.
Qed.

Lemma sqAdd_ok : forall a dst c, digits_ok a -> digits_ok dst -> 0 <= c <= 1 -> (2 * length a <= length dst)%nat ->
  let r := sqAdd a dst c in
  length r = length dst /\ digits_ok r /\
  exists c', 0 <= c' <= 1 /\ value r + P (2 * length a) * c' = value dst + squares a + c.
Proof.
  induction a as [|x a IH]; intros dst c A D C N.
  - cbn [sqAdd length squares] in *. cbv zeta. refine (conj eq_refl (conj D _)). exists c.
    change (2 * 0)%nat with 0%nat; rewrite P_0. split; [exact C|lia].
  - cbn [length] in N. destruct dst as [|e [|o rest]]; [cbn in N; lia..|]. cbn [sqAdd length] in *.
    apply digits_cons in A. destruct A as (A1 & A2).
    apply digits_cons in D. destruct D as (D1 & D). apply digits_cons in D. destruct D as (D2 & D3).
    pose proof (prod_range x x A1 A1) as R.
    assert (E1 : u128 (c + x * x) = c + x * x) by (unfold u128; apply Z.mod_small; lia).
    rewrite E1. assert (E2 : u128 (c + x * x + e) = c + x * x + e) by (unfold u128; apply Z.mod_small; lia).
    rewrite E2, !shiftr64. set (v := c + x * x + e) in *.
    assert (V : 0 <= v / base < base) by (subst v; lia).
    assert (E3 : u128 (v / base + o) = v / base + o) by (unfold u128; apply Z.mod_small; lia).
    rewrite E3. set (w := v / base + o) in *.
    destruct (IH rest (w / base) A2 D3) as (R1 & R2 & (c' & R3 & R4)); [subst w; lia|lia|].
    cbv zeta in *. refine (conj _ (conj _ _)).
    + cbn [length]. lia.
    + apply digits_cons. split; [apply lo_range|]. apply digits_cons. split; [apply lo_range|exact R2].
    + exists c'. split; [exact R3|]. rewrite !value_cons. cbn [squares].
      replace (2 * S (length a))%nat with (S (S (2 * length a))) by lia. rewrite !P_S.
      set (z := value (sqAdd a rest (w / base))) in *.
      replace (lo v + base * (lo w + base * z) + base * (base * P (2 * length a)) * c') with
        (lo v + base * lo w + base * base * (z + P (2 * length a) * c')) by ring.
      rewrite R4. unfold lo. rewrite (Z.mod_eq v base), (Z.mod_eq w base) by lia. subst w v. ring.
Qed.

Lemma Square_h_ok a : digits_ok a ->
  let r := Square_h a (repeat 0 (length a + length a)) in
  length r = (length a + length a)%nat /\ digits_ok r /\ value r = value a * value a.
Proof.
  intros A. unfold Square_h. destruct (trim_ok a A) as (A1 & A2 & A3 & _).
  destruct a as [|z0 zs]; [cbn; repeat split; constructor|].
  remember (z0 :: zs) as a eqn:Ea. assert (La : (1 <= length a)%nat) by (subst a; cbn; lia). clear Ea z0 zs.
  destruct (length a + length a)%nat as [|m] eqn:M; [lia|]. cbn [repeat].
  set (t := trim a) in *.
  assert (Hc : exists s, sqCross t (repeat 0 m) = s /\ length s = m /\ digits_ok s /\ value s = cross t).
  { destruct t as [|y t'] eqn:T; [exists (repeat 0 m); cbn [sqCross cross]; rewrite repeat_length, value_repeat;
      repeat split; apply digits_repeat|].
    destruct (sqCross_ok (y :: t') (repeat 0 (length t')) (m - length t')) as (R1 & R2 & R3);
      [exact A2|apply digits_repeat|rewrite repeat_length; cbn; lia|cbn [length] in *; lia|discriminate|].
    cbv zeta in *. rewrite <- repeat_app in *. cbn [length] in A3.
    replace (length t' + (m - length t'))%nat with m in * by lia.
    eexists. split; [reflexivity|]. rewrite R3, value_repeat. refine (conj _ (conj R2 _)); [|lia].
    rewrite R1, repeat_length. lia. }
  destruct Hc as (s & S1 & S2 & S3 & S4). rewrite S1.
  assert (Lt : (2 * length t - 1 <= length s)%nat) by lia.
  destruct (sqDouble_ok (2 * length t - 1) s 0 S3 ltac:(lia) Lt) as (D1 & D2 & (c & C1 & C2 & C3)).
  cbv zeta in *. set (dd := sqDouble (2 * length t - 1) s 0) in *.
  (* the value after the doubling *)
  pose proof (square_split t) as SQ. pose proof (squares_nonneg t) as SN. pose proof (cross_nonneg t A2) as CN.
  pose proof (value_range t A2) as VR.
  assert (Bound : value t * value t < P (2 * length t)).
  { replace (2 * length t)%nat with (length t + length t)%nat by lia. rewrite P_add. nia. }
  assert (Dv : length t = 0%nat /\ value t = 0 \/ (1 <= length t)%nat).
  { destruct t; [left; split; reflexivity|right; cbn; lia]. }
  assert (Val : value dd = 2 * cross t).
  { destruct Dv as [(Dv1 & Dv2)|Dv].
    - unfold dd. rewrite Dv1. replace (sqDouble (2 * 0 - 1) s 0) with s by (destruct s; reflexivity).
      destruct t; [|discriminate]. rewrite S4. reflexivity.
    - assert (HP : P (2 * length t) = base * P (2 * length t - 1)).
      { rewrite <- P_S. f_equal. lia. }
      pose proof (P_pos (2 * length t - 1)) as PP.
      assert (V2 : 2 * cross t < P (2 * length t - 1)) by nia.
      assert (F : value s = value (firstn (2 * length t - 1) s) + P (2 * length t - 1) * value (skipn (2 * length t - 1) s)).
      { rewrite (value_skipn (2 * length t - 1) s) at 1. rewrite firstn_length_le by lia. reflexivity. }
      pose proof (value_range _ (digits_skipn (2 * length t - 1) s S3)) as R1.
      pose proof (value_range _ (digits_firstn (2 * length t - 1) s S3)) as R2.
      pose proof (value_range _ (digits_firstn (2 * length t - 1) dd D2)) as R3.
      rewrite (value_skipn (2 * length t - 1) dd). rewrite C3, firstn_length_le by lia.
      assert (value (skipn (2 * length t - 1) s) = 0) by nia.
      assert (c = 0) by nia. subst c. lia. }
  destruct (sqAdd_ok t (0 :: dd) 0 A2) as (E1 & E2 & (c' & E3 & E4)); [apply digits_cons; split; [lia|exact D2]|lia|cbn [length]; lia|].
  cbv zeta in *. refine (conj _ (conj E2 _)).
  - rewrite E1. cbn [length]. lia.
  - rewrite value_cons, Val in E4.
    pose proof (value_range _ E2) as R. pose proof (P_pos (2 * length t)) as PP.
    assert (c' = 0) by nia. subst c'. rewrite <- A1. lia.
Qed.

Lemma dbi_mul_ok a b : digits_ok a -> digits_ok b ->
  length (dbi_mul a b) = (length a + length b)%nat /\ digits_ok (dbi_mul a b) /\
  value (dbi_mul a b) = value a * value b.
Proof.
  intros A Bd. unfold dbi_mul. destruct (list_eqb a b) eqn:E.
  - apply list_eqb_spec in E. subst b. apply Square_h_ok. exact A.
  - apply Mul_h_ok; assumption.
Qed.

(** Comparison. *)
Definition sgn (a b : Z) : Z := if a <? b then -1 else if b <? a then 1 else 0.

Lemma value_snoc n l : value (firstn (S n) l) = value (firstn n l) + P n * nth n l 0.
Proof.
  revert l. induction n as [|n IH]; intros [|d l].
  - cbn. rewrite P_0. reflexivity.
  - cbn [firstn nth]. rewrite P_0, value_cons. cbn [value]. lia.
  - cbn. ring.
  - change (firstn (S (S n)) (d :: l)) with (d :: firstn (S n) l). change (firstn (S n) (d :: l)) with (d :: firstn n l).
    cbn [nth]. rewrite !value_cons, IH, P_S. ring.
Qed.

Lemma nth_digit n l : digits_ok l -> 0 <= nth n l 0 < base.
Proof.
  intros H. destruct (Nat.lt_ge_cases n (length l)) as [L|L].
  - unfold digits_ok in H. rewrite Forall_forall in H. apply H. apply nth_In. exact L.
  - rewrite nth_overflow by exact L. lia.
Qed.

Lemma firstn_range n l : digits_ok l -> 0 <= value (firstn n l) < P n.
Proof.
  intros H. pose proof (value_range _ (digits_firstn n l H)) as R.
  pose proof (P_le (length (firstn n l)) n ltac:(rewrite firstn_length; lia)). lia.
Qed.

Lemma cmpLoop_ok n a b : digits_ok a -> digits_ok b ->
  cmpLoop n a b = sgn (value (firstn n a)) (value (firstn n b)).
Proof.
  intros A Bd. induction n as [|n IH]; [reflexivity|]. cbn [cmpLoop]. rewrite !value_snoc.
  pose proof (firstn_range n a A) as Ra. pose proof (firstn_range n b Bd) as Rb.
  pose proof (nth_digit n a A) as Na. pose proof (nth_digit n b Bd) as Nb. pose proof (P_pos n) as Pp.
  destruct (Nat.leb (length a) n) eqn:E1.
  - apply Nat.leb_le in E1. rewrite (nth_overflow a) in * by exact E1.
    destruct (nth n b 0 =? 0) eqn:E2; cbn [negb].
    + apply Z.eqb_eq in E2. rewrite E2, !Z.mul_0_r, !Z.add_0_r. exact IH.
    + apply Z.eqb_neq in E2. unfold sgn. replace (_ <? _) with true by (symmetry; apply Z.ltb_lt; nia). reflexivity.
  - destruct (Nat.leb (length b) n) eqn:E3.
    + apply Nat.leb_le in E3. rewrite (nth_overflow b) in * by exact E3.
      destruct (nth n a 0 =? 0) eqn:E2; cbn [negb].
      * apply Z.eqb_eq in E2. rewrite E2, !Z.mul_0_r, !Z.add_0_r. exact IH.
      * apply Z.eqb_neq in E2. unfold sgn. replace (_ <? _) with false by (symmetry; apply Z.ltb_ge; nia).
        replace (_ <? _) with true by (symmetry; apply Z.ltb_lt; nia). reflexivity.
    + destruct (nth n a 0 <? nth n b 0) eqn:E4.
      * unfold sgn. replace (_ <? _) with true by (symmetry; apply Z.ltb_lt; nia). reflexivity.
      * destruct (nth n b 0 <? nth n a 0) eqn:E5.
        -- unfold sgn. replace (_ <? _) with false by (symmetry; apply Z.ltb_ge; nia).
           replace (_ <? _) with true by (symmetry; apply Z.ltb_lt; nia). reflexivity.
        -- assert (nth n a 0 = nth n b 0) as -> by lia. rewrite IH. unfold sgn.
           replace (value (firstn n a) + P n * nth n b 0 <? value (firstn n b) + P n * nth n b 0)
             with (value (firstn n a) <? value (firstn n b)) by lia.
           replace (value (firstn n b) + P n * nth n b 0 <? value (firstn n a) + P n * nth n b 0)
             with (value (firstn n b) <? value (firstn n a)) by lia. reflexivity.
Qed.

Lemma Compare_ok a b : digits_ok a -> digits_ok b -> Compare a b = sgn (value a) (value b).
Proof.
  intros A Bd. unfold Compare. rewrite cmpLoop_ok by assumption. rewrite !firstn_all2 by lia. reflexivity.
Qed.

(** Addition and subtraction. *)
Lemma addLoop_ok a : forall b c, digits_ok a -> digits_ok b -> length a = length b -> 0 <= c <= 1 ->
  let '(r, c') := addLoop a b c in
  length r = length a /\ digits_ok r /\ 0 <= c' <= 1 /\ value r + P (length a) * c' = value a + value b + c.
Proof.
  induction a as [|x a IH]; intros [|y b] c A Bd L C; try discriminate; cbn [addLoop].
  - unfold lo. rewrite Z.mod_small by lia. refine (conj eq_refl (conj (Forall_nil _) (conj C _))).
    cbn [value length]. rewrite P_0. lia.
  - apply digits_cons in A. apply digits_cons in Bd. destruct A as (A1 & A2). destruct Bd as (B1 & B2).
    assert (E1 : u128 (c + x) = c + x) by (unfold u128; apply Z.mod_small; lia). rewrite E1.
    assert (E2 : u128 (c + x + y) = c + x + y) by (unfold u128; apply Z.mod_small; lia). rewrite E2, shiftr64.
    set (v := c + x + y) in *. cbn [length] in L.
    specialize (IH b (v / base) A2 B2 ltac:(lia) ltac:(subst v; lia)).
    destruct (addLoop a b (v / base)) as [r c']. destruct IH as (I1 & I2 & I3 & I4).
    refine (conj _ (conj _ (conj I3 _))).
    + cbn [length]. lia.
    + apply digits_cons. split; [apply lo_range|exact I2].
    + rewrite !value_cons. cbn [length]. rewrite P_S.
      replace (lo v + base * value r + base * P (length a) * c') with
        (lo v + base * (value r + P (length a) * c')) by ring.
      rewrite I4. unfold lo. rewrite (Z.mod_eq v base) by lia. subst v. ring.
Qed.

Lemma subLoop_ok a : forall b c, digits_ok a -> digits_ok b -> length a = length b -> -1 <= c <= 0 ->
  let '(r, c') := subLoop a b c in
  length r = length a /\ digits_ok r /\ 0 <= c' <= 1 /\ value r - P (length a) * c' = value a - value b + c.
Proof.
  induction a as [|x a IH]; intros [|y b] c A Bd L C; try discriminate; cbn [subLoop].
  - assert (c = 0 \/ c = -1) as [->| ->] by lia.
    + change (if lo 0 =? 0 then 0 else 1) with 0. refine (conj eq_refl (conj (Forall_nil _) _)). cbn [value length]. rewrite P_0. lia.
    + change (if lo (-1) =? 0 then 0 else 1) with 1. refine (conj eq_refl (conj (Forall_nil _) _)). cbn [value length]. rewrite P_0. lia.
  - apply digits_cons in A. apply digits_cons in Bd. destruct A as (A1 & A2). destruct Bd as (B1 & B2).
    rewrite shiftr64. set (v := c + x - y) in *. cbn [length] in L.
    specialize (IH b (v / base) A2 B2 ltac:(lia) ltac:(subst v; lia)).
    destruct (subLoop a b (v / base)) as [r c']. destruct IH as (I1 & I2 & I3 & I4).
    refine (conj _ (conj _ (conj I3 _))).
    + cbn [length]. lia.
    + apply digits_cons. split; [apply lo_range|exact I2].
    + rewrite !value_cons. cbn [length]. rewrite P_S.
      replace (lo v + base * value r - base * P (length a) * c') with
        (lo v + base * (value r - P (length a) * c')) by ring.
      rewrite I4. unfold lo. rewrite (Z.mod_eq v base) by lia. subst v. ring.
Qed.
