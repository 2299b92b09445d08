From Verif Require Import Base BaseLemmas NodeModel NodeSpec.

Lemma lxor_byte a b : is_byte a -> is_byte b -> is_byte (Z.lxor a b).
Proof.
  intros [A1 A2] [B1 B2]. split; [apply Z.lxor_nonneg; lia|].
  destruct (Z.eq_dec (Z.lxor a b) 0) as [->|N]; [lia|]. assert (P : 0 < Z.lxor a b) by (assert (0 <= Z.lxor a b) by (apply Z.lxor_nonneg; lia); lia).
  change 256 with (2 ^ 8). apply Z.log2_lt_pow2; [assumption|]. pose proof (Z.log2_lxor a b A1 B1).
  assert (Z.log2 a < 8) by (destruct (Z.eq_dec a 0) as [->|]; [reflexivity|]; apply Z.log2_lt_pow2; [lia|exact A2]).
  assert (Z.log2 b < 8) by (destruct (Z.eq_dec b 0) as [->|]; [reflexivity|]; apply Z.log2_lt_pow2; [lia|exact B2]). lia.
Qed.

Fixpoint xorl (a b : list Z) : list Z := match a, b with x :: a', y :: b' => Z.lxor x y :: xorl a' b' | _, _ => [] end.

Lemma xorl_length a : forall b, length a = length b -> length (xorl a b) = length a.
Proof. induction a as [|x a IH]; intros [|y b] H; try discriminate; [reflexivity|]. cbn [xorl length]. rewrite IH; [reflexivity|]. now injection H. Qed.

Lemma xorl_bytes a : forall b, bytes_ok a -> bytes_ok b -> bytes_ok (xorl a b).
Proof.
  induction a as [|x a IH]; intros [|y b] Ha Hb; try constructor; apply bytes_ok_cons in Ha, Hb; destruct Ha, Hb; [now apply lxor_byte|now apply IH].
Qed.

Lemma unbe_cons x l : unbe (x :: l) = x * 256 ^ zlen l + unbe l.
Proof. change (x :: l) with ([x] ++ l). now rewrite unbe_app, unbe_one. Qed.

Lemma lxor_split k a b c d : 0 <= k -> 0 <= b < 2 ^ k -> 0 <= d < 2 ^ k -> Z.lxor (a * 2 ^ k + b) (c * 2 ^ k + d) = Z.lxor a c * 2 ^ k + Z.lxor b d.
Proof.
  intros K B D.
  assert (S : forall x y, 0 <= y < 2 ^ k -> x * 2 ^ k + y = Z.lor (Z.shiftl x k) y).
  { intros x y Y. rewrite <- Z.shiftl_mul_pow2 by assumption.
    assert (N : Z.land (Z.shiftl x k) y = 0).
    { apply Z.bits_inj'. intros n Hn. rewrite Z.land_spec, Z.bits_0, Z.shiftl_spec by assumption.
      destruct (Z.ltb_spec n k); [rewrite Z.testbit_neg_r by lia; reflexivity|].
      destruct (Z.eq_dec y 0) as [->|]; [rewrite Z.bits_0; apply andb_false_r|].
      rewrite (Z.bits_above_log2 y n); [apply andb_false_r|lia|apply Z.lt_le_trans with k; [apply Z.log2_lt_pow2; lia|lia]]. }
    rewrite Z.add_nocarry_lxor by assumption. now apply Z.lxor_lor. }
  assert (X : 0 <= Z.lxor b d < 2 ^ k).
  { split; [apply Z.lxor_nonneg; lia|]. destruct (Z.eq_dec (Z.lxor b d) 0) as [->|N]; [apply Z.pow_pos_nonneg; lia|]. apply Z.log2_lt_pow2; [assert (0 <= Z.lxor b d) by (apply Z.lxor_nonneg; lia); lia|].
    destruct (Z.eq_dec k 0) as [->|K0]; [change (2 ^ 0) with 1 in *; assert (b = 0) by lia; assert (d = 0) by lia; subst; contradiction N; reflexivity|].
    assert (L : forall x, 0 <= x < 2 ^ k -> Z.log2 x < k) by (intros x Hx; destruct (Z.eq_dec x 0) as [->|]; [cbn; lia|]; apply Z.log2_lt_pow2; lia).
    pose proof (Z.log2_lxor b d ltac:(lia) ltac:(lia)). pose proof (L b B). pose proof (L d D). lia. }
  rewrite !S by assumption. apply Z.bits_inj'. intros n Hn. rewrite Z.lxor_spec, !Z.lor_spec, Z.lxor_spec, !Z.shiftl_spec, Z.lxor_spec by assumption.
  assert (H : forall y, 0 <= y < 2 ^ k -> k <= n -> Z.testbit y n = false).
  { intros y Y Kn. destruct (Z.eq_dec y 0) as [->|]; [apply Z.bits_0|]. apply Z.bits_above_log2; [lia|]. apply Z.lt_le_trans with k; [apply Z.log2_lt_pow2; lia|lia]. }
  destruct (Z.ltb_spec n k).
  - rewrite !(Z.testbit_neg_r _ (n - k)) by lia. reflexivity.
  - rewrite (H b B), (H d D) by lia. now rewrite !orb_false_r.
Qed.

Lemma pow256 n : 256 ^ zlen n = 2 ^ (8 * zlen (A := Z) n).
Proof. rewrite Z.pow_mul_r; [reflexivity|lia|apply zlen_nonneg]. Qed.

Lemma unbe_xorl a : forall b, length a = length b -> bytes_ok a -> bytes_ok b -> unbe (xorl a b) = Z.lxor (unbe a) (unbe b).
Proof.
  induction a as [|x a IH]; intros [|y b] L Ha Hb; try discriminate L; [reflexivity|]. injection L as L. apply bytes_ok_cons in Ha, Hb. destruct Ha as [Hx Ha], Hb as [Hy Hb].
  cbn [xorl]. rewrite !unbe_cons, IH by assumption. assert (E : zlen (xorl a b) = zlen a) by (unfold zlen; now rewrite xorl_length). assert (E2 : zlen b = zlen a) by (unfold zlen; congruence).
  rewrite E, E2. pose proof (unbe_range a Ha) as Ra. pose proof (unbe_range b Hb) as Rb. rewrite E2 in Rb. rewrite pow256 in *. symmetry. apply lxor_split; [pose proof (zlen_nonneg a); lia|assumption|assumption].
Qed.

Lemma distance_xorl a b : id_ok a -> id_ok b -> distance a b = xorl a b.
Proof.
  intros [La Ha] [Lb Hb]. unfold distance. rewrite <- La at 1.
  assert (G : forall a b, length a = length b -> bytes_ok a -> bytes_ok b -> map (fun i => u8 (Z.lxor (nth i a 0) (nth i b 0))) (seq 0 (length a)) = xorl a b).
  { clear. induction a as [|x a IH]; intros [|y b] L Ha Hb; try discriminate; [reflexivity|]. injection L as L. apply bytes_ok_cons in Ha, Hb. destruct Ha, Hb. cbn [length seq map xorl nth]. rewrite <- seq_shift, map_map. cbn [nth].
    rewrite u8_id by now apply lxor_byte. f_equal. now apply IH. }
  apply G; [congruence|assumption|assumption].
Qed.

Lemma distance_ok a b : id_ok a -> id_ok b -> id_ok (distance a b).
Proof.
  intros Ha Hb. rewrite distance_xorl by assumption. destruct Ha as [La Ha], Hb as [Lb Hb]. split; [rewrite xorl_length; congruence|now apply xorl_bytes].
Qed.

Lemma distance_value a b : id_ok a -> id_ok b -> id_value (distance a b) = xor_dist a b.
Proof. intros Ha Hb. rewrite distance_xorl by assumption. destruct Ha as [La Ha], Hb as [Lb Hb]. apply unbe_xorl; [congruence|assumption|assumption]. Qed.

(** Lexicographic order on equally long byte strings is the order of their values. *)
Fixpoint lexl (l r : list Z) : bool :=
  match l, r with x :: l', y :: r' => if x =? y then lexl l' r' else x <? y | _, _ => false end.

Lemma lessLoop_lexl n : forall i l r, length l = (i + n)%nat -> length r = (i + n)%nat -> lessLoop n i l r = lexl (skipn i l) (skipn i r).
Proof.
  induction n as [|n IH]; intros i l r Ll Lr.
  - cbn. now rewrite !skipn_all2 by lia.
  - cbn [lessLoop]. rewrite IH by lia.
    assert (S : forall (l : list Z), length l = (i + S n)%nat -> skipn i l = nth i l 0 :: skipn (S i) l).
    { clear. induction i as [|i IHi]; intros [|x l] L; try (cbn in L; lia); [reflexivity|]. cbn [skipn nth]. apply IHi. cbn in L. lia. }
    rewrite (S l), (S r) by assumption. reflexivity.
Qed.

Lemma lexl_value l : forall r, length l = length r -> bytes_ok l -> bytes_ok r -> lexl l r = (unbe l <? unbe r).
Proof.
  induction l as [|x l IH]; intros [|y r] L Hl Hr; try discriminate L; [reflexivity|]. injection L as L. apply bytes_ok_cons in Hl, Hr. destruct Hl as [Hx Hl], Hr as [Hy Hr].
  cbn [lexl]. rewrite !unbe_cons. assert (E : zlen r = zlen l) by (unfold zlen; congruence). rewrite E. pose proof (unbe_range l Hl). pose proof (unbe_range r Hr) as Rr. rewrite E in Rr.
  set (p := 256 ^ zlen l) in *. destruct (Z.eqb_spec x y) as [->|N].
  - rewrite IH by assumption. destruct (Z.ltb_spec (unbe l) (unbe r)), (Z.ltb_spec (y * p + unbe l) (y * p + unbe r)); lia || reflexivity.
  - assert (x < y \/ y < x) by lia. destruct (Z.ltb_spec x y), (Z.ltb_spec (x * p + unbe l) (y * p + unbe r)); try reflexivity; exfalso; nia.
Qed.

Lemma idLess_value l r : id_ok l -> id_ok r -> idLess l r = (id_value l <? id_value r).
Proof.
  intros [Ll Hl] [Lr Hr]. unfold idLess. rewrite lessLoop_lexl by assumption. cbn [skipn]. apply lexl_value; [congruence|assumption|assumption].
Qed.

Lemma bitLoop_log2 d l : is_byte d -> d <> 0 -> 0 <= l <= 248 -> bitLoop 8 d l = l + Z.log2 d.
Proof.
  intros Hd N L.
  assert (G : forall n d l, 0 < d < 2 ^ Z.of_nat n -> 0 <= l -> l + Z.of_nat n <= 256 -> bitLoop n d l = l + Z.log2 d).
  { clear. induction n as [|n IH]; intros d l D L1 L2; [change (2 ^ Z.of_nat 0) with 1 in D; lia|]. cbn [bitLoop]. rewrite Z.shiftr_div_pow2 by lia. change (2 ^ 1) with 2.
    destruct (Z.eqb_spec (d / 2) 0) as [E|E]; [assert (d = 1) by lia; subst; change (Z.log2 1) with 0; lia|].
    assert (2 ^ Z.of_nat (S n) = 2 * 2 ^ Z.of_nat n) by (rewrite Nat2Z.inj_succ, Z.pow_succ_r by lia; reflexivity).
    assert (n <> 0%nat) by (intros ->; change (2 ^ Z.of_nat 0) with 1 in *; lia).
    unfold u8. rewrite Z.mod_small by lia. rewrite IH by lia.
    assert (Z.log2 d = Z.succ (Z.log2 (d / 2))); [|lia].
    rewrite <- Z.log2_double by lia. destruct (Z.eq_dec (d mod 2) 0) as [M|M]; [f_equal; lia|]. replace d with (2 * (d / 2) + 1) at 1 by lia. rewrite Z.log2_succ_double by lia. rewrite Z.log2_double by lia. reflexivity. }
  apply G; [unfold is_byte in Hd; change (2 ^ Z.of_nat 8) with 256; lia|lia|lia].
Qed.

Lemma idLength_value l : id_ok l -> idLength l = Z.log2 (id_value l).
Proof.
  intros [L H]. unfold idLength, id_value.
  assert (G : forall n i, (i + n = 20)%nat -> lengthLoop n i l = Z.log2 (unbe (skipn i l))).
  { induction n as [|n IH]; intros i E.
    - rewrite skipn_all2 by lia. reflexivity.
    - assert (S : skipn i l = nth i l 0 :: skipn (S i) l).
      { assert (Li : (i < length l)%nat) by lia. clear -Li. revert l Li. induction i as [|i IHi]; intros [|x l] Li; try (cbn in Li; lia); [reflexivity|]. cbn [skipn nth]. apply IHi. cbn in Li. lia. }
      assert (B : is_byte (nth i l 0)) by (unfold bytes_ok in H; rewrite Forall_forall in H; apply H, nth_In; lia).
      assert (Bs : bytes_ok (skipn (Datatypes.S i) l)) by (unfold bytes_ok in *; rewrite <- (firstn_skipn (Datatypes.S i) l) in H; apply Forall_app in H; tauto).
      rewrite S, unbe_cons. cbn [lengthLoop]. destruct (Z.eqb_spec (nth i l 0) 0) as [Z0|Z0]; [rewrite Z0, IH by lia; f_equal; lia|].
      assert (Ln : zlen (skipn (Datatypes.S i) l) = 19 - Z.of_nat i) by (unfold zlen; rewrite skipn_length; lia). rewrite Ln.
      unfold u8. rewrite Z.mod_small by lia. rewrite bitLoop_log2 by (try assumption; lia).
      pose proof (unbe_range _ Bs) as R. rewrite Ln in R. unfold is_byte in B. set (x := nth i l 0) in *. set (v := unbe (skipn (Datatypes.S i) l)) in *.
      assert (P : 256 ^ (19 - Z.of_nat i) = 2 ^ (8 * (19 - Z.of_nat i))) by (rewrite Z.pow_mul_r by lia; reflexivity). rewrite P in *.
      set (k := 8 * (19 - Z.of_nat i)) in *. assert (0 <= k) by lia. replace ((19 - Z.of_nat i) * 8) with k by lia.
      symmetry. apply Z.log2_unique; [pose proof (Z.log2_nonneg x); lia|].
      pose proof (Z.log2_spec x ltac:(lia)) as Lx. rewrite <- Z.add_succ_r, !Z.pow_add_r by (try lia; pose proof (Z.log2_nonneg x); lia).
      assert (0 < 2 ^ k) by (apply Z.pow_pos_nonneg; lia). nia. }
  exact (G 20%nat 0%nat eq_refl).
Qed.

Lemma xor_dist_range a b : id_ok a -> id_ok b -> 0 <= xor_dist a b < 2 ^ 160.
Proof.
  intros Ha Hb. rewrite <- distance_value by assumption. destruct (distance_ok _ _ Ha Hb) as [L B]. pose proof (unbe_range _ B). unfold zlen in *. rewrite L in *. exact H.
Qed.

Lemma top_bit_log2 v : 0 <= v -> top_bit v (Z.log2 v).
Proof.
  intros H. destruct (Z.eq_dec v 0) as [->|N]; [right; auto|left]. apply Z.log2_spec. lia.
Qed.

Lemma top_bit_unique v k : top_bit v k -> 0 <= k -> Z.log2 v = k.
Proof. intros [H|[-> ->]] K; [|reflexivity]. now apply Z.log2_unique. Qed.

Lemma idLength_dist own a : id_ok own -> id_ok a -> idLength (distance own a) = Z.log2 (xor_dist own a).
Proof. intros. rewrite idLength_value by now apply distance_ok. now rewrite distance_value. Qed.

Lemma log2_range own a : id_ok own -> id_ok a -> 0 <= Z.log2 (xor_dist own a) < 160.
Proof.
  intros Ho Ha. pose proof (xor_dist_range own a Ho Ha). split; [apply Z.log2_nonneg|]. destruct (Z.eq_dec (xor_dist own a) 0) as [->|]; [cbn; lia|]. apply Z.log2_lt_pow2; lia.
Qed.
