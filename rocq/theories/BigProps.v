(** C12: big number arithmetic is exact; C13: Diffie-Hellman secrets agree. *)
From Coq Require Import Zpow_facts.
From Verif Require Import Base BaseLemmas BigModel BigSpec BigProofs BigProofs2 BigProofs3 DhModel.

(** Products, with the squaring shortcut for equal operands. *)
Theorem C12_mul a b : digits_ok a -> digits_ok b ->
  digits_ok (dbi_mul a b) /\ length (dbi_mul a b) = (length a + length b)%nat /\
  value (dbi_mul a b) = value a * value b.
Proof. intros A B. destruct (dbi_mul_ok a b A B) as (X & Y & Z). auto. Qed.
Print Assumptions C12_mul.

(** Squaring, on its own. *)
Theorem C12_square a : digits_ok a ->
  let r := Square_h a (repeat 0 (length a + length a)) in
  digits_ok r /\ value r = value a * value a.
Proof. intros A. cbv zeta. destruct (Square_h_ok a A) as (_ & Y & Z). auto. Qed.
Print Assumptions C12_square.

(** The public product keeps the low half. *)
Theorem C12_mul_low a b : digits_ok a -> digits_ok b -> length a = length b ->
  exists r, Mul a b = Some r /\ length r = length a /\ digits_ok r /\
    value r = (value a * value b) mod 2 ^ (64 * zlen a).
Proof.
  intros A B L. unfold Mul. rewrite L, Nat.eqb_refl. cbn [negb]. eexists. split; [reflexivity|].
  destruct (dbi_mul_ok a b A B) as (X & Y & Z). rewrite <- L.
  refine (conj _ (conj (digits_firstn _ _ Y) _)).
  - apply firstn_length_le. lia.
  - rewrite value_firstn, Z by (try exact Y; lia). f_equal. Transparent P. unfold P, zlen. Opaque P.
    rewrite Z.pow_mul_r by lia. reflexivity.
Qed.
Print Assumptions C12_mul_low.

(** Comparison of numbers of any two lengths. *)
Theorem C12_compare a b : digits_ok a -> digits_ok b ->
  (Compare a b = -1 <-> value a < value b) /\ (Compare a b = 0 <-> value a = value b) /\
  (Compare a b = 1 <-> value b < value a).
Proof.
  intros A B. rewrite Compare_ok by assumption. unfold sgn.
  destruct (Z.ltb_spec (value a) (value b)); [lia|]. destruct (Z.ltb_spec (value b) (value a)); lia.
Qed.
Print Assumptions C12_compare.

(** Sums and differences with carry and borrow. *)
Theorem C12_add a b : digits_ok a -> digits_ok b -> length a = length b ->
  exists r c, Add a b = Some (r, c) /\ digits_ok r /\ length r = length a /\ (c = 0 \/ c = 1) /\
    value r + c * 2 ^ (64 * zlen a) = value a + value b.
Proof.
  intros A B L. unfold Add. rewrite L, Nat.eqb_refl. cbn [negb]. unfold Add_h.
  pose proof (addLoop_ok a b 0 A B L ltac:(lia)) as H. destruct (addLoop a b 0) as [r c].
  destruct H as (H1 & H2 & H3 & H4). exists r, c. refine (conj eq_refl (conj H2 (conj _ (conj _ _)))); [congruence|lia|].
  Transparent P. unfold P in H4. Opaque P. unfold zlen. rewrite Z.pow_mul_r by lia. change (2 ^ 64) with 18446744073709551616. lia.
Qed.
Print Assumptions C12_add.
Theorem C12_sub a b : digits_ok a -> digits_ok b -> length a = length b ->
  exists r c, Sub a b = Some (r, c) /\ digits_ok r /\ length r = length a /\ (c = 0 \/ c = 1) /\
    value r - c * 2 ^ (64 * zlen a) = value a - value b.
Proof.
  intros A B L. unfold Sub. rewrite L, Nat.eqb_refl. cbn [negb]. unfold Sub_h.
  pose proof (subLoop_ok a b 0 A B L ltac:(lia)) as H. destruct (subLoop a b 0) as [r c].
  destruct H as (H1 & H2 & H3 & H4). exists r, c. refine (conj eq_refl (conj H2 (conj _ (conj _ _)))); [congruence|lia|].
  Transparent P. unfold P in H4. Opaque P. unfold zlen. rewrite Z.pow_mul_r by lia. change (2 ^ 64) with 18446744073709551616. lia.
Qed.
Print Assumptions C12_sub.

(** Shifts. *)
Theorem C12_shift s l : 0 <= s < 64 -> digits_ok l ->
  value (shift_left s l) = value l * 2 ^ s /\ value (shift_right s l) = value l / 2 ^ s.
Proof.
  intros S0 D. destruct (shift_left_ok s l S0 D) as (_ & _ & X). destruct (shift_right_ok s l S0 D) as (_ & _ & Y). auto.
Qed.
Print Assumptions C12_shift.

(** Division of a double length number by a divisor of at least two digits or
    of at most 2^63: quotient (its low digits) and remainder. *)
Theorem C12_div_partial A b : digits_ok A -> digits_ok b -> length A = (2 * length b)%nat ->
  0 < value b <= 2 ^ 63 \/ 2 ^ 64 <= value b ->
  exists q r, dbi_div A b = Ok (DTrue q r) /\ length q = length b /\ length r = length b /\
    digits_ok q /\ digits_ok r /\
    value r = value A mod value b /\ value q = (value A / value b) mod 2 ^ (64 * zlen b).
Proof.
  intros DA Db L OK. destruct (dbi_div_ok A b DA Db L OK) as (q & r & E & Lq & Lr & Dq & Dr & Vq & Vr).
  exists q, r. refine (conj E (conj Lq (conj Lr (conj Dq (conj Dr (conj Vr _)))))).
  rewrite Vq. f_equal. Transparent P. unfold P, zlen. Opaque P. rewrite Z.pow_mul_r by lia. reflexivity.
Qed.
Print Assumptions C12_div_partial.

(** The public division of two numbers of the same length gives the exact quotient. *)
Theorem C12_div_same_partial a b : digits_ok a -> digits_ok b -> length a = length b ->
  0 < value b <= 2 ^ 63 \/ 2 ^ 64 <= value b ->
  exists q r, Div a b = Ok (DTrue q r) /\ value q = value a / value b /\ value r = value a mod value b.
Proof.
  intros Da Db L OK. unfold Div. rewrite L, Nat.eqb_refl. cbn [negb].
  destruct (dbi_div_ok (a ++ repeat 0 (length b)) b) as (q & r & E & Lq & Lr & Dq & Dr & Vq & Vr); auto.
  - apply digits_app. split; [exact Da|apply digits_repeat].
  - rewrite app_length, repeat_length. lia.
  - exists q, r. split; [exact E|]. rewrite value_app, value_repeat, Z.mul_0_r, Z.add_0_r in Vq, Vr.
    split; [|exact Vr]. rewrite Vq. apply Z.mod_small. pose proof (value_range a Da) as R. rewrite L in R.
    assert (Bp : 0 < value b) by lia.
    split; [apply Z.div_pos; lia|]. apply Z.div_lt_upper_bound; [exact Bp|]. nia.
Qed.
Print Assumptions C12_div_same_partial.

(** Division by zero is reported. *)
Theorem C12_div_zero A b : digits_ok A -> digits_ok b -> length A = (2 * length b)%nat -> value b = 0 ->
  exists q r, dbi_div A b = Ok (DFalse q r).
Proof.
  intros DA Db L V. unfold dbi_div. rewrite L, Nat.eqb_refl. cbn [negb].
  assert (T : length (trim b) = 0%nat).
  { destruct (trim_ok b Db) as (V2 & _ & _ & T). destruct (trim b) as [|x t] eqn:E; [reflexivity|].
    pose proof (trim_low b Db) as X. rewrite E in X. specialize (X ltac:(discriminate)).
    pose proof (P_pos (length (x :: t) - 1)). lia. }
  rewrite T. cbn [Nat.eqb]. eauto.
Qed.
Print Assumptions C12_div_zero.

(** Modular products and powers. *)
Theorem C12_mulm_partial a1 a2 m : digits_ok a1 -> digits_ok a2 -> digits_ok m ->
  length a1 = length m -> length a2 = length m -> 0 < value m <= 2 ^ 63 \/ 2 ^ 64 <= value m ->
  exists r, Mulm a1 a2 m = Ok r /\ length r = length m /\ digits_ok r /\ value r = (value a1 * value a2) mod value m.
Proof. intros. apply Mulm_ok; assumption. Qed.
Print Assumptions C12_mulm_partial.

Theorem C12_powm_partial a e m : digits_ok a -> digits_ok e -> digits_ok m ->
  length a = length m -> length e = length m -> 0 < value m <= 2 ^ 63 \/ 2 ^ 64 <= value m ->
  value e <> 0 \/ value m <> 1 ->
  exists r, Powm a e m = Ok (Some r) /\ length r = length m /\ digits_ok r /\
    value r = value a ^ value e mod value m.
Proof. intros. apply Powm_ok; assumption. Qed.
Print Assumptions C12_powm_partial.

(** A divisor of one digit above 2^63 can overflow the signed 128 bit [k]. *)
Theorem C12_single_digit_refuted : exists A b, digits_ok A /\ digits_ok b /\ length A = (2 * length b)%nat /\
  value b <> 0 /\ dbi_div A b = UB.
Proof.
  exists [0; 9223372036854775808], [9223372036854775809].
  refine (conj _ (conj _ (conj eq_refl (conj _ _)))).
  - repeat constructor; lia.
  - repeat constructor; lia.
  - cbn. lia.
  - vm_compute. reflexivity.
Qed.
Print Assumptions C12_single_digit_refuted.

(** x^0 mod 1 comes out as 1. *)
Theorem C12_power_zero_refuted : exists a e m r, digits_ok a /\ digits_ok e /\ digits_ok m /\
  Powm a e m = Ok (Some r) /\ value m = 1 /\ value r = 1 /\ value a ^ value e mod value m = 0.
Proof.
  assert (D : forall x, 0 <= x <= 5 -> digits_ok [x]) by (intros x X; constructor; [lia|constructor]).
  exists [5], [0], [1], [1].
  refine (conj (D 5 _) (conj (D 0 _) (conj (D 1 _) (conj _ (conj eq_refl (conj eq_refl _)))))); try lia; vm_compute; reflexivity.
Qed.
Print Assumptions C12_power_zero_refuted.

(** Numbers and bytes. *)
Theorem C12_bytes data : bytes_ok data -> value (Set_ data) = unbe data /\
  forall m size, digits_ok m -> (8 * length m <= size)%nat ->
    length (Export m size) = (8 * length m)%nat /\ unbe (Export m size) = value m.
Proof.
  intros B. destruct (Set_ok data B) as (_ & _ & V). split; [exact V|].
  intros m size D L. destruct (Export_ok m size D L) as (X & _ & Y). auto.
Qed.
Print Assumptions C12_bytes.

(** A division of 4 digits by 2. *)
Example C12_example :
  let A := [0; 0; 18446744073709551615; 9223372036854775807] in
  let b := [18446744073709551615; 9223372036854775808] in
  match dbi_div A b with
  | Ok (DTrue q r) => value q = value A / value b /\ value r = value A mod value b
  | _ => False
  end.
Proof. vm_compute. repeat split; congruence. Qed.
(** The add-back branch: subProd is negative for the estimated digit. *)
Example C12_add_back_example :
  let pb := [18446744073709551615; 0; 9223372036854775808] in
  let win := [0; 0; 0; 4611686018427387904] in
  let q := 9223372036854775808 in
  adjust 2 9223372036854775808 0 0 (make_dword 0 4611686018427387904 / 9223372036854775808)
    (make_dword 0 4611686018427387904 mod 9223372036854775808) = Some q /\
  snd (mulSub q pb win 0) < 0 /\
  match divStep pb win with Some (q', w') => q' = q - 1 /\ value win = q' * value pb + value w' | None => False end.
Proof. vm_compute. auto. Qed.
Example C12_powm_example :
  Powm [3; 0] [200; 0] [1000000007; 1] = Ok (Some [ (3 ^ 200 mod (1000000007 + 2 ^ 64)) mod 2 ^ 64; (3 ^ 200 mod (1000000007 + 2 ^ 64)) / 2 ^ 64]).
Proof. vm_compute. reflexivity. Qed.

(** For a modulus of at least two digits nothing is left out. *)
Theorem C56_div A b : digits_ok A -> digits_ok b -> length A = (2 * length b)%nat -> 2 ^ 64 <= value b ->
  exists q r, dbi_div A b = Ok (DTrue q r) /\ length q = length b /\ length r = length b /\
    digits_ok q /\ digits_ok r /\
    value r = value A mod value b /\ value q = (value A / value b) mod 2 ^ (64 * zlen b).
Proof. intros. apply C12_div_partial; auto. Qed.
Print Assumptions C56_div.
Theorem C56_powm a e m : digits_ok a -> digits_ok e -> digits_ok m ->
  length a = length m -> length e = length m -> 2 ^ 64 <= value m ->
  exists r, Powm a e m = Ok (Some r) /\ length r = length m /\ digits_ok r /\
    value r = value a ^ value e mod value m.
Proof. intros. apply Powm_ok; auto; [right; assumption|right; lia]. Qed.
Print Assumptions C56_powm.

(** The public modulus and generator. *)
Lemma primes_ok : digits_ok pePrimes /\ length pePrimes = 12%nat /\ value pePrimes = unbe pePrimesArray.
Proof.
  assert (B : bytes_ok pePrimesArray).
  { apply Forall_forall. intros x H. assert (F : forallb is_byteb pePrimesArray = true) by (vm_compute; reflexivity).
    rewrite forallb_forall in F. specialize (F x H). unfold is_byteb in F. unfold is_byte. lia. }
  destruct (Set_ok pePrimesArray B) as (A & C & D). auto.
Qed.

(** They are those of the message stream encryption specification: 2 and this 768-bit prime. *)
Theorem C13_parameters :
  value pePrimes = 0xFFFFFFFFFFFFFFFFC90FDAA22168C234C4C6628B80DC1CD129024E088A67CC74020BBEA63B139B22514A08798E3404DDEF9519B3CD3A431B302B0A6DF25F14374FE1356D6D51C245E485B576625E7EC6F44C42E9A63A36210000000000090563 /\
  value peGenerator = 2.
Proof. split; vm_compute; reflexivity. Qed.
Print Assumptions C13_parameters.

Lemma message_ok x pad : digits_ok x -> length x = 12%nat ->
  exists m, createExchangeMessage x pad = Ok m /\ length m = (96 + length pad)%nat /\ bytes_ok (firstn 96 m) /\
    length (firstn 96 m) = 96%nat /\ unbe (firstn 96 m) = 2 ^ value x mod value pePrimes.
Proof.
  intros D L. destruct primes_ok as (Dp & Lp & _).
  destruct (ofSmall_ok 2 12 ltac:(lia) ltac:(lia)) as (G1 & G2 & G3).
  assert (Big : 2 ^ 64 <= value pePrimes) by (apply Z.leb_le; vm_compute; reflexivity).
  destruct (Powm_ok peGenerator x pePrimes G2 D Dp ltac:(rewrite Lp; exact G1) ltac:(congruence)) as (r & E & Lr & Dr & Vr).
  - right. exact Big.
  - right. lia.
  - unfold createExchangeMessage. rewrite E. cbn [bind]. eexists. split; [reflexivity|].
    rewrite Lp in Lr. unfold KeySize.
    destruct (Export_ok r (96 + length pad) Dr) as (X1 & X2 & X3); [rewrite Lr; lia|].
    rewrite Lr in X1. change (8 * 12)%nat with 96%nat in X1.
    assert (F : firstn 96 (Export r (96 + length pad) ++ pad) = Export r (96 + length pad)) by (rewrite <- X1 at 1; apply firstn_app_exact).
    rewrite F, app_length, X1. refine (conj eq_refl (conj X2 (conj eq_refl _))).
    rewrite X3, Vr. unfold peGenerator. rewrite G3. reflexivity.
Qed.

Lemma remote_secret_ok x key v : digits_ok x -> length x = 12%nat -> bytes_ok (firstn 96 key) -> length (firstn 96 key) = 96%nat ->
  unbe (firstn 96 key) = v ->
  exists s, createSecretFromRemoteKey x key = Ok s /\ digits_ok s /\ length s = 12%nat /\
    value s = v ^ value x mod value pePrimes.
Proof.
  intros D L B Lk V. destruct primes_ok as (Dp & Lp & _).
  destruct (Set_ok _ B) as (S1 & S2 & S3). rewrite Lk in S1. change ((96 + 7) / 8)%nat with 12%nat in S1.
  assert (Big : 2 ^ 64 <= value pePrimes) by (apply Z.leb_le; vm_compute; reflexivity).
  destruct (Powm_ok (Set_ (firstn 96 key)) x pePrimes S2 D Dp ltac:(congruence) ltac:(congruence)) as (r & E & Lr & Dr & Vr).
  - right. exact Big.
  - right. lia.
  - exists r. unfold createSecretFromRemoteKey, KeySize. rewrite E. cbn [bind].
    refine (conj eq_refl (conj Dr (conj _ _))); [congruence|]. rewrite Vr, S3, V. reflexivity.
Qed.

(** Two parties with any private keys and any padding derive the same secret,
    the number 2^(x*y) modulo the prime, whose bytes are those of that number. *)
Theorem C13_agree x y padx pady : digits_ok x -> digits_ok y -> length x = 12%nat -> length y = 12%nat ->
  exists mx my s, createExchangeMessage x padx = Ok mx /\ createExchangeMessage y pady = Ok my /\
    createSecretFromRemoteKey x my = Ok s /\ createSecretFromRemoteKey y mx = Ok s /\
    unbe (Export s KeySize) = 2 ^ (value x * value y) mod unbe pePrimesArray /\ length (Export s KeySize) = 96%nat.
Proof.
  intros Dx Dy Lx Ly.
  destruct (message_ok x padx Dx Lx) as (mx & E1 & _ & B1 & L1 & V1).
  destruct (message_ok y pady Dy Ly) as (my & E2 & _ & B2 & L2 & V2).
  destruct (remote_secret_ok x my _ Dx Lx B2 L2 V2) as (s & F1 & D1 & G1 & W1).
  destruct (remote_secret_ok y mx _ Dy Ly B1 L1 V1) as (t & F2 & D2 & G2 & W2).
  destruct primes_ok as (Dp & Lp & Vp).
  assert (Big : 2 ^ 64 <= value pePrimes) by (apply Z.leb_le; vm_compute; reflexivity).
  pose proof (value_range x Dx) as Rx. pose proof (value_range y Dy) as Ry.
  assert (Mp : 0 < value pePrimes) by (apply Z.lt_le_trans with (2 := Big); reflexivity).
  destruct Rx as [Rx _]. destruct Ry as [Ry _].
  rewrite <- Zpower_mod in W1, W2 by exact Mp. rewrite <- Z.pow_mul_r in W1, W2 by assumption.
  assert (E : s = t).
  { apply value_inj; auto; [congruence|]. rewrite W1, W2. rewrite (Z.mul_comm (value x)). reflexivity. }
  subst t. exists mx, my, s. refine (conj E1 (conj E2 (conj F1 (conj F2 _)))).
  destruct (Export_ok s 96 D1) as (X1 & X2 & X3); [rewrite G1; lia|]. unfold KeySize. rewrite X1, X3, G1.
  split; [|reflexivity]. rewrite W1, Vp. rewrite (Z.mul_comm (value y)). reflexivity.
Qed.
Print Assumptions C13_agree.

(** With padding the public key still fills the first 96 bytes. *)
Theorem C13_public_key x pad : digits_ok x -> length x = 12%nat ->
  exists m, createExchangeMessage x pad = Ok m /\ length m = (96 + length pad)%nat /\
    unbe (firstn 96 m) = 2 ^ value x mod unbe pePrimesArray.
Proof.
  intros D L. destruct (message_ok x pad D L) as (m & E & L1 & _ & _ & V).
  exists m. refine (conj E (conj L1 _)). rewrite V. destruct primes_ok as (_ & _ & Vp). rewrite Vp. reflexivity.
Qed.
Print Assumptions C13_public_key.

Example C13_example : digits_ok (repeat 77 12) /\ length (repeat 77 12) = 12%nat.
Proof. split; [apply Forall_forall; intros x H; apply repeat_spec in H; lia|reflexivity]. Qed.
