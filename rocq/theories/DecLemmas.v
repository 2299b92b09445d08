From Verif Require Import Base BaseLemmas Dec.

Fixpoint undigits (acc : Z) (l : list Z) : Z :=
  match l with [] => acc | c :: l' => undigits (acc * 10 + (c - 48)) l' end.

Lemma undigits_app a b acc : undigits acc (a ++ b) = undigits (undigits acc a) b.
Proof. revert acc. induction a as [|c a IH]; intros acc; [reflexivity|]. cbn [app undigits]. apply IH. Qed.

Lemma decDigits_ok f : forall n, 0 <= n < 10 ^ Z.of_nat f ->
  undigits 0 (decDigits f n) = n /\ forallb isDigit (decDigits f n) = true /\ (f <> 0%nat -> decDigits f n <> []).
Proof.
  induction f as [|f IH]; intros n H.
  - change (10 ^ Z.of_nat 0) with 1 in H. cbn [decDigits]. repeat split; [cbn [undigits]; lia|congruence].
  - cbn [decDigits]. rewrite Nat2Z.inj_succ, Z.pow_succ_r in H by lia.
    destruct (Z.ltb_spec n 10).
    + repeat split; [cbn [undigits]; lia| |discriminate]. cbn [forallb]. unfold isDigit. lia.
    + destruct (IH (n / 10)) as (A & B & _); [lia|]. rewrite undigits_app, A, forallb_app, B. repeat split.
      * cbn [undigits]. lia.
      * cbn [forallb]. unfold isDigit. lia.
      * intros _ E. apply (f_equal (@length Z)) in E. rewrite app_length in E. cbn [length] in E. lia.
Qed.

Lemma toString_fuel n : 0 <= n -> 0 <= n < 10 ^ Z.of_nat (S (Z.to_nat (Z.log2 n))).
Proof.
  intros H. split; [assumption|]. destruct (Z.eq_dec n 0) as [->|N]; [reflexivity|].
  assert (2 ^ Z.succ (Z.log2 n) <= 10 ^ Z.of_nat (S (Z.to_nat (Z.log2 n)))).
  { rewrite Nat2Z.inj_succ, Z2Nat.id by apply Z.log2_nonneg.
    apply Z.pow_le_mono_l. pose proof (Z.log2_nonneg n). lia. }
  pose proof (Z.log2_spec n). lia.
Qed.

Lemma toString_ok n : 0 <= n ->
  undigits 0 (toString n) = n /\ forallb isDigit (toString n) = true /\ toString n <> [].
Proof.
  intros H. destruct (decDigits_ok _ n (toString_fuel n H)) as (A & B & C). repeat split; auto.
Qed.

Lemma readDigits_app d : forall acc n c rest, forallb isDigit d = true -> isDigit c = false ->
  readDigits (d ++ c :: rest) acc n = Some (undigits acc d, (n + length d)%nat).
Proof.
  induction d as [|x d IH]; intros acc n c rest H Hc; cbn [app readDigits undigits length].
  - rewrite Hc. now rewrite Nat.add_0_r.
  - cbn [forallb] in H. apply andb_true_iff in H as [H1 H2]. rewrite H1, IH by assumption.
    now rewrite Nat.add_succ_comm.
Qed.

Lemma isDigit_range c : isDigit c = true -> 48 <= c <= 57.
Proof. unfold isDigit. lia. Qed.

Lemma strtoz_digits d c rest : forallb isDigit d = true -> d <> [] -> isDigit c = false ->
  strtoz (d ++ c :: rest) = Some (undigits 0 d, length d).
Proof.
  intros H N Hc. destruct d as [|x d]; [congruence|].
  pose proof H as H'. cbn [forallb] in H. apply andb_true_iff in H as [H1 H2]. apply isDigit_range in H1.
  unfold strtoz. cbn [app skipSpaces].
  replace (isSpace x) with false by (unfold isSpace; lia).
  destruct (Z.eqb_spec x 45); [lia|]. destruct (Z.eqb_spec x 43); [lia|].
  change (x :: d ++ c :: rest) with ((x :: d) ++ c :: rest).
  rewrite readDigits_app by assumption. cbn [Nat.add length]. reflexivity.
Qed.

Lemma strtoz_toString n c rest : 0 <= n -> isDigit c = false ->
  strtoz (toString n ++ c :: rest) = Some (n, length (toString n)).
Proof.
  intros H Hc. destruct (toString_ok n H) as (A & B & C). rewrite strtoz_digits by assumption. now rewrite A.
Qed.

Lemma strtol_toString n c rest : 0 <= n < 9223372036854775808 -> isDigit c = false ->
  strtol (toString n ++ c :: rest) = Some (n, length (toString n)).
Proof.
  intros H Hc. unfold strtol. rewrite strtoz_toString by (assumption || lia). do 2 f_equal. unfold clampLong. lia.
Qed.

Lemma strtoull_toString n c rest : 0 <= n < 18446744073709551616 -> isDigit c = false ->
  strtoull (toString n ++ c :: rest) = Some (n, length (toString n)).
Proof.
  intros H Hc. unfold strtoull. rewrite strtoz_toString by (assumption || lia).
  destruct (Z.ltb_spec 18446744073709551615 (Z.abs n)); [lia|]. unfold u64. rewrite Z.mod_small by lia. reflexivity.
Qed.

Lemma i32_id v : -2147483648 <= v < 2147483648 -> i32 v = v.
Proof. intros H. unfold i32. rewrite Z.mod_small by lia. lia. Qed.

Lemma toString_hd n : 0 <= n -> exists x t, toString n = x :: t /\ isDigit x = true.
Proof.
  intros H. destruct (toString_ok n H) as (_ & B & C). destruct (toString n) as [|x t]; [congruence|].
  cbn [forallb] in B. apply andb_true_iff in B as [B _]. eauto.
Qed.

Lemma digits_bytes d : forallb isDigit d = true -> bytes_ok d.
Proof.
  intros H. apply Forall_forall. intros x Hx. rewrite forallb_forall in H. apply H, isDigit_range in Hx.
  unfold is_byte. lia.
Qed.
