From Verif Require Import Base BaseLemmas HexModel HexSpec.

Lemma hex_digit_range c d : hex_digit c d -> 0 <= d < 16 /\ 0 <= c < 256.
Proof. destruct 1; lia. Qed.

Lemma hex_digit_ok c d : hex_digit c d -> hexCharOk c = true /\ fromHexa c = d.
Proof.
  destruct 1; unfold hexCharOk, fromHexa, u8; split; try lia;
    repeat match goal with |- context [?a <=? ?b] => destruct (Z.leb_spec a b); try lia end.
Qed.

Lemma hexCharOk_digit c : hexCharOk c = true -> exists d, hex_digit c d.
Proof.
  unfold hexCharOk; intros H.
  assert (48 <= c <= 57 \/ 97 <= c <= 102 \/ 65 <= c <= 70) as [A|[A|A]] by lia.
  - exists (c - 48). replace c with (48 + (c - 48)) at 1 by lia. constructor; lia.
  - exists (c - 87). replace c with (97 + ((c - 87) - 10)) at 1 by lia. constructor; lia.
  - exists (c - 55). replace c with (65 + ((c - 55) - 10)) at 1 by lia. constructor; lia.
Qed.

Lemma hexCharOk_iff c : hexCharOk c = true <-> exists d, hex_digit c d.
Proof. split; [apply hexCharOk_digit|intros [d H]; apply hex_digit_ok in H; tauto]. Qed.

Lemma shift4 d1 d2 : 0 <= d1 < 16 -> 0 <= d2 < 16 -> u8 (Z.shiftl d1 4 + d2) = d1 * 16 + d2.
Proof. intros. rewrite Z.shiftl_mul_pow2 by lia. change (2 ^ 4) with 16. unfold u8. lia. Qed.

Lemma decodeLoop_text t l : hex_text t l -> forall pre rest i,
  length pre = (i * 2)%nat ->
  decodeLoop (pre ++ t ++ rest) i (length l) = Ok l.
Proof.
  induction 1 as [|c1 c2 d1 d2 t l H1 H2 H IH]; intros pre rest i Hp; [reflexivity|].
  cbn [length decodeLoop].
  unfold strAt.
  rewrite !app_length. cbn [length app].
  replace (Nat.ltb (i * 2) _) with true by (symmetry; apply Nat.ltb_lt; lia).
  replace (Nat.ltb (i * 2 + 1) _) with true by (symmetry; apply Nat.ltb_lt; lia).
  rewrite !app_nth2 by lia.
  replace (i * 2 - length pre)%nat with 0%nat by lia.
  replace (i * 2 + 1 - length pre)%nat with 1%nat by lia.
  cbn [nth bind].
  specialize (IH (pre ++ [c1; c2]) rest (S i)).
  rewrite app_length in IH. cbn [length] in IH.
  rewrite <- app_assoc in IH. cbn [app] in IH. rewrite IH by lia.
  cbn [bind].
  pose proof (hex_digit_range _ _ H1) as [R1 _]. pose proof (hex_digit_range _ _ H2) as [R2 _].
  apply hex_digit_ok in H1 as [_ ->]. apply hex_digit_ok in H2 as [_ ->].
  rewrite shift4 by lia. reflexivity.
Qed.

Lemma hex_text_chars t l : hex_text t l -> forallb hexCharOk t = true.
Proof.
  induction 1 as [|c1 c2 d1 d2 t l H1 H2 H IH]; [reflexivity|].
  cbn [forallb]. apply hex_digit_ok in H1 as [-> _]. apply hex_digit_ok in H2 as [-> _]. exact IH.
Qed.

Lemma hex_chars_digit d : 0 <= d < 16 -> hex_digit (nth (Z.to_nat d) hex_chars 0) d.
Proof.
  intros H.
  assert (d = 0 \/ d = 1 \/ d = 2 \/ d = 3 \/ d = 4 \/ d = 5 \/ d = 6 \/ d = 7 \/ d = 8 \/ d = 9
    \/ d = 10 \/ d = 11 \/ d = 12 \/ d = 13 \/ d = 14 \/ d = 15) as C by lia.
  repeat match type of C with _ \/ _ => destruct C as [C|C] end; subst d;
    match goal with |- hex_digit _ ?d =>
      first [exact (hd_num d ltac:(lia)) | exact (hd_upper d ltac:(lia))] end.
Qed.

Lemma land15 b : Z.land b 15 = b mod 16.
Proof. change 15 with (Z.ones 4). rewrite Z.land_ones by lia. reflexivity. Qed.

Lemma hexToString_text l : bytes_ok l -> hex_text (hexToString l) l.
Proof.
  induction l as [|b l IH]; intros H; [constructor|].
  apply bytes_ok_cons in H as [Hb H]. unfold is_byte in Hb.
  cbn [hexToString]. rewrite Z.shiftr_div_pow2, land15 by lia. change (2 ^ 4) with 16.
  replace (b :: l) with (b / 16 * 16 + b mod 16 :: l) by (f_equal; lia).
  constructor; [apply hex_chars_digit; lia|apply hex_chars_digit; lia|auto].
Qed.

Lemma decodeHexa_text t l rest : hex_text t l -> forallb hexCharOk rest = true ->
  decodeHexa (t ++ rest) (length l) = Ok (Some l).
Proof.
  intros H Hr. unfold decodeHexa.
  rewrite forallb_app, (hex_text_chars _ _ H), Hr. cbn [andb].
  pose proof (decodeLoop_text t l H [] rest 0%nat eq_refl) as E. cbn [app] in E.
  rewrite E. reflexivity.
Qed.

Lemma decodeHexa_hexToString l : bytes_ok l -> decodeHexa (hexToString l) (length l) = Ok (Some l).
Proof.
  intros H. rewrite <- (app_nil_r (hexToString l)).
  apply decodeHexa_text; [now apply hexToString_text|reflexivity].
Qed.

Lemma decodeHexa_exact t l : hex_text t l -> decodeHexa t (length l) = Ok (Some l).
Proof. intros H. rewrite <- (app_nil_r t). now apply decodeHexa_text. Qed.

Lemma decodeHexa_reject_iff t n :
  decodeHexa t n = Ok None <-> exists c, In c t /\ ~ exists d, hex_digit c d.
Proof.
  unfold decodeHexa. destruct (forallb hexCharOk t) eqn:E.
  - split.
    + destruct (decodeLoop t 0 n); cbn [bind]; discriminate.
    + intros (c & Hc & Hn). rewrite forallb_forall in E. apply E in Hc.
      now apply hexCharOk_iff in Hc.
  - split; [intros _|reflexivity].
    assert (exists c, In c t /\ hexCharOk c = false) as (c & Hc & Hf).
    { clear n. induction t as [|a t IH]; [discriminate|]. cbn [forallb] in E.
      destruct (hexCharOk a) eqn:Ea; [destruct IH as (c & ? & ?); [exact E|]; exists c; simpl; auto|].
      exists a; simpl; auto. }
    exists c. split; [assumption|]. rewrite <- hexCharOk_iff. congruence.
Qed.

Lemma decodeLoop_safe t : forall n i,
  ((n = 0)%nat \/ (i + n) * 2 <= length t + 1)%nat <-> decodeLoop t i n <> UB.
Proof.
  induction n as [|n IH]; intros i.
  - cbn [decodeLoop]. split; [discriminate|left; reflexivity].
  - cbn [decodeLoop]. specialize (IH (S i)). unfold strAt.
    destruct (Nat.ltb_spec (i * 2) (length t)) as [L1|L1]; cbn [bind].
    + destruct (Nat.ltb_spec (i * 2 + 1) (length t)) as [L2|L2]; cbn [bind].
      * destruct (decodeLoop t (S i) n) as [r|]; cbn [bind].
        -- split; [discriminate|]. intros _. right. destruct IH as [_ IH].
           destruct IH; [discriminate|lia|lia].
        -- split; [|congruence]. intros H. exfalso. apply IH; [|reflexivity]. lia.
      * destruct (Nat.eqb_spec (i * 2 + 1) (length t)) as [E|E]; cbn [bind].
        -- destruct n as [|n].
           ++ cbn [decodeLoop bind]. split; [discriminate|]. intros _; right; lia.
           ++ destruct (decodeLoop t (S i) (S n)) as [r|]; cbn [bind].
              ** split; [discriminate|]. intros _. destruct IH as [_ IH].
                 destruct IH; [discriminate|lia|lia].
              ** split; [|congruence]. intros H. exfalso. apply IH; [|reflexivity]. lia.
        -- split; [lia|congruence].
    + destruct (Nat.eqb_spec (i * 2) (length t)) as [E|E]; cbn [bind].
      * destruct (Nat.ltb_spec (i * 2 + 1) (length t)) as [L2|L2]; [lia|].
        destruct (Nat.eqb_spec (i * 2 + 1) (length t)) as [E2|E2]; [lia|]. cbn [bind].
        split; [lia|congruence].
      * split; [lia|congruence].
Qed.

Lemma decodeHexa_safe t n : (n * 2 <= length t + 1)%nat -> decodeHexa t n <> UB.
Proof.
  intros H. unfold decodeHexa. destruct (forallb hexCharOk t); [|discriminate].
  assert (decodeLoop t 0 n <> UB) as E by (apply decodeLoop_safe; right; lia).
  destruct (decodeLoop t 0 n); cbn [bind]; [discriminate|congruence].
Qed.

Lemma decodeHexa_ub t n : (n * 2 > length t + 1)%nat ->
  (forall c, In c t -> exists d, hex_digit c d) -> decodeHexa t n = UB.
Proof.
  intros H Hc. unfold decodeHexa.
  replace (forallb hexCharOk t) with true
    by (symmetry; apply forallb_forall; intros; apply hexCharOk_iff; auto).
  destruct (decodeLoop t 0 n) eqn:E; [|reflexivity]. exfalso.
  assert (decodeLoop t 0 n <> UB) as N by (rewrite E; discriminate).
  apply decodeLoop_safe in N. lia.
Qed.
