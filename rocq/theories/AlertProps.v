(** C106: each alert asked for is handed out once, in order *)
From Verif Require Import Base BaseLemmas AlertModel AlertSpec.
From Coq Require Import Lia List.
Import ListNotations.

(** Each alert has one bit of its own, which the mask of its category has and the others' have not *)
Theorem C106_bits : forall i, idValue i = 2 ^ bitOf i /\ (forall j, bitOf j = bitOf i -> j = i) /\
  forall c, Z.testbit (categoryMask c) (bitOf i) = true <-> c = categoryOf i.
Proof.
  intros i. split; [destruct i; reflexivity|]. split; [intros j; destruct i, j; intros H; try reflexivity; discriminate H|]. intros c. destruct i, c; vm_compute; split; congruence.
Qed.
Print Assumptions C106_bits.

Lemma registered_bit : forall i s, isAlertRegistered i s = Z.testbit (mask s) (bitOf i).
Proof.
  intros i s. unfold isAlertRegistered. destruct (C106_bits i) as (-> & _). assert (B : 0 <= bitOf i) by (destruct i; cbn; lia).
  assert (G : Z.land (mask s) (2 ^ bitOf i) = if Z.testbit (mask s) (bitOf i) then 2 ^ bitOf i else 0).
  { apply Z.bits_inj'. intros n N. rewrite Z.land_spec, Z.pow2_bits_eqb by exact B. destruct (Z.eqb_spec (bitOf i) n) as [<-|X].
    - destruct (Z.testbit (mask s) (bitOf i)); [now rewrite Z.pow2_bits_true|now rewrite Z.bits_0].
    - rewrite Bool.andb_false_r. destruct (Z.testbit (mask s) (bitOf i)); [now rewrite Z.pow2_bits_false|now rewrite Z.bits_0]. }
  rewrite G. destruct (Z.testbit (mask s) (bitOf i)); [|reflexivity]. pose proof (Z.pow_pos_nonneg 2 (bitOf i)). destruct (Z.eqb_spec (2 ^ bitOf i) 0); [lia|reflexivity].
Qed.

(** The first bit of a mask is its lowest one, for every mask *)
Theorem C106_first_bit : forall k number, 0 <= k < 64 -> Z.testbit number k = true -> (forall j, 0 <= j < k -> Z.testbit number j = false) -> firstBit number = 2 ^ k.
Proof.
  intros k number K B L. unfold firstBit.
  assert (G : forall n i, 0 <= i <= k -> k - i < Z.of_nat n -> firstBitFrom n (2 ^ i) number = 2 ^ k).
  2:{ exact (G 64%nat 0 ltac:(lia) ltac:(cbn; lia)). }
  induction n as [|n I]; intros i H N; [lia|]. cbn [firstBitFrom].
  assert (E : Z.land number (2 ^ i) = if Z.testbit number i then 2 ^ i else 0).
  { apply Z.bits_inj'. intros m M. rewrite Z.land_spec, Z.pow2_bits_eqb by lia. destruct (Z.eqb_spec i m) as [<-|X].
    - destruct (Z.testbit number i); [rewrite Z.pow2_bits_true by lia; reflexivity|now rewrite Z.bits_0].
    - rewrite Bool.andb_false_r. destruct (Z.testbit number i); [now rewrite Z.pow2_bits_false|now rewrite Z.bits_0]. }
  rewrite E. destruct (Z.eq_dec i k) as [-> | X].
  - rewrite B. pose proof (Z.pow_pos_nonneg 2 k). destruct (Z.eqb_spec (2 ^ k) 0); [lia|reflexivity].
  - rewrite (L i ltac:(lia)). cbn [Z.eqb]. rewrite Z.shiftl_mul_pow2 by lia. replace (2 ^ i * 2 ^ 1) with (2 ^ (i + 1)) by (rewrite Z.pow_add_r by lia; reflexivity).
    replace (u64 (2 ^ (i + 1))) with (2 ^ (i + 1)); [apply I; lia|]. symmetry. apply Z.mod_small. split; [apply Z.pow_nonneg; lia|]. exact (Z.pow_lt_mono_r 2 (i + 1) 64 ltac:(lia) ltac:(lia) ltac:(lia)).
Qed.
Print Assumptions C106_first_bit.
Example C106_first_bit_ex : firstBit 40 = 8 /\ firstBit (categoryMask Metadata) = 65536.
Proof. split; reflexivity. Qed.

(** What was handed out and what still waits are the alerts asked for, each once and in order *)
Theorem C106_once : forall es, let (ls, s) := run es newManager in concat ls ++ alerts s = wanted 0 es.
Proof.
  intros es. assert (G : forall es s, let (ls, s') := run es s in concat ls ++ alerts s' = alerts s ++ wanted (mask s) es).
  2:{ specialize (G es newManager). destruct (run es newManager). exact G. }
  clear es. induction es as [|[m|i x|] es I]; intros s; cbn [run wanted].
  - cbn. now rewrite app_nil_r.
  - exact (I (registerAlerts m s)).
  - specialize (I (alert i x s)). destruct (run es (alert i x s)) as [ls s']. rewrite I. unfold alert. rewrite registered_bit. destruct (Z.testbit (mask s) (bitOf i)); [|reflexivity]. cbn [alerts mask]. now rewrite <- app_assoc.
  - cbn [popAlerts]. specialize (I {| mask := mask s; alerts := [] |}). destruct (run es _) as [ls s']. cbn [concat]. rewrite <- app_assoc, I. reflexivity.
Qed.
Print Assumptions C106_once.

(** After a pop nothing waits, so whoever pops again at once gets nothing twice *)
Theorem C106_pop : forall s, fst (popAlerts s) = alerts s /\ fst (popAlerts (snd (popAlerts s))) = [] /\ mask (snd (popAlerts s)) = mask s.
Proof. repeat split. Qed.
Print Assumptions C106_pop.

(** Asked for by category: all alerts of the category and no other *)
Theorem C106_category : forall c es, (forall e, In e es -> exists i x, e = EAlert i x) ->
  alerts (snd (run es (registerAlerts (categoryMask c) newManager))) = flat_map (fun e => match e with EAlert i x => match c, categoryOf i with Torrent, Torrent | Metadata, Metadata | Config, Config => [(i, x)] | _, _ => [] end | _ => [] end) es.
Proof.
  intros c es F. assert (G : forall s, mask s = categoryMask c -> alerts (snd (run es s)) = alerts s ++ flat_map (fun e => match e with EAlert i x => match c, categoryOf i with Torrent, Torrent | Metadata, Metadata | Config, Config => [(i, x)] | _, _ => [] end | _ => [] end) es); [|now apply G].
  induction es as [|e es I]; intros s M; [cbn; now rewrite app_nil_r|]. destruct (F e) as (i & x & ->); [now left|]. cbn [run flat_map].
  assert (F2 : forall e, In e es -> exists i x, e = EAlert i x) by (intros e E; apply F; now right). rewrite (I F2); [|unfold alert; destruct (isAlertRegistered i s); exact M].
  unfold alert. rewrite registered_bit, M. destruct (Z.testbit (categoryMask c) (bitOf i)) eqn:B.
  - apply C106_bits in B. subst c. cbn [alerts]. rewrite <- app_assoc. destruct (categoryOf i); reflexivity.
  - destruct c, (categoryOf i) eqn:K; try reflexivity; exfalso; (assert (X : Z.testbit (categoryMask (categoryOf i)) (bitOf i) = true) by (now apply C106_bits)); rewrite K in X; congruence.
Qed.
Print Assumptions C106_category.

Example C106_ex : run [EAlert TorrentAdded 5; ERegister (categoryMask Torrent); EAlert TorrentAdded 7; EAlert ConfigChanged 1; EAlert TorrentCheckStarted 7; EPop; EAlert TorrentCheckFinished 7] newManager =
  ([[(TorrentAdded, 7); (TorrentCheckStarted, 7)]], {| mask := 65535; alerts := [(TorrentCheckFinished, 7)] |}).
Proof. reflexivity. Qed.
