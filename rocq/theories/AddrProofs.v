From Verif Require Import Base BaseLemmas PacketModel PacketSpec PacketProofs AddrModel AddrSpec.

Lemma putBytes_first old src n : (n <= length src)%nat -> firstn n (putBytes old src n) = firstn n src.
Proof.
  intros H. unfold putBytes. apply firstn_app_len. rewrite firstn_length. lia.
Qed.

Lemma addrSize_le v : (addrSize v <= 16)%nat.
Proof. destruct v; simpl; lia. Qed.

Lemma parse_toData old a rest : addr_ok a ->
  exists a', parseAddr old (toData a ++ rest) (ipv6 a) = Ok (a', zlen (toData a))
    /\ meaning a' = meaning a.
Proof.
  intros (L & B & P). unfold parseAddr, toData.
  set (n := addrSize (ipv6 a)). assert (Hn : (n <= 16)%nat) by apply addrSize_le.
  assert (Lf : length (firstn n (addrBytes a)) = n) by (rewrite firstn_length; lia).
  rewrite !app_length, Lf, le_length.
  replace (Nat.leb _ _) with true by (symmetry; apply Nat.leb_le; lia).
  eexists. split.
  - f_equal. f_equal. unfold zlen. rewrite app_length, Lf, le_length. lia.
  - unfold meaning. cbn [ipv6 addrBytes port]. fold n.
    rewrite putBytes_first by (rewrite !app_length, Lf, le_length; lia).
    rewrite <- app_assoc. rewrite firstn_app_len by (now rewrite Lf).
    unfold slice. rewrite skipn_app_len by (now rewrite Lf).
    rewrite firstn_app_len by (now rewrite le_length).
    rewrite le_bswap. rewrite bswap_unle; [|apply be_length|apply be_bytes].
    rewrite unbe_be by (change (256 ^ Z.of_nat 2) with 65536; lia). reflexivity.
Qed.

Lemma parse_ok old b v6 a n : length old = 16%nat -> bytes_ok old -> bytes_ok b ->
  parseAddr old b v6 = Ok (a, n) -> addr_ok a.
Proof.
  intros Lo Bo Bb. unfold parseAddr.
  destruct (Nat.leb_spec (addrSize v6 + 2) (length b)) as [H|H]; [|discriminate].
  intros E. injection E as <- <-. unfold addr_ok; cbn [addrBytes port].
  pose proof (addrSize_le v6).
  split; [|split].
  - unfold putBytes. rewrite app_length, firstn_length, skipn_length. lia.
  - unfold putBytes. apply bytes_ok_app. split.
    + unfold bytes_ok in *. rewrite <- (firstn_skipn (addrSize v6) b) in Bb. now apply Forall_app in Bb.
    + unfold bytes_ok in *. rewrite <- (firstn_skipn (addrSize v6) old) in Bo. now apply Forall_app in Bo.
  - assert (S2 : length (slice (addrSize v6) 2 b) = 2%nat) by (apply slice_length; lia).
    assert (B2 : bytes_ok (slice (addrSize v6) 2 b)).
    { unfold slice, bytes_ok in *. rewrite <- (firstn_skipn (addrSize v6) b) in Bb.
      apply Forall_app in Bb as [_ Bb]. rewrite <- (firstn_skipn 2 (skipn (addrSize v6) b)) in Bb.
      now apply Forall_app in Bb. }
    rewrite bswap_unle by assumption.
    pose proof (unbe_range _ B2) as R. unfold zlen in R. rewrite S2 in R.
    change (256 ^ Z.of_nat 2) with 65536 in R. lia.
Qed.

(** ** memcmp *)

Lemma memcmp_eq n : forall a b, (n <= length a)%nat -> (n <= length b)%nat ->
  memcmp a b n = 0 <-> firstn n a = firstn n b.
Proof.
  induction n as [|n IH]; intros a b Ha Hb; [simpl; tauto|].
  destruct a as [|x a]; [simpl in Ha; lia|]. destruct b as [|y b]; [simpl in Hb; lia|].
  cbn [memcmp hd tl firstn]. simpl in Ha, Hb.
  destruct (Z.ltb_spec x y); [split; [lia|intros E; injection E; lia]|].
  destruct (Z.ltb_spec y x); [split; [lia|intros E; injection E; lia]|].
  assert (x = y) by lia. subst y. rewrite IH by lia. split; [congruence|intros E; now injection E].
Qed.

Lemma memcmp_lt n : forall a b, (n <= length a)%nat -> (n <= length b)%nat ->
  memcmp a b n < 0 <-> lex_lt (firstn n a) (firstn n b).
Proof.
  induction n as [|n IH]; intros a b Ha Hb; [simpl; lia|].
  destruct a as [|x a]; [simpl in Ha; lia|]. destruct b as [|y b]; [simpl in Hb; lia|].
  cbn [memcmp hd tl firstn lex_lt]. simpl in Ha, Hb.
  destruct (Z.ltb_spec x y); [split; lia|].
  destruct (Z.ltb_spec y x); [split; lia|].
  rewrite IH by lia. split; [right; split; [lia|assumption]|intros [?|[? ?]]; [lia|assumption]].
Qed.

Lemma lex_irrefl a : ~ lex_lt a a.
Proof. induction a as [|x a IH]; simpl; [tauto|intros [H|[_ H]]; [lia|auto]]. Qed.

Lemma lex_trans a : forall b c, lex_lt a b -> lex_lt b c -> lex_lt a c.
Proof.
  induction a as [|x a IH]; intros [|y b] [|z c]; simpl; try tauto.
  intros [H|[-> H]] [H'|[-> H']]; [left; lia|left; lia|left; lia|right; split; eauto].
Qed.

Lemma lex_total a : forall b, length a = length b -> a = b \/ lex_lt a b \/ lex_lt b a.
Proof.
  induction a as [|x a IH]; intros [|y b] H; simpl in H; try lia; [now left|].
  destruct (IH b) as [->|[L|L]]; [lia| | |]; simpl;
    destruct (Z.lt_trichotomy x y) as [K|[K|K]]; subst; auto.
Qed.

(** Equality and order within one family. *)
Lemma addrEq_family a b : addr_ok a -> addr_ok b -> ipv6 a = ipv6 b ->
  (addrEq a b = true <-> meaning a = meaning b).
Proof.
  intros (La & _ & _) (Lb & _ & _) F. unfold addrEq, meaning. pose proof (addrSize_le (ipv6 a)).
  rewrite andb_true_iff, !Z.eqb_eq, memcmp_eq by lia. rewrite <- F.
  split; [intros [-> ->]; reflexivity|intros E; injection E; auto].
Qed.

Lemma addrLt_iff a b : addr_ok a -> addr_ok b ->
  (addrLt a b = true <-> port a < port b \/ (port a = port b /\
     lex_lt (firstn (addrSize (ipv6 a)) (addrBytes a)) (firstn (addrSize (ipv6 a)) (addrBytes b)))).
Proof.
  intros (La & _ & _) (Lb & _ & _). unfold addrLt. pose proof (addrSize_le (ipv6 a)).
  rewrite orb_true_iff, andb_true_iff, Z.eqb_eq, !Z.ltb_lt, memcmp_lt by lia. tauto.
Qed.

Lemma addrLt_irrefl a : addr_ok a -> addrLt a a = false.
Proof.
  intros Ha. destruct (addrLt a a) eqn:E; [|reflexivity].
  apply addrLt_iff in E; try assumption. destruct E as [E|[_ E]]; [lia|now apply lex_irrefl in E].
Qed.

Lemma addrLt_trans a b c : addr_ok a -> addr_ok b -> addr_ok c -> ipv6 a = ipv6 b -> ipv6 b = ipv6 c ->
  addrLt a b = true -> addrLt b c = true -> addrLt a c = true.
Proof.
  intros Ha Hb Hc F1 F2. rewrite !addrLt_iff by assumption. rewrite <- F1.
  intros [H|[E H]] [H'|[E' H']]; [left; lia|left; lia|left; lia|right; split; [lia|eauto using lex_trans]].
Qed.

Lemma addrLt_total a b : addr_ok a -> addr_ok b -> ipv6 a = ipv6 b ->
  addrEq a b = true \/ addrLt a b = true \/ addrLt b a = true.
Proof.
  intros Ha Hb F. rewrite addrEq_family, !addrLt_iff by assumption. unfold meaning. rewrite <- F.
  destruct (Z.lt_trichotomy (port a) (port b)) as [K|[K|K]]; [right; left; left; lia| |right; right; left; lia].
  pose proof (addrSize_le (ipv6 a)).
  destruct (lex_total (firstn (addrSize (ipv6 a)) (addrBytes a)) (firstn (addrSize (ipv6 a)) (addrBytes b))) as [E|[E|E]].
  - destruct Ha as (La & _ & _), Hb as (Lb & _ & _). rewrite !firstn_length. lia.
  - left. now rewrite E, K.
  - right; left; right; auto.
  - right; right; right; split; [lia|assumption].
Qed.

Definition v4a : addr := {| addrBytes := [1;2;3;4; 0;0;0;0; 0;0;0;0; 0;0;0;0]; port := 6881; ipv6 := false |}.
Definition v6a : addr := {| addrBytes := [1;2;3;4; 9;0;0;0; 0;0;0;0; 0;0;0;1]; port := 6881; ipv6 := true |}.
Definition v6b : addr := {| addrBytes := [1;2;3;4; 8;0;0;0; 0;0;0;0; 0;0;0;1]; port := 6881; ipv6 := true |}.

Lemma ex_ok : addr_ok v4a /\ addr_ok v6a /\ addr_ok v6b.
Proof.
  repeat match goal with |- _ /\ _ => split end;
  (split; [reflexivity|split; [apply bytes_okb_spec; reflexivity|vm_compute; split; congruence]]).
Qed.

Lemma addrEq_refuted :
  exists a b c, addr_ok a /\ addr_ok b /\ addr_ok c /\
    (addrEq a b = true /\ addrEq b a = false /\ meaning a <> meaning b) /\
    (addrEq a b = true /\ addrEq a c = true /\ addrEq b c = false).
Proof.
  exists v4a, v6a, v6b. destruct ex_ok as (A & B & C).
  repeat match goal with |- _ /\ _ => split end; auto; try reflexivity. vm_compute. congruence.
Qed.

(** Incomparability (neither < nor >) is not transitive: a ~ b, a ~ c, but c < b. *)
Lemma addrLt_refuted :
  exists a b c, addr_ok a /\ addr_ok b /\ addr_ok c /\
    addrLt a b = false /\ addrLt b a = false /\ addrLt a c = false /\ addrLt c a = false /\
    addrLt c b = true.
Proof.
  exists v4a, v6a, v6b. destruct ex_ok as (A & B & C).
  repeat match goal with |- _ /\ _ => split end; auto.
Qed.

(** ** Text form *)

Definition zero_tens (i : Z) : Prop := 100 <= i <= 109 \/ 200 <= i <= 209.

Lemma iToString_decimal i : is_byte i -> ~ zero_tens i -> decimal i (iToString i).
Proof.
  intros H N. unfold is_byte in H. unfold zero_tens in N. unfold iToString.
  destruct (Z.ltb_spec 99 i) as [A|A].
  - set (h := i / 100). set (r := i - h * 100).
    assert (0 < h < 10 /\ 0 <= r < 100) as [Hh Hr] by (subst h r; lia).
    destruct (Z.ltb_spec 9 r) as [B|B]; [|subst h r; lia].
    replace i with ((h * 10 + r / 10) * 10 + (r - r / 10 * 10)) by (subst r; lia).
    change ([48 + h] ++ [48 + r / 10] ++ [48 + (r - r / 10 * 10)])
      with (([48 + h] ++ [48 + r / 10]) ++ [48 + (r - r / 10 * 10)]).
    apply dec_more; [lia| |lia]. apply dec_more; [lia| |lia]. apply dec_digit; lia.
  - destruct (Z.ltb_spec 9 i) as [B|B]; cbn [app].
    + replace i with (i / 10 * 10 + (i - i / 10 * 10)) at 1 by lia.
      change ([48 + i / 10; 48 + (i - i / 10 * 10)]) with ([48 + i / 10] ++ [48 + (i - i / 10 * 10)]).
      apply dec_more; [lia| |lia]. apply dec_digit; lia.
    + apply dec_digit; lia.
Qed.

Lemma iToString_dropped i : zero_tens i -> exists d, 0 <= d < 10 /\
  iToString i = iToString (i / 100 * 10 + d) /\ i / 100 * 10 + d <> i.
Proof.
  intros H. exists (i mod 10). unfold zero_tens in H. split; [lia|].
  unfold iToString.
  destruct (Z.ltb_spec 99 i); [|lia].
  destruct (Z.ltb_spec 9 (i - i / 100 * 100)); [lia|].
  destruct (Z.ltb_spec 99 (i / 100 * 10 + i mod 10)); [lia|].
  destruct (Z.ltb_spec 9 (i / 100 * 10 + i mod 10)); [|lia].
  cbn [app]. split; [|lia]. leq.
Qed.

(** [decimal] determines the number. *)
Fixpoint undec (acc : Z) (l : list Z) : Z :=
  match l with [] => acc | c :: l' => undec (acc * 10 + (c - 48)) l' end.

Lemma undec_app a b acc : undec acc (a ++ b) = undec (undec acc a) b.
Proof. revert acc; induction a as [|c a IH]; intros acc; [reflexivity|]. cbn [app undec]. apply IH. Qed.

Lemma decimal_undec n t : decimal n t -> undec 0 t = n.
Proof.
  induction 1 as [d H|n d t Hn H IH Hd]; [cbn [undec]; lia|].
  rewrite undec_app, IH. cbn [undec]. lia.
Qed.

Lemma decimal_inj n m t : decimal n t -> decimal m t -> n = m.
Proof. intros A B. apply decimal_undec in A, B. congruence. Qed.

Lemma decimal_total : forall f n, 0 <= n < 10 ^ Z.of_nat f -> exists t, decimal n t.
Proof.
  induction f as [|f IH]; intros n H; [change (10 ^ Z.of_nat 0) with 1 in H; exists [48 + n]; constructor; lia|].
  destruct (Z.lt_ge_cases n 10); [exists [48 + n]; constructor; lia|].
  rewrite Nat2Z.inj_succ, Z.pow_succ_r in H by lia.
  destruct (IH (n / 10)) as [t Ht]; [split; [lia|apply Z.div_lt_upper_bound; lia]|].
  exists (t ++ [48 + n mod 10]). replace n with (n / 10 * 10 + n mod 10) at 1 by lia.
  constructor; [lia|assumption|lia].
Qed.

Lemma iToString_decimal_iff i : is_byte i -> (decimal i (iToString i) <-> ~ zero_tens i).
Proof.
  intros H. split; [|now apply iToString_decimal].
  intros D Z. destruct (iToString_dropped i Z) as (d & Hd & E & N).
  rewrite E in D. unfold is_byte in H.
  assert (decimal (i / 100 * 10 + d) (iToString (i / 100 * 10 + d))) as D2.
  { apply iToString_decimal; unfold is_byte, zero_tens in *; lia. }
  apply N. eapply decimal_inj; eauto.
Qed.

Lemma portDigits_ok room : forall p acc, 0 <= p < 10 ^ Z.of_nat room -> (0 < room)%nat ->
  exists t, portDigits room p acc = Ok (t ++ acc) /\ decimal p t.
Proof.
  induction room as [|room IH]; intros p acc H Hr; [lia|].
  cbn [portDigits]. destruct (Z.eqb_spec (p / 10) 0) as [E|E].
  - exists [48 + p mod 10]. split; [reflexivity|].
    replace p with (p mod 10) at 1 by lia. apply dec_digit; lia.
  - rewrite Nat2Z.inj_succ, Z.pow_succ_r in H by lia.
    destruct room as [|room]; [change (10 ^ Z.of_nat 0) with 1 in H; lia|].
    destruct (IH (p / 10) ((48 + p mod 10) :: acc)) as (t & E1 & D); [split; [lia|apply Z.div_lt_upper_bound; lia]|lia|].
    exists (t ++ [48 + p mod 10]). rewrite E1, <- app_assoc. split; [reflexivity|].
    replace p with (p / 10 * 10 + p mod 10) at 1 by lia. constructor; [lia|assumption|lia].
Qed.

Lemma toIpv4String_ok a b c d p :
  is_byte a -> is_byte b -> is_byte c -> is_byte d -> 0 <= p < 65536 ->
  ~ zero_tens a -> ~ zero_tens b -> ~ zero_tens c -> ~ zero_tens d ->
  exists ta tb tc td tp,
    decimal a ta /\ decimal b tb /\ decimal c tc /\ decimal d td /\ decimal p tp /\
    toIpv4String [a;b;c;d] p = Ok (ta ++ [46] ++ tb ++ [46] ++ tc ++ [46] ++ td ++ [58] ++ tp).
Proof.
  intros Ha Hb Hc Hd Hp Na Nb Nc Nd.
  destruct (portDigits_ok 5 p []) as (tp & E & D); [change (10 ^ Z.of_nat 5) with 100000; lia|lia|].
  exists (iToString a), (iToString b), (iToString c), (iToString d), tp.
  repeat match goal with |- _ /\ _ => split end; auto using iToString_decimal.
  unfold toIpv4String. rewrite E, app_nil_r. reflexivity.
Qed.

Lemma toIpv4String_collision :
  toIpv4String [10;0;0;105] 6881 = toIpv4String [10;0;0;15] 6881 /\ toIpv4String [10;0;0;105] 6881 <> UB.
Proof. split; [reflexivity|discriminate]. Qed.
