From Verif Require Import Base BaseLemmas ShaModel ShaSpec.

Definition w32 (x : Z) : Prop := 0 <= x < 2 ^ 32.

Lemma u32_pow x : u32 x = x mod 2 ^ 32. Proof. reflexivity. Qed.
Lemma w32_mod x : w32 (x mod 2 ^ 32). Proof. unfold w32. change (2 ^ 32) with 4294967296. lia. Qed.

Lemma lor_add a b n : 0 <= n -> 0 <= b < 2 ^ n -> (2 ^ n | a) -> Z.lor a b = a + b.
Proof.
  intros N B (q & ->). assert (L : Z.land (q * 2 ^ n) b = 0).
  { apply Z.bits_inj'. intros i Hi. rewrite Z.land_spec, Z.bits_0. rewrite <- Z.shiftl_mul_pow2 by assumption. rewrite Z.shiftl_spec by assumption.
    destruct (Z.ltb_spec i n); [rewrite Z.testbit_neg_r by lia; reflexivity|]. destruct (Z.eq_dec b 0) as [->|]; [rewrite Z.bits_0; apply andb_false_r|]. rewrite (Z.bits_above_log2 b i); [apply andb_false_r|lia|].
    apply Z.log2_lt_pow2; [lia|]. apply Z.lt_le_trans with (2 ^ n); [lia|]. apply Z.pow_le_mono_r; lia. }
  rewrite <- Z.lxor_lor by assumption. symmetry. now apply Z.add_nocarry_lxor.
Qed.

Lemma rol_ROTL x n : w32 x -> 0 < n < 32 -> rol x n = ROTL n x.
Proof.
  intros H N. unfold rol, ROTL. rewrite u32_pow. rewrite Z.shiftl_mul_pow2, Z.shiftr_div_pow2 by lia.
  apply (lor_add _ _ n); [lia| |].
  - split; [apply Z.div_pos; [unfold w32 in H; lia|apply Z.pow_pos_nonneg; lia]|]. apply Z.div_lt_upper_bound; [apply Z.pow_pos_nonneg; lia|]. rewrite <- Z.pow_add_r by lia. replace (32 - n + n) with 32 by lia. unfold w32 in H. lia.
  - replace 32 with (n + (32 - n)) by lia. rewrite Z.pow_add_r by lia. rewrite (Z.mul_comm x). rewrite Z.mul_mod_distr_l by (apply Z.pow_nonzero; lia). apply Z.divide_factor_l.
Qed.

Lemma ROTL_w32 x n : w32 x -> 0 < n < 32 -> w32 (ROTL n x).
Proof.
  intros H N. unfold ROTL, w32 in *. assert (P : 2 ^ 32 = 2 ^ n * 2 ^ (32 - n)) by (rewrite <- Z.pow_add_r by lia; f_equal; lia).
  assert (P1 : 0 < 2 ^ n) by (apply Z.pow_pos_nonneg; lia). assert (P2 : 0 < 2 ^ (32 - n)) by (apply Z.pow_pos_nonneg; lia).
  rewrite P in *. rewrite (Z.mul_comm x). rewrite Z.mul_mod_distr_l by lia.
  pose proof (Z.mod_pos_bound x (2 ^ (32 - n)) P2). assert (0 <= x / 2 ^ (32 - n) < 2 ^ n). { split; [apply Z.div_pos; lia|]. apply Z.div_lt_upper_bound; [lia|]. rewrite Z.mul_comm. lia. } nia.
Qed.

Lemma lxor_w32 a b : w32 a -> w32 b -> w32 (Z.lxor a b).
Proof.
  unfold w32. intros A B. split; [apply Z.lxor_nonneg; lia|]. destruct (Z.eq_dec (Z.lxor a b) 0) as [->|N]; [lia|].
  apply Z.log2_lt_pow2; [pose proof (proj2 (Z.lxor_nonneg a b)); lia|]. pose proof (Z.log2_lxor a b).
  assert (G : forall x, 0 <= x < 2 ^ 32 -> Z.log2 x < 32). { intros x Hx. destruct (Z.eq_dec x 0) as [->|]; [cbn; lia|]. apply Z.log2_lt_pow2; lia. }
  pose proof (G a A). pose proof (G b B). lia.
Qed.

(** The bitwise functions. *)
Lemma F_Ch w x y : roundF R0 w x y = Ch w x y.
Proof.
  cbn. unfold Ch. apply Z.bits_inj'. intros i Hi. rewrite !Z.lxor_spec, !Z.land_spec, !Z.lxor_spec, Z.lnot_spec by assumption.
  destruct (Z.testbit w i), (Z.testbit x i), (Z.testbit y i); reflexivity.
Qed.
Lemma F_Maj w x y : roundF R3 w x y = Maj w x y.
Proof.
  cbn. unfold Maj. apply Z.bits_inj'. intros i Hi. rewrite !Z.lxor_spec, !Z.lor_spec, !Z.land_spec, !Z.lor_spec.
  destruct (Z.testbit w i), (Z.testbit x i), (Z.testbit y i); reflexivity.
Qed.
Lemma F_Parity w x y : Z.lxor (Z.lxor w x) y = Parity w x y.
Proof. unfold Parity. apply Z.lxor_assoc. Qed.

(** Round [t]. *)
Definition kind (t : nat) : round := if (t <? 16)%nat then R0 else if (t <? 20)%nat then R1 else if (t <? 40)%nat then R2 else if (t <? 60)%nat then R3 else R4.
Definition pos (k t : nat) : nat := ((k + 4 * t) mod 5)%nat.
Definition round_at (t : nat) : round * (nat * nat * nat * nat * nat) * nat :=
  (kind t, (pos 0 t, pos 1 t, pos 2 t, pos 3 t, pos 4 t), (t mod 16)%nat).

Lemma rounds_ok : rounds = map round_at (seq 0 80).
Proof. reflexivity. Qed.

Lemma kind_F t w x y : (t < 80)%nat -> roundF (kind t) w x y = f t w x y.
Proof.
  intros H. unfold kind, f. destruct (Nat.ltb_spec t 16); [destruct (Nat.ltb_spec t 20); [apply F_Ch|lia]|].
  destruct (Nat.ltb_spec t 20); [apply F_Ch|]. destruct (Nat.ltb_spec t 40); [apply F_Parity|]. destruct (Nat.ltb_spec t 60); [apply F_Maj|apply F_Parity].
Qed.
Lemma kind_K t : roundK (kind t) = K t.
Proof.
  unfold kind, K. destruct (Nat.ltb_spec t 16); [destruct (Nat.ltb_spec t 20); [reflexivity|lia]|].
  destruct (Nat.ltb_spec t 20); [reflexivity|]. destruct (Nat.ltb_spec t 40); [reflexivity|]. destruct (Nat.ltb_spec t 60); reflexivity.
Qed.

Definition vget (v : vars) (k : nat) : Z := match k with 0 => va v | 1 => vb v | 2 => vc v | 3 => vd v | _ => ve v end%nat.
(** The working variables after [t] rounds: variable [k] of the standard is register [pos k t]. *)
Definition regs_ok (t : nat) (regs : list Z) (v : vars) : Prop :=
  length regs = 5%nat /\ (forall k, (k < 5)%nat -> nth (pos k t) regs 0 = vget v k /\ w32 (vget v k)).

(** The schedule. *)
Lemma schedule_length b n : length (schedule b n) = (n + 16)%nat.
Proof. induction n; cbn; [reflexivity|]. rewrite app_length, IHn. cbn. lia. Qed.

Lemma schedule_S b n : schedule b (S n) = schedule b n ++ [ROTL 1 (Z.lxor (Z.lxor (nth (n + 16 - 3) (schedule b n) 0) (nth (n + 16 - 8) (schedule b n) 0)) (Z.lxor (nth (n + 16 - 14) (schedule b n) 0) (nth (n + 16 - 16) (schedule b n) 0)))].
Proof. reflexivity. Qed.

Lemma schedule_nth b n m t : (n <= m)%nat -> (t < n + 16)%nat -> nth t (schedule b m) 0 = nth t (schedule b n) 0.
Proof.
  intros H Ht. induction m as [|m IH]; [replace n with 0%nat by lia; reflexivity|]. destruct (Nat.eq_dec n (S m)) as [->|]; [reflexivity|].
  rewrite schedule_S. rewrite app_nth1 by (rewrite schedule_length; lia). apply IH. lia.
Qed.

Lemma schedule_next_n b N t : (16 <= t < N + 16)%nat -> let w := schedule b N in
  nth t w 0 = ROTL 1 (Z.lxor (Z.lxor (nth (t - 3) w 0) (nth (t - 8) w 0)) (Z.lxor (nth (t - 14) w 0) (nth (t - 16) w 0))).
Proof.
  intros H w. subst w. rewrite (schedule_nth b (S (t - 16)) N t) by lia. rewrite schedule_S. rewrite app_nth2 by (rewrite schedule_length; lia). rewrite schedule_length. replace (t - (t - 16 + 16))%nat with 0%nat by lia.
  cbn [nth]. replace (t - 16 + 16)%nat with t by lia. rewrite !(schedule_nth b (t - 16) N) by lia. reflexivity.
Qed.

Lemma schedule_next b t : (16 <= t < 80)%nat -> let w := schedule b 64 in
  nth t w 0 = ROTL 1 (Z.lxor (Z.lxor (nth (t - 3) w 0) (nth (t - 8) w 0)) (Z.lxor (nth (t - 14) w 0) (nth (t - 16) w 0))).
Proof. intros H. apply (schedule_next_n b 64). lia. Qed.

Lemma schedule_w32 b : bytes_ok b -> (length b = 64)%nat -> forall t, (t < 80)%nat -> w32 (nth t (schedule b 64) 0).
Proof.
  intros B L t. induction t as [t IH] using lt_wf_ind. intros Ht. destruct (Nat.ltb_spec t 16) as [Lt|Ge].
  - rewrite (schedule_nth b 0 64) by lia. change (schedule b 0) with (map (word b) (seq 0 16)). rewrite nth_indep with (d' := word b 0) by (rewrite map_length, seq_length; lia). rewrite map_nth, seq_nth by lia. unfold word.
    assert (E : zlen (slice (4 * (0 + t)) 4 b) = 4) by (unfold zlen; rewrite slice_length by lia; reflexivity).
    pose proof (unbe_range (slice (4 * (0 + t)) 4 b)) as U. rewrite E in U. unfold w32. change (2 ^ 32) with (256 ^ 4). apply U. unfold slice, bytes_ok. apply Forall_forall. intros x Hx.
    unfold bytes_ok in B. rewrite Forall_forall in B. apply B. rewrite <- (firstn_skipn (4 * (0 + t)) b). apply in_or_app. right. rewrite <- (firstn_skipn 4 (skipn (4 * (0 + t)) b)). apply in_or_app. now left.
  - rewrite schedule_next by lia. apply ROTL_w32; [|lia]. repeat apply lxor_w32; apply IH; lia.
Qed.

Definition block_ok (w : list Z) (t : nat) (block : list Z) : Prop :=
  length block = 16%nat /\ (forall s, (s < Nat.max t 16)%nat -> (Nat.max t 16 <= s + 16)%nat -> nth (s mod 16) block 0 = nth s w 0).

Lemma doRound_block b t block regs : bytes_ok b -> length b = 64%nat -> (t < 80)%nat -> let w := schedule b 64 in block_ok w t block ->
  let block' := fst (doRound block regs (round_at t)) in block_ok w (S t) block' /\ nth (t mod 16) block' 0 = nth t w 0.
Proof.
  intros B L Ht w [Lb Hb]. unfold round_at, doRound. cbn [fst].
  destruct (Nat.ltb_spec t 16) as [Lt|Ge].
  - assert (E : kind t = R0) by (unfold kind; destruct (Nat.ltb_spec t 16); [reflexivity|lia]). rewrite E. split; [|apply Hb; lia].
    split; [assumption|]. intros s Hs Hs2. apply Hb; lia.
  - assert (E : forall X : list Z, match kind t with R0 => block | _ => X end = X) by (unfold kind; destruct (Nat.ltb_spec t 16); [lia|]; destruct (t <? 20)%nat; [reflexivity|]; destruct (t <? 40)%nat; [reflexivity|]; destruct (t <? 60)%nat; reflexivity).
    rewrite E. clear E.
    assert (V : blk block (t mod 16) = nth t w 0).
    { unfold blk. assert (M : (t mod 16 < 16)%nat) by (apply Nat.mod_upper_bound; lia).
      assert (I3 : ((t mod 16 + 13) mod 16 = (t - 3) mod 16)%nat) by lia. assert (I8 : ((t mod 16 + 8) mod 16 = (t - 8) mod 16)%nat) by lia. assert (I14 : ((t mod 16 + 2) mod 16 = (t - 14) mod 16)%nat) by lia.
      assert (I16 : (t mod 16 = (t - 16) mod 16)%nat) by lia.
      rewrite I3, I8, I14. rewrite I16. rewrite !Hb by lia. unfold w. rewrite (schedule_next b t) by lia. rewrite <- Z.lxor_assoc. apply rol_ROTL; [|lia]. repeat apply lxor_w32; apply schedule_w32; try assumption; lia. }
    rewrite V. assert (M : (t mod 16 < 16)%nat) by (apply Nat.mod_upper_bound; lia). split; [|rewrite nth_upd_same; [reflexivity|lia]]. split; [now rewrite upd_length|].
    intros s Hs Hs2. destruct (Nat.eq_dec s t) as [->|N]; [rewrite nth_upd_same; [reflexivity|lia]|]. rewrite nth_upd_other by lia. apply Hb; lia.
Qed.

Lemma pos_lt k t : (pos k t < 5)%nat.
Proof. apply Nat.mod_upper_bound. lia. Qed.

Lemma doRound_regs b t block regs v : bytes_ok b -> length b = 64%nat -> (t < 80)%nat -> let w := schedule b 64 in block_ok w t block -> regs_ok t regs v ->
  regs_ok (S t) (snd (doRound block regs (round_at t))) (hash_step w v t).
Proof.
  intros B L Ht w Hb [Lr Hr]. destruct (doRound_block b t block regs B L Ht Hb) as [_ E]. fold w in E. unfold round_at, doRound in *. cbn [fst snd] in *. rewrite E. clear E.
  rewrite (proj1 (Hr 0%nat ltac:(lia))), (proj1 (Hr 1%nat ltac:(lia))), (proj1 (Hr 2%nat ltac:(lia))), (proj1 (Hr 3%nat ltac:(lia))), (proj1 (Hr 4%nat ltac:(lia))). cbn [vget].
  rewrite kind_F, kind_K by assumption.
  pose proof (proj2 (Hr 0%nat ltac:(lia))) as W0. pose proof (proj2 (Hr 1%nat ltac:(lia))) as W1. cbn [vget] in W0, W1.
  rewrite !rol_ROTL by (try assumption; lia).
  split; [now rewrite !upd_length|].
  assert (P : forall k, (k < 4)%nat -> pos (S k) (S t) = pos k t) by (intros k Hk; unfold pos; lia).
  assert (P0 : pos 0 (S t) = pos 4 t) by (unfold pos; lia).
  assert (N14 : pos 1 t <> pos 4 t) by (unfold pos; lia).
  pose proof (pos_lt 1 t). pose proof (pos_lt 4 t).
  intros k Hk. destruct k as [|[|[|[|[|k]]]]]; [| | | | |lia].
  - rewrite P0. rewrite nth_upd_other by auto. rewrite nth_upd_same by lia. cbn [vget hash_step va]. split; [|apply w32_mod]. rewrite u32_pow. f_equal. lia.
  - rewrite P by lia. rewrite !nth_upd_other by (unfold pos; lia). exact (Hr 0%nat ltac:(lia)).
  - rewrite P by lia. rewrite nth_upd_same by (rewrite upd_length; lia). cbn [vget hash_step vc]. split; [reflexivity|now apply ROTL_w32].
  - rewrite P by lia. rewrite !nth_upd_other by (unfold pos; lia). exact (Hr 2%nat ltac:(lia)).
  - rewrite P by lia. rewrite !nth_upd_other by (unfold pos; lia). exact (Hr 3%nat ltac:(lia)).
Qed.

Lemma run_rounds b block digest v : bytes_ok b -> length b = 64%nat -> let w := schedule b 64 in block_ok w 0 block -> regs_ok 0 digest v ->
  forall n, (n <= 80)%nat -> let st := fold_left (fun '(b, r) op => doRound b r op) (map round_at (seq 0 n)) (block, digest) in
  block_ok w n (fst st) /\ regs_ok n (snd st) (fold_left (hash_step w) (seq 0 n) v).
Proof.
  intros B L w Hb Hr n. induction n as [|n IH]; intros Hn; [split; assumption|]. cbv zeta in *. rewrite seq_S, map_app, !fold_left_app. cbn [map fold_left Nat.add].
  destruct (fold_left _ (map round_at (seq 0 n)) (block, digest)) as [bl rg]. cbn [fst snd] in IH. destruct IH as [I1 I2]; [lia|]. split.
  - exact (proj1 (doRound_block b n bl rg B L ltac:(lia) I1)).
  - exact (doRound_regs b n bl rg _ B L ltac:(lia) I1 I2).
Qed.

Definition vlist (v : vars) : list Z := [va v; vb v; vc v; vd v; ve v].
Definition vok (v : vars) : Prop := Forall w32 (vlist v).

Lemma regs_0 v : vok v -> regs_ok 0 (vlist v) v.
Proof.
  intros H. split; [reflexivity|]. unfold vok in H. rewrite Forall_forall in H. intros k Hk. destruct k as [|[|[|[|[|k]]]]]; [| | | | |lia]; (split; [reflexivity|]; apply H; cbn; tauto).
Qed.

Lemma regs_80 r v : regs_ok 80 r v -> r = vlist v.
Proof.
  intros [L H]. destruct r as [|a [|b [|c [|d [|e [|]]]]]]; try discriminate L. pose proof (proj1 (H 0%nat ltac:(lia))). pose proof (proj1 (H 1%nat ltac:(lia))). pose proof (proj1 (H 2%nat ltac:(lia))). pose proof (proj1 (H 3%nat ltac:(lia))). pose proof (proj1 (H 4%nat ltac:(lia))). cbn in *. unfold vlist. subst. reflexivity.
Qed.

(** One block. *)
Lemma transform_ok b block v : bytes_ok b -> length b = 64%nat -> vok v -> block = map (word b) (seq 0 16) ->
  fst (transform (vlist v) block) = vlist (hash_block v b) /\ vok (hash_block v b) /\ length (snd (transform (vlist v) block)) = 16%nat.
Proof.
  intros B L V ->. unfold transform. rewrite rounds_ok.
  assert (Hb : block_ok (schedule b 64) 0 (map (word b) (seq 0 16))).
  { split; [reflexivity|]. intros s Hs Hs2. cbn in Hs. rewrite Nat.mod_small by lia. rewrite (schedule_nth b 0 64) by lia. change (schedule b 0) with (map (word b) (seq 0 16)). reflexivity. }
  destruct (run_rounds b _ _ v B L Hb (regs_0 v V) 80 ltac:(lia)) as [R1 R2]. destruct (fold_left _ (map round_at (seq 0 80)) _) as [bl rg]. cbn [fst snd] in *. apply regs_80 in R2. subst rg.
  refine (conj _ (conj _ (proj1 R1))).
  - unfold vlist at 1 2, hash_block. cbn [combine map vlist va vb vc vd ve]. unfold vlist. cbn [va vb vc vd ve]. rewrite !u32_pow. repeat (f_equal; try lia).
  - unfold vok, hash_block, vlist. cbn [va vb vc vd ve]. repeat constructor; apply w32_mod.
Qed.

Lemma word_bytes b i : bytes_ok b -> length b = 64%nat -> (i < 16)%nat ->
  Z.lor (Z.lor (Z.lor (nth (4 * i + 3) b 0) (Z.shiftl (nth (4 * i + 2) b 0) 8)) (Z.shiftl (nth (4 * i + 1) b 0) 16)) (Z.shiftl (nth (4 * i) b 0) 24) = word b i.
Proof.
  intros B L Hi. assert (G : forall j, (j < 64)%nat -> is_byte (nth j b 0)). { intros j Hj. unfold bytes_ok in B. rewrite Forall_forall in B. apply B. apply nth_In. lia. }
  unfold word. assert (E : slice (4 * i) 4 b = [nth (4 * i) b 0; nth (4 * i + 1) b 0; nth (4 * i + 2) b 0; nth (4 * i + 3) b 0]).
  { apply nth_ext with (d := 0) (d' := 0); [rewrite slice_length by lia; reflexivity|]. intros j Hj. rewrite slice_length in Hj by lia. rewrite nth_slice by lia. destruct j as [|[|[|[|j]]]]; cbn [nth]; try lia; f_equal; lia. }
  rewrite E. set (x0 := nth (4 * i) b 0). set (x1 := nth (4 * i + 1) b 0). set (x2 := nth (4 * i + 2) b 0). set (x3 := nth (4 * i + 3) b 0).
  assert (X0 : is_byte x0) by (apply G; lia). assert (X1 : is_byte x1) by (apply G; lia). assert (X2 : is_byte x2) by (apply G; lia). assert (X3 : is_byte x3) by (apply G; lia). unfold is_byte in *.
  rewrite !Z.shiftl_mul_pow2 by lia. change (2 ^ 8) with 256. change (2 ^ 16) with 65536. change (2 ^ 24) with 16777216.
  rewrite (Z.lor_comm x3), (lor_add (x2 * 256) x3 8) by (try lia; exists x2; reflexivity).
  rewrite (Z.lor_comm _ (x1 * 65536)), (lor_add (x1 * 65536) _ 16) by (try (change (2 ^ 16) with 65536; lia); exists x1; reflexivity).
  rewrite (Z.lor_comm _ (x0 * 16777216)), (lor_add (x0 * 16777216) _ 24) by (try (change (2 ^ 24) with 16777216; lia); exists x0; reflexivity).
  unfold unbe. cbn [fold_left]. lia.
Qed.

Lemma buffer_block b : bytes_ok b -> length b = 64%nat -> buffer_to_block b = map (word b) (seq 0 16).
Proof. intros B L. unfold buffer_to_block. apply map_ext_in. intros i Hi. apply in_seq in Hi. apply word_bytes; [assumption|assumption|lia]. Qed.

(** * Blocks of the message *)

Lemma blocks_nil m : (length m < 64)%nat -> blocks m = [].
Proof. intros H. unfold blocks. rewrite Nat.div_small by assumption. reflexivity. Qed.

Lemma blocks_cons b m : length b = 64%nat -> blocks (b ++ m) = b :: blocks m.
Proof.
  intros L. unfold blocks. rewrite app_length, L. replace ((64 + length m) / 64)%nat with (S (length m / 64)) by lia. cbn [seq map]. f_equal.
  - unfold slice. cbn [Nat.mul skipn]. rewrite <- L. apply firstn_app_exact.
  - rewrite <- seq_shift, map_map. apply map_ext. intros i. unfold slice. f_equal. replace (64 * S i)%nat with (length b + 64 * i)%nat by lia. rewrite skipn_app. rewrite skipn_all2 by lia. cbn [app]. f_equal. lia.
Qed.

(** [update] after the bytes [m]: whole blocks are hashed, the rest is kept. *)
Definition fed (s : sha) (m : list Z) : Prop :=
  exists v, digest s = vlist v /\ vok v /\ v = fold_left hash_block (blocks m) H0 /\
  buffer s = skipn (64 * (length m / 64)) m /\ transforms s = Z.of_nat (length m / 64).

Lemma blocks_app a m : (length a mod 64 = 0)%nat -> blocks (a ++ m) = blocks a ++ blocks m.
Proof.
  remember (length a / 64)%nat as n. revert a Heqn. induction n as [|n IH]; intros a E M.
  - destruct a; [reflexivity|cbn [length] in *; lia].
  - rewrite <- (firstn_skipn 64 a). assert (L : length (firstn 64 a) = 64%nat) by (rewrite firstn_length; lia). rewrite <- app_assoc. rewrite (blocks_cons (firstn 64 a) (skipn 64 a ++ m) L), (blocks_cons (firstn 64 a) (skipn 64 a) L). cbn [app]. f_equal. apply IH; rewrite skipn_length; lia.
Qed.

Lemma updateLoop_ok fuel : forall s m data, bytes_ok (m ++ data) -> Z.of_nat (length (m ++ data)) < 2 ^ 64 -> (length data <= fuel)%nat -> fed s m -> fed (updateLoop fuel s data) (m ++ data).
Proof.
  induction fuel as [|fuel IH]; intros s m data B L F S.
  - destruct data; [|cbn in F; lia]. now rewrite app_nil_r.
  - destruct data as [|x0 data0]; [now rewrite app_nil_r|]. set (data := x0 :: data0) in *. assert (D1 : (0 < length data)%nat) by (cbn; lia). cbn [updateLoop].
    change (match data with [] => s | _ :: _ => ?e end) with e. set (r := Nat.min (64 - length (buffer s)) (length data)).
    destruct S as (v & S1 & S2 & S3 & S4 & S5). assert (Lb : length (buffer s) = (length m mod 64)%nat) by (rewrite S4, skipn_length; lia).
    set (q := (length m / 64)%nat) in *. set (b := buffer s ++ firstn r data).
    assert (Lf : length b = (length m mod 64 + r)%nat) by (unfold b; rewrite app_length, firstn_length, Lb; unfold r; lia).
    assert (Em : m = firstn (64 * q) m ++ buffer s) by (rewrite S4; now rewrite firstn_skipn).
    assert (Lq : length (firstn (64 * q) m) = (64 * q)%nat) by (rewrite firstn_length; unfold q; lia).
    destruct (Nat.eqb_spec (length b) 64) as [E|E]; cbn [negb].
    + assert (Er : m ++ firstn r data = firstn (64 * q) m ++ b) by (rewrite Em at 1; unfold b; now rewrite <- app_assoc).
      assert (Ed : m ++ data = (m ++ firstn r data) ++ skipn r data) by (rewrite <- app_assoc; now rewrite firstn_skipn).
      rewrite Ed. assert (Bb : bytes_ok b). { rewrite Ed, Er in B. unfold bytes_ok in *. apply Forall_app in B. destruct B as [B _]. apply Forall_app in B. tauto. }
      assert (Lr : (length (m ++ firstn r data) = 64 * S q)%nat) by (rewrite Er, app_length, Lq, E; lia).
      assert (Dv : (length (m ++ firstn r data) / 64 = S q)%nat) by (rewrite Lr; lia).
      rewrite Ed in B, L. apply IH; [assumption|assumption|rewrite skipn_length; unfold r; lia|].
      destruct (transform_ok b (buffer_to_block b) v Bb E S2 (buffer_block b Bb E)) as (T1 & T2 & _).
      exists (hash_block v b). cbn [digest buffer transforms]. rewrite S1. refine (conj T1 (conj T2 (conj _ (conj _ _)))).
      * rewrite Er. rewrite blocks_app by (rewrite Lq; lia). rewrite fold_left_app. rewrite <- (app_nil_r b) at 2. rewrite blocks_cons by assumption. rewrite blocks_nil by (cbn; lia). cbn [fold_left]. f_equal. rewrite S3. rewrite Em at 1. rewrite blocks_app by (rewrite Lq; lia). rewrite (blocks_nil (buffer s)) by (rewrite Lb; lia). now rewrite app_nil_r.
      * rewrite Dv, <- Lr. now rewrite skipn_all.
      * rewrite S5, Dv. unfold u64. rewrite Z.mod_small; [lia|]. rewrite app_length in L. change (2 ^ 64) with 18446744073709551616 in L. lia.
    + assert (Er : r = length data) by (unfold r in *; lia). assert (Eb : b = buffer s ++ data) by (unfold b; now rewrite Er, firstn_all). rewrite Eb. clearbody b. subst b.
      assert (Dv : (length (m ++ data) / 64 = q)%nat) by (rewrite app_length; unfold q in *; lia).
      exists v. cbn [digest buffer transforms]. refine (conj S1 (conj S2 (conj _ (conj _ _)))).
      * assert (A1 : blocks m = blocks (firstn (64 * q) m)) by (rewrite Em at 1; rewrite blocks_app by (rewrite Lq; lia); rewrite (blocks_nil (buffer s)) by (rewrite Lb; lia); apply app_nil_r).
        assert (A2 : blocks (m ++ data) = blocks (firstn (64 * q) m)) by (rewrite Em at 1; rewrite <- app_assoc; rewrite blocks_app by (rewrite Lq; lia); rewrite (blocks_nil (buffer s ++ data)) by lia; apply app_nil_r).
        now rewrite S3, A1, A2.
      * rewrite Dv. rewrite skipn_app. rewrite S4. replace (64 * q - length m)%nat with 0%nat by (unfold q; lia). reflexivity.
      * now rewrite Dv.
Qed.

Lemma fed_reset : fed reset [].
Proof. exists H0. refine (conj eq_refl (conj _ (conj eq_refl (conj eq_refl eq_refl)))). unfold vok, vlist, H0, w32. cbn [va vb vc vd ve]. change (2 ^ 32) with 4294967296. repeat constructor; lia. Qed.

Lemma words_be8 n : 0 <= n < 2 ^ 64 -> word (be 8 n) 0 = n / 2 ^ 32 /\ word (be 8 n) 1 = n mod 2 ^ 32.
Proof.
  intros H. assert (A : be 8 n = be 4 (n / 2 ^ 32) ++ be 4 (n mod 2 ^ 32)).
  { rewrite <- (unbe_be 8 n) at 1 by (change (256 ^ Z.of_nat 8) with (2 ^ 64); lia).
    set (y := be 4 (n / 2 ^ 32) ++ be 4 (n mod 2 ^ 32)). assert (Ly : length y = 8%nat) by (unfold y; rewrite app_length, !be_length; reflexivity).
    assert (By : bytes_ok y) by (unfold y; apply bytes_ok_app; split; apply be_bytes).
    rewrite <- (be_unbe y By), Ly. f_equal. rewrite unbe_be by (change (256 ^ Z.of_nat 8) with (2 ^ 64); lia). unfold y. rewrite unbe_app. unfold zlen. rewrite be_length. change (Z.of_nat 4) with 4. change (256 ^ 4) with (2 ^ 32) in *.
    rewrite !unbe_be by (change (256 ^ Z.of_nat 4) with (2 ^ 32); change (2 ^ 64) with (2 ^ 32 * 2 ^ 32) in H; change (2 ^ 32) with 4294967296 in *; lia). change (2 ^ 32) with 4294967296; lia. }
  rewrite A. unfold word. split.
  - unfold slice. change (skipn (4 * 0)) with (fun l : list Z => l). cbv beta. rewrite firstn_app_len by (now rewrite be_length). apply unbe_be. change (256 ^ Z.of_nat 4) with (2 ^ 32). change (2 ^ 64) with (2 ^ 32 * 2 ^ 32) in H. change (2 ^ 32) with 4294967296 in *; lia.
  - unfold slice. rewrite skipn_app_len by (now rewrite be_length). rewrite firstn_all2 by (rewrite be_length; lia). apply unbe_be. change (256 ^ Z.of_nat 4) with (2 ^ 32). change (2 ^ 32) with 4294967296 in *; lia.
Qed.

Lemma word_app_l a b i : (4 * i + 4 <= length a)%nat -> word (a ++ b) i = word a i.
Proof.
  intros H. unfold word, slice. f_equal. rewrite skipn_app. rewrite firstn_app. rewrite skipn_length. replace (4 - (length a - 4 * i))%nat with 0%nat by lia. cbn [firstn]. apply app_nil_r.
Qed.
Lemma word_app_r a b i k : (length a = 4 * k)%nat -> (k <= i)%nat -> word (a ++ b) i = word b (i - k).
Proof.
  intros H K. unfold word, slice. f_equal. f_equal. rewrite skipn_app. rewrite skipn_all2 by lia. cbn [app]. f_equal. lia.
Qed.

(** The words of a block whose last 8 bytes are replaced. *)
Lemma set_length a n : length a = 56%nat -> 0 <= n < 2 ^ 64 -> forall old, length old = 8%nat ->
  upd 14 (u32 (Z.shiftr n 32)) (upd 15 (u32 n) (map (word (a ++ old)) (seq 0 16))) = map (word (a ++ be 8 n)) (seq 0 16).
Proof.
  intros L N old Lo. destruct (words_be8 n N) as [W0 W1]. apply nth_ext with (d := 0) (d' := 0); [rewrite !upd_length, !map_length; reflexivity|]. intros i Hi. rewrite !upd_length, map_length, seq_length in Hi.
  assert (M : forall x, nth i (map (word x) (seq 0 16)) 0 = word x i). { intros x. rewrite nth_indep with (d' := word x 0) by (rewrite map_length, seq_length; lia). rewrite map_nth, seq_nth by lia. reflexivity. }
  rewrite M. rewrite !nth_upd, M, !upd_length, !map_length, !seq_length. destruct (Nat.eqb_spec i 14) as [->|N14].
  - change ((14 <? 16)%nat) with true. cbn [andb]. rewrite (word_app_r a (be 8 n) 14 14) by lia. change (14 - 14)%nat with 0%nat. rewrite W0. unfold u32. rewrite Z.shiftr_div_pow2 by lia. rewrite Z.mod_small; [reflexivity|]. change (2 ^ 64) with (4294967296 * 4294967296) in N. change (2 ^ 32) with 4294967296. lia.
  - destruct (Nat.eqb_spec i 15) as [->|N15].
    + change ((15 <? 16)%nat) with true. cbn [andb]. rewrite (word_app_r a (be 8 n) 15 14) by lia. change (15 - 14)%nat with 1%nat. rewrite W1. reflexivity.
    + cbn [andb]. rewrite !word_app_l by lia. reflexivity.
Qed.

Lemma final_ok s m : bytes_ok m -> 8 * Z.of_nat (length m) < 2 ^ 64 -> fed s m ->
  final s = vlist (fold_left hash_block (blocks (m ++ padding (length m))) H0).
Proof.
  intros B L (v & S1 & S2 & S3 & S4 & S5). set (q := (length m / 64)%nat) in *.
  assert (Lb : length (buffer s) = (length m mod 64)%nat) by (rewrite S4, skipn_length; unfold q; lia).
  assert (Em : m = firstn (64 * q) m ++ buffer s) by (rewrite S4; now rewrite firstn_skipn).
  assert (Lq : length (firstn (64 * q) m) = (64 * q)%nat) by (rewrite firstn_length; unfold q; lia).
  assert (Bb : bytes_ok (buffer s)) by (rewrite Em in B; apply bytes_ok_app in B; tauto).
  set (n := 8 * Z.of_nat (length m)). assert (Tb : u64 ((transforms s * 64 + zlen (buffer s)) * 8) = n).
  { rewrite S5. unfold zlen. rewrite Lb. unfold u64. change 18446744073709551616 with (2 ^ 64). rewrite Z.mod_small; unfold n, q; lia. }
  assert (V : v = fold_left hash_block (blocks (firstn (64 * q) m)) H0).
  { rewrite S3. rewrite Em at 1. rewrite blocks_app by (rewrite Lq; lia). rewrite (blocks_nil (buffer s)) by (rewrite Lb; lia). now rewrite app_nil_r. }
  rewrite Em at 1. rewrite <- app_assoc. rewrite blocks_app by (rewrite Lq; lia). rewrite fold_left_app, <- V.
  set (tail := buffer s ++ padding (length m)). unfold final. rewrite Tb. set (b := buffer s ++ [128]). assert (Lc : length b = (length m mod 64 + 1)%nat) by (unfold b; rewrite app_length, Lb; reflexivity).
  assert (Hn : 0 <= n < 2 ^ 64) by (unfold n; lia).
  assert (Bz : forall k, bytes_ok (repeat 0 k)) by (intros k; apply Forall_forall; intros x Hx; apply repeat_spec in Hx; subst; unfold is_byte; lia).
  assert (B80 : bytes_ok b) by (unfold b; apply bytes_ok_app; split; [assumption|repeat constructor; unfold is_byte; lia]).
  assert (Et : tail = b ++ repeat 0 (Z.to_nat ((55 - Z.of_nat (length m)) mod 64)) ++ be 8 n) by (unfold tail, padding, b; rewrite <- app_assoc; reflexivity).
  set (z := Z.to_nat ((55 - Z.of_nat (length m)) mod 64)) in *.
  destruct (Nat.ltb_spec 56 (length b)) as [Two|One].
  - set (pad := b ++ repeat 0 (64 - length b)). assert (Lp : length pad = 64%nat) by (unfold pad; rewrite app_length, repeat_length; lia).
    assert (Bp : bytes_ok pad) by (unfold pad; apply bytes_ok_app; auto).
    destruct (transform_ok pad (buffer_to_block pad) v Bp Lp S2 (buffer_block pad Bp Lp)) as (T1 & T2 & T3). rewrite S1. destruct (transform (vlist v) (buffer_to_block pad)) as [d bl]. cbn [fst snd] in *. subst d.
    set (last := repeat 0 56 ++ be 8 n). assert (Et2 : tail = pad ++ last).
    { rewrite Et. unfold pad, last. rewrite <- app_assoc. f_equal. rewrite !app_assoc. f_equal. rewrite <- repeat_app. f_equal. unfold z. lia. }
    assert (Ll : length last = 64%nat) by (unfold last; rewrite app_length, repeat_length, be_length; reflexivity).
    assert (Bl : bytes_ok last) by (unfold last; apply bytes_ok_app; split; [apply Bz|apply be_bytes]).
    rewrite Et2, blocks_cons by assumption. rewrite <- (app_nil_r last), blocks_cons, blocks_nil by (try assumption; cbn; lia). cbn [fold_left].
    destruct (transform_ok last (map (word last) (seq 0 16)) (hash_block v pad) Bl Ll T2 eq_refl) as (U1 & _). rewrite <- U1. f_equal. f_equal.
    unfold last. rewrite <- (set_length (repeat 0 56) n ltac:(apply repeat_length) Hn (repeat 0 8)) by reflexivity.
    destruct bl as [|w0 [|w1 [|w2 [|w3 [|w4 [|w5 [|w6 [|w7 [|w8 [|w9 [|w10 [|w11 [|w12 [|w13 [|w14 [|w15 [|]]]]]]]]]]]]]]]]]; try discriminate T3. reflexivity.
  - set (a := b ++ repeat 0 (56 - length b)). assert (La : length a = 56%nat) by (unfold a; rewrite app_length, repeat_length; lia).
    assert (Ea : b ++ repeat 0 (64 - length b) = a ++ repeat 0 8) by (unfold a; rewrite <- app_assoc; f_equal; rewrite <- repeat_app; f_equal; lia).
    set (last := a ++ be 8 n). assert (Et2 : tail = last).
    { rewrite Et. unfold last, a. rewrite <- app_assoc. f_equal. f_equal. f_equal. unfold z. lia. }
    assert (Ll : length last = 64%nat) by (unfold last; rewrite app_length, La, be_length; reflexivity).
    assert (Ba : bytes_ok a) by (unfold a; apply bytes_ok_app; auto).
    assert (Bl : bytes_ok last) by (unfold last; apply bytes_ok_app; split; [assumption|apply be_bytes]).
    rewrite Et2. rewrite <- (app_nil_r last) at 1. rewrite blocks_cons, blocks_nil by (try assumption; cbn; lia). cbn [fold_left].
    destruct (transform_ok last (map (word last) (seq 0 16)) v Bl Ll S2 eq_refl) as (U1 & _). rewrite S1, <- U1. f_equal. f_equal.
    rewrite Ea. rewrite buffer_block; [|apply bytes_ok_app; auto|rewrite app_length, repeat_length; lia]. unfold last. now rewrite set_length.
Qed.
