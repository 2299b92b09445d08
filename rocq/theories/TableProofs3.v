From Coq Require Import Sorting.Sorted.
From Verif Require Import Base BaseLemmas NodeModel NodeSpec NodeProofs TableModel TableSpec TableProofs TableProofs2.

Lemma lxor_lt k a b : 0 <= k -> 0 <= a < 2 ^ k -> 0 <= b < 2 ^ k -> 0 <= Z.lxor a b < 2 ^ k.
Proof.
  intros K A B. split; [apply Z.lxor_nonneg; lia|]. destruct (Z.eq_dec (Z.lxor a b) 0) as [->|N]; [apply Z.pow_pos_nonneg; lia|].
  assert (0 <= Z.lxor a b) by (apply Z.lxor_nonneg; lia). apply Z.log2_lt_pow2; [lia|]. pose proof (Z.log2_lxor a b ltac:(lia) ltac:(lia)).
  assert (L : forall x, 0 <= x < 2 ^ k -> x <> 0 -> Z.log2 x < k) by (intros x Hx Nx; apply Z.log2_lt_pow2; lia).
  destruct (Z.eq_dec a 0) as [->|Na]; [rewrite Z.lxor_0_l in *; now apply L|]. destruct (Z.eq_dec b 0) as [->|Nb]; [rewrite Z.lxor_0_r in *; now apply L|].
  pose proof (L a A Na). pose proof (L b B Nb). lia.
Qed.

Lemma lxor_top_one i x y : 0 <= i -> 2 ^ i <= x < 2 ^ (i + 1) -> 0 <= y < 2 ^ i -> 2 ^ i <= Z.lxor x y < 2 ^ (i + 1).
Proof.
  intros I X Y. rewrite Z.pow_add_r in * by lia. change (2 ^ 1) with 2 in *.
  assert (S : Z.lxor (1 * 2 ^ i + (x - 2 ^ i)) (0 * 2 ^ i + y) = Z.lxor 1 0 * 2 ^ i + Z.lxor (x - 2 ^ i) y) by (apply lxor_split; lia).
  replace (1 * 2 ^ i + (x - 2 ^ i)) with x in S by lia. replace (0 * 2 ^ i + y) with y in S by lia. rewrite S. change (Z.lxor 1 0) with 1.
  pose proof (lxor_lt i (x - 2 ^ i) y I ltac:(lia) ltac:(lia)). lia.
Qed.

Lemma lxor_top_both i x y : 0 <= i -> 2 ^ i <= x < 2 ^ (i + 1) -> 2 ^ i <= y < 2 ^ (i + 1) -> Z.lxor x y < 2 ^ i.
Proof.
  intros I X Y. rewrite Z.pow_add_r in * by lia. change (2 ^ 1) with 2 in *.
  assert (S : Z.lxor (1 * 2 ^ i + (x - 2 ^ i)) (1 * 2 ^ i + (y - 2 ^ i)) = Z.lxor 1 1 * 2 ^ i + Z.lxor (x - 2 ^ i) (y - 2 ^ i)) by (apply lxor_split; lia).
  replace (1 * 2 ^ i + (x - 2 ^ i)) with x in S by lia. replace (1 * 2 ^ i + (y - 2 ^ i)) with y in S by lia. rewrite S. change (Z.lxor 1 1) with 0.
  pose proof (lxor_lt i (x - 2 ^ i) (y - 2 ^ i) I ltac:(lia) ltac:(lia)). lia.
Qed.

Lemma xor_shift own a b : xor_dist a b = Z.lxor (xor_dist own a) (xor_dist own b).
Proof.
  unfold xor_dist. rewrite (Z.lxor_comm (id_value own) (id_value a)), Z.lxor_assoc, <- (Z.lxor_assoc (id_value own)), Z.lxor_nilpotent, Z.lxor_0_l. reflexivity.
Qed.

(** The distance of a node to the target by the buckets of both. *)
Lemma dist_class own target x i s : id_ok own -> id_ok target -> id_ok x -> top_bit (xor_dist own x) i -> top_bit (xor_dist own target) s -> 1 <= i -> 0 <= s ->
  (i = s -> xor_dist x target < 2 ^ s) /\ (i < s -> 2 ^ s <= xor_dist x target < 2 ^ (s + 1)) /\ (s < i -> 2 ^ i <= xor_dist x target < 2 ^ (i + 1)).
Proof.
  intros Ho Ht Hx Ti Ts I S. rewrite (xor_shift own). destruct Ti as [Ti|[_ ?]]; [|lia]. split; [|split].
  - intros ->. destruct Ts as [Ts|[_ ?]]; [|lia]. now apply lxor_top_both.
  - intros L. destruct Ts as [Ts|[_ ?]]; [|lia]. rewrite Z.lxor_comm. apply lxor_top_one; [lia|assumption|]. split; [pose proof (xor_dist_range own x Ho Hx); lia|].
    assert (2 ^ (i + 1) <= 2 ^ s) by (apply Z.pow_le_mono_r; lia). lia.
  - intros L. apply lxor_top_one; [lia|assumption|]. pose proof (xor_dist_range own target Ho Ht). split; [lia|]. destruct Ts as [Ts|[-> _]]; [|apply Z.pow_pos_nonneg; lia].
    assert (2 ^ (s + 1) <= 2 ^ i) by (apply Z.pow_le_mono_r; lia). lia.
Qed.

(** [x] may come before [y]. *)
Definition before (s : Z) (target : list Z) (x y : node) : Prop :=
  forall k, s <= k -> xor_dist (id (info y)) target < 2 ^ k -> xor_dist (id (info x)) target < 2 ^ k.

Definition index_before (s i j : nat) : Prop := (1 <= i /\ 1 <= j /\ ((j <= s /\ i <= s /\ (j = s -> i = s)) \/ (s < j /\ i <= j)))%nat.

Lemma index_before_nodes own t target s i j x y : id_ok own -> id_ok target -> table_ok own t -> top_bit (xor_dist own target) (Z.of_nat s) -> (i < 160)%nat -> (j < 160)%nat -> index_before s i j ->
  In x (nodes (nth i t emptyBucket)) -> In y (nodes (nth j t emptyBucket)) -> before (Z.of_nat s) target x y.
Proof.
  intros Ho Ht [_ T] Ts Li Lj (I1 & J1 & C) Hx Hy k K D.
  destruct (T i Li) as (_ & _ & _ & Fi). destruct (T j Lj) as (_ & _ & _ & Fj). rewrite Forall_forall in Fi, Fj. destruct (Fi x (in_or_app _ _ _ (or_introl Hx))) as [X1 X2]. destruct (Fj y (in_or_app _ _ _ (or_introl Hy))) as [Y1 Y2].
  pose proof (dist_class own target _ _ _ Ho Ht X1 X2 Ts ltac:(lia) ltac:(lia)) as (A1 & A2 & A3). pose proof (dist_class own target _ _ _ Ho Ht Y1 Y2 Ts ltac:(lia) ltac:(lia)) as (B1 & B2 & B3).
  assert (M : forall a b, 0 <= a -> a <= b -> 2 ^ a <= 2 ^ b) by (intros; apply Z.pow_le_mono_r; lia).
  assert (M2 : forall a b, 0 <= a -> 0 <= b -> 2 ^ a < 2 ^ b -> a + 1 <= b) by (intros a b Pa Pb H; destruct (Z.le_gt_cases (a + 1) b); [assumption|]; assert (2 ^ b <= 2 ^ a) by (apply M; lia); lia).
  destruct C as [(C1 & C2 & C3)|(C1 & C2)].
  - destruct (Nat.eq_dec i s) as [->|Ni]; [specialize (A1 eq_refl); pose proof (M (Z.of_nat s) k ltac:(lia) K); lia|].
    assert (j <> s) by (intros Q; apply Ni; auto). specialize (A2 ltac:(lia)). specialize (B2 ltac:(lia)). assert (Z.of_nat s + 1 <= k) by (apply M2; lia). pose proof (M (Z.of_nat s + 1) k ltac:(lia) ltac:(lia)). lia.
  - specialize (B3 ltac:(lia)). assert (Kj : Z.of_nat j + 1 <= k) by (apply M2; lia).
    pose proof (M (Z.of_nat j + 1) k ltac:(lia) ltac:(lia)). pose proof (M (Z.of_nat s + 1) k ltac:(lia) ltac:(lia)). pose proof (M (Z.of_nat s) k ltac:(lia) ltac:(lia)). pose proof (M (Z.of_nat i + 1) k ltac:(lia) ltac:(lia)).
    destruct (Z.lt_trichotomy (Z.of_nat i) (Z.of_nat s)) as [Q|[Q|Q]]; [specialize (A2 Q); lia|specialize (A1 Q); lia|specialize (A3 Q); lia].
Qed.

Lemma sorted_app {A} (R : A -> A -> Prop) a b : StronglySorted R a -> StronglySorted R b -> (forall x y, In x a -> In y b -> R x y) -> StronglySorted R (a ++ b).
Proof.
  induction a as [|x a IH]; intros Sa Sb C; [assumption|]. inversion Sa as [|? ? S1 S2]; subst. cbn. constructor.
  - apply IH; [assumption|assumption|]. intros u v Hu Hv. apply C; [now right|assumption].
  - apply Forall_app. split; [assumption|]. apply Forall_forall. intros y Hy. apply C; [now left|assumption].
Qed.

Lemma sorted_seq n : forall a, StronglySorted (fun i j => i < j)%nat (seq a n).
Proof.
  induction n as [|n IH]; intros a; [constructor|]. cbn. constructor; [apply IH|]. apply Forall_forall. intros x Hx. apply in_seq in Hx. lia.
Qed.

Lemma sorted_rev_seq n : forall a, StronglySorted (fun i j => j < i)%nat (rev (seq a n)).
Proof.
  induction n as [|n IH]; intros a; [constructor|]. rewrite seq_S, rev_app_distr. cbn. constructor; [apply IH|]. apply Forall_forall. intros x Hx. apply in_rev, in_seq in Hx. lia.
Qed.

Lemma sorted_impl {A} (R Q : A -> A -> Prop) l : StronglySorted R l -> (forall x y, In x l -> In y l -> R x y -> Q x y) -> StronglySorted Q l.
Proof.
  induction l as [|x l IH]; intros S H; [constructor|]. inversion S as [|? ? S1 S2]; subst. constructor.
  - apply IH; [assumption|]. intros u v Hu Hv. apply H; now right.
  - rewrite Forall_forall in *. intros y Hy. apply H; [now left|now right|auto].
Qed.

Lemma sorted_flat_map {A B} (R : B -> B -> Prop) (f : A -> list B) is : (forall i, In i is -> StronglySorted R (f i)) ->
  StronglySorted (fun i j => forall x y, In x (f i) -> In y (f j) -> R x y) is -> StronglySorted R (flat_map f is).
Proof.
  induction is as [|i is IH]; intros H S; [constructor|]. inversion S as [|? ? S1 S2]; subst. cbn. apply sorted_app.
  - apply H. now left.
  - apply IH; [|assumption]. intros j Hj. apply H. now right.
  - intros x y Hx Hy. apply in_flat_map in Hy. destruct Hy as (j & Hj & Hy). rewrite Forall_forall in S2. exact (S2 j Hj x y Hx Hy).
Qed.

Lemma all_sorted {A} (R : A -> A -> Prop) l : (forall x y, In x l -> In y l -> R x y) -> StronglySorted R l.
Proof.
  induction l as [|x l IH]; intros H; [constructor|]. constructor; [apply IH; intros u v Hu Hv; apply H; now right|]. apply Forall_forall. intros y Hy. apply H; [now left|now right].
Qed.

Definition indices (s : nat) : list nat := rev (seq 1 s) ++ seq (S s) (159 - s).

Lemma indices_in s i : (s < 160)%nat -> In i (indices s) <-> (1 <= i < 160)%nat.
Proof.
  intros S. unfold indices. rewrite in_app_iff, <- in_rev, !in_seq. lia.
Qed.

Lemma indices_sorted s : (s < 160)%nat -> StronglySorted (index_before s) (indices s).
Proof.
  intros S. unfold indices. apply sorted_app.
  - apply (sorted_impl _ _ _ (sorted_rev_seq s 1)). intros x y Hx Hy L. apply in_rev, in_seq in Hx. apply in_rev, in_seq in Hy. unfold index_before. lia.
  - apply (sorted_impl _ _ _ (sorted_seq (159 - s) (Datatypes.S s))). intros x y Hx Hy L. apply in_seq in Hx. apply in_seq in Hy. unfold index_before. lia.
  - intros x y Hx Hy. apply in_rev, in_seq in Hx. apply in_seq in Hy. unfold index_before. lia.
Qed.

Lemma visit_sorted own t target s : id_ok own -> id_ok target -> table_ok own t -> top_bit (xor_dist own target) (Z.of_nat s) -> (s < 160)%nat -> StronglySorted (before (Z.of_nat s) target) (visit t s).
Proof.
  intros Ho Ht T Ts S. apply sorted_flat_map.
  - intros i Hi. apply (indices_in s i S) in Hi. apply all_sorted. intros x y Hx Hy. apply (index_before_nodes own t target s i i); try assumption; try lia. unfold index_before. lia.
  - apply (sorted_impl _ _ _ (indices_sorted s S)). intros i j Hi Hj B x y Hx Hy. apply (indices_in s i S) in Hi. apply (indices_in s j S) in Hj. apply (index_before_nodes own t target s i j); try assumption; lia.
Qed.

(** The output is a part of what was looked at, in that order. *)
Inductive part {A} : list A -> list A -> Prop :=
| part_nil : part [] []
| part_skip x a b : part a b -> part a (x :: b)
| part_take x a b : part a b -> part (x :: a) (x :: b).

Lemma part_app {A} (a b c d : list A) : part a b -> part c d -> part (a ++ c) (b ++ d).
Proof. induction 1; intros P; cbn; [assumption|apply part_skip; auto|apply part_take; auto]. Qed.

Lemma part_none {A} (b : list A) : part [] b.
Proof. induction b; constructor; assumption. Qed.

Lemma part_in {A} (a b : list A) x : part a b -> In x a -> In x b.
Proof. induction 1; intros Q; [assumption|right; auto|destruct Q as [->|Q]; [now left|right; auto]]. Qed.

Lemma part_sorted {A} (R : A -> A -> Prop) a b : part a b -> StronglySorted R b -> StronglySorted R a.
Proof.
  induction 1 as [|x a b P IH|x a b P IH]; intros S; [constructor|inversion S; auto|]. inversion S as [|? ? S1 S2]; subst. constructor; [auto|].
  rewrite Forall_forall in *. intros y Hy. apply S2. now apply (part_in a).
Qed.

Definition out_part (L : list node) (st : list nodeInfo * Z * Z) : Prop := exists M, part M L /\ fst (fst st) = map info M /\ Forall (fun n => active n = true) M.

Lemma part_one L st n : out_part L st -> out_part (L ++ [n]) (collectOne st n).
Proof.
  intros (M & P & E & F). destruct st as [[out v6] v4]. cbn [fst] in E. unfold collectOne.
  assert (Keep : forall a b, out_part (L ++ [n]) (out, a, b)) by (intros; exists M; rewrite <- (app_nil_r M); refine (conj (part_app _ _ _ _ P (part_none _)) (conj _ _)); rewrite app_nil_r; assumption).
  destruct (active n) eqn:A; cbn [andb]; [|apply Keep].
  assert (Add : forall a b, out_part (L ++ [n]) (out ++ [info n], a, b)).
  { intros. exists (M ++ [n]). refine (conj (part_app _ _ _ _ P _) (conj _ _)); [apply part_take, part_nil|cbn [fst]; now rewrite map_app, E|apply Forall_app; split; [assumption|repeat constructor; assumption]]. }
  destruct (zlen out <? 16); [|apply Keep]. destruct (ipv6 (info n)); [destruct (v6 <? 8)|destruct (v4 <? 8)]; first [apply Keep|apply Add].
Qed.

Lemma part_fold ns : forall L st, out_part L st -> out_part (L ++ ns) (fold_left collectOne ns st).
Proof.
  induction ns as [|n ns IH]; intros L st P; [now rewrite app_nil_r|]. cbn [fold_left]. replace (L ++ n :: ns) with ((L ++ [n]) ++ ns) by now rewrite <- app_assoc. apply IH. now apply part_one.
Qed.

Lemma part_collect t is : forall L st, out_part L st -> out_part (L ++ flat_map (fun i => nodes (nth i t emptyBucket)) is) (collect t is st).
Proof.
  induction is as [|i is IH]; intros L st P; [cbn; now rewrite app_nil_r|]. cbn [collect flat_map]. destruct st as [[out v6] v4] eqn:E. rewrite <- E in *.
  destruct (Z.ltb_spec (zlen out) 16) as [Lt|Ge].
  - rewrite app_assoc. apply IH. now apply part_fold.
  - destruct P as (M & P & Q). exists M. split; [|assumption]. rewrite <- (app_nil_r M). apply part_app; [assumption|apply part_none].
Qed.

Lemma closest_part own t target : exists M, part M (visit t (Z.to_nat (getBucketId own target))) /\ getClosestNodes own t target = map info M /\ Forall (fun n => active n = true) M.
Proof.
  unfold getClosestNodes. set (s := Z.to_nat (getBucketId own target)).
  assert (P0 : out_part [] ([], 0, 0)) by (exists []; repeat constructor).
  apply (part_collect t (rev (seq 1 s))) in P0. apply (part_collect t (seq (S s) (159 - s))) in P0. cbn [app] in P0. rewrite <- flat_map_app in P0. fold (visit t s) in P0.
  destruct (collect t (seq (S s) (159 - s)) (collect t (rev (seq 1 s)) ([], 0, 0))) as [[out v6] v4]. exact P0.
Qed.

Lemma visit_in own t s n : id_ok own -> table_ok own t -> (s < 160)%nat -> (In n (visit t s) <-> in_table t n /\ 2 <= xor_dist own (id (info n))).
Proof.
  intros Ho T S. unfold visit. rewrite in_flat_map. split.
  - intros (i & Hi & Hn). change (In i (indices s)) in Hi. apply (indices_in s i S) in Hi. split; [exists i; split; [lia|assumption]|].
    destruct T as [_ T]. destruct (T i ltac:(lia)) as (_ & _ & _ & F). rewrite Forall_forall in F. destruct (F n (in_or_app _ _ _ (or_introl Hn))) as [_ [F2|[_ F2]]]; [|lia].
    assert (2 ^ 1 <= 2 ^ Z.of_nat i) by (apply Z.pow_le_mono_r; lia). change (2 ^ 1) with 2 in *. lia.
  - intros [(i & Li & Hn) D]. exists i. split; [|assumption]. apply (indices_in s i S). split; [|assumption]. destruct T as [_ T]. destruct (T i Li) as (_ & _ & _ & F). rewrite Forall_forall in F. destruct (F n (in_or_app _ _ _ (or_introl Hn))) as [_ F2].
    destruct i; [|lia]. destruct F2 as [F2|[F2 _]]; [change (2 ^ (Z.of_nat 0 + 1)) with 2 in F2; lia|lia].
Qed.

Lemma sorted_split {A} (R : A -> A -> Prop) n l x y : StronglySorted R l -> In x (firstn n l) -> In y (skipn n l) -> R x y.
Proof.
  revert n. induction l as [|z l IH]; intros n S Hx Hy; [destruct n; inversion Hx|]. inversion S as [|? ? S1 S2]; subst. destruct n as [|n]; [inversion Hx|]. cbn in *.
  destruct Hx as [->|Hx]; [|now apply (IH n)]. rewrite Forall_forall in S2. apply S2. rewrite <- (firstn_skipn n l). apply in_or_app. now right.
Qed.

Lemma filter_sorted {A} (R : A -> A -> Prop) f l : StronglySorted R l -> StronglySorted R (filter f l).
Proof.
  induction l as [|x l IH]; intros S; [constructor|]. inversion S as [|? ? S1 S2]; subst. cbn. destruct (f x); [|auto]. constructor; [auto|]. rewrite Forall_forall in *. intros y Hy. apply S2. apply filter_In in Hy. tauto.
Qed.
