From Verif Require Import Base BaseLemmas NodeModel NodeSpec NodeProofs TableModel TableSpec TableProofs.

(** * Nodes stay *)

Lemma in_upd_other {A} k (x d : A) l y : In y l -> y <> nth k l d -> In y (upd k x l).
Proof.
  revert k. induction l as [|z l IH]; intros k H N; [inversion H|]. destruct k as [|k]; cbn [upd nth] in *.
  - destruct H as [->|H]; [contradiction|now right].
  - destruct H as [->|H]; [now left|right]. now apply IH.
Qed.

Lemma in_upd_new {A} k (x : A) l : (k < length l)%nat -> In x (upd k x l).
Proof. revert k. induction l as [|z l IH]; intros [|k] H; cbn in *; try lia; [now left|right; apply IH; lia]. Qed.

Lemma in_erase_other {A} k (d : A) l y : In y l -> y <> nth k l d -> In y (erase k l).
Proof.
  unfold erase. revert k. induction l as [|z l IH]; intros k H N; [inversion H|]. destruct k as [|k]; cbn [firstn skipn app nth] in *.
  - destruct H as [->|H]; [contradiction|assumption].
  - destruct H as [->|H]; [now left|right]. now apply IH.
Qed.

Lemma nodup_app_l {A} (a b : list A) : NoDup (a ++ b) -> NoDup a.
Proof.
  induction a as [|x a IH]; intros H; [constructor|]. inversion H as [|? ? H1 H2]; subst. constructor; [|now apply IH]. intros Q. apply H1. apply in_or_app. now left.
Qed.

Lemma same_node own i b x y : bucket_ok own i b -> In x (nodes b) -> In y (nodes b) -> id (info x) = id (info y) -> x = y.
Proof.
  intros (_ & _ & D & _) Hx Hy E. apply nodup_app_l in D. revert Hx Hy. induction (nodes b) as [|z l IH]; intros Hx Hy; [inversion Hx|].
  cbn [ids map] in D. inversion D as [|? ? D1 D2]; subst. destruct Hx as [->|Hx], Hy as [->|Hy]; [reflexivity| | |now apply IH].
  - exfalso. apply D1. rewrite E. apply (in_map (fun n => id (info n))). assumption.
  - exfalso. apply D1. rewrite <- E. apply (in_map (fun n => id (info n))). assumption.
Qed.

(** Where the node with an id is. *)
Lemma in_table_bucket own t n : id_ok own -> table_ok own t -> in_table t n -> In n (nodes (bucketAt t (getBucketId own (id (info n))))).
Proof.
  intros Ho [L T] (i & Li & H). destruct (T i Li) as (_ & _ & _ & F). rewrite Forall_forall in F. destruct (F n (in_or_app _ _ _ (or_introl H))) as [I1 I2].
  unfold bucketAt. assert (E : getBucketId own (id (info n)) = Z.of_nat i) by (unfold getBucketId; rewrite idLength_dist by assumption; apply top_bit_unique; [assumption|lia]).
  rewrite E, Nat2Z.id. exact H.
Qed.

Definition bucket_alive (b : bucket) (i : list Z) : Prop := exists n, In n (nodes b) /\ id (info n) = i /\ active n = true.

Lemma responded_stays own k b n time i : id_ok (id n) -> bucket_ok own k b -> bucket_alive b i -> bucket_alive (bucketResponded b n time) i.
Proof.
  intros Hn B (x & X1 & X2 & X3). pose proof B as (_ & _ & _ & F). apply Forall_app in F. destruct F as [Fn Fc].
  assert (Gn : Forall (fun n => id_ok (id (info n))) (nodes b)) by (eapply Forall_impl; [|exact Fn]; intros ? [? ?]; assumption).
  unfold bucketResponded. destruct (find (id n) (nodes b)) as [j|] eqn:E1; [|destruct (find (id n) (cache b)); [|destruct (Nat.ltb _ 8)]].
  - destruct (find_some _ _ Hn Gn _ E1) as [Lj Ij]. cbn [nodes]. unfold bucket_alive. cbn [nodes].
    destruct (list_eq_dec Z.eq_dec i (id n)) as [->|N].
    + eexists. split; [apply in_upd_new; assumption|]. cbn. split; [assumption|reflexivity].
    + exists x. split; [|auto]. apply in_upd_other with dummyNode; [assumption|]. intros Q. apply N. rewrite <- X2, Q. assumption.
  - exists x. cbn [nodes]. auto.
  - exists x. cbn [nodes]. split; [apply in_or_app; now left|auto].
  - exists x. cbn [nodes]. auto.
Qed.

Lemma failed_other own k b n time x : id_ok (id n) -> bucket_ok own k b -> In x (nodes b) -> id (info x) <> id n -> In x (nodes (bucketNotResponded b n time)).
Proof.
  intros Hn B X N. pose proof B as (_ & _ & _ & F). apply Forall_app in F. destruct F as [Fn Fc].
  assert (Gn : Forall (fun n => id_ok (id (info n))) (nodes b)) by (eapply Forall_impl; [|exact Fn]; intros ? [? ?]; assumption).
  unfold bucketNotResponded. destruct (find (id n) (nodes b)) as [j|] eqn:E1; [|assumption]. destruct (find_some _ _ Hn Gn _ E1) as [Lj Ij].
  set (it := nth j (nodes b) dummyNode) in *. set (it' := if active it then _ else it).
  assert (Iid : id (info it') = id (info it)) by (unfold it'; destruct (active it); reflexivity).
  assert (U : In x (upd j it' (nodes b))) by (apply in_upd_other with dummyNode; [assumption|intros ->; contradiction]).
  assert (Er : In x (erase j (upd j it' (nodes b)))) by (apply in_erase_other with dummyNode; [assumption|rewrite nth_upd_same by assumption; intros ->; apply N; congruence]).
  destruct (_ <? blast b); [destruct (cache b); cbn [nodes]; [assumption|apply in_or_app; now left]|assumption].
Qed.

Lemma alive_iff own t i : id_ok own -> table_ok own t -> (alive t i <-> bucket_alive (bucketAt t (getBucketId own i)) i /\ id_ok i).
Proof.
  intros Ho T. split.
  - intros (n & N1 & N2 & N3). pose proof (in_table_bucket own t n Ho T N1) as H. rewrite N2 in H. split; [exists n; auto|].
    destruct N1 as (k & Lk & Hk). destruct T as [_ T]. destruct (T k Lk) as (_ & _ & _ & F). rewrite Forall_forall in F. destruct (F n (in_or_app _ _ _ (or_introl Hk))) as [F1 _]. now rewrite N2 in F1.
  - intros [(n & N1 & N2 & N3) Hi]. exists n. split; [|auto]. exists (Z.to_nat (getBucketId own i)). split; [apply bucketId_spec; assumption|exact N1].
Qed.

Lemma event_alive own t e i : id_ok own -> event_ok e -> table_ok own t -> not_failed i e -> alive t i -> alive (apply_event own t e) i.
Proof.
  intros Ho He T NF A. assert (T' : table_ok own (apply_event own t e)) by now apply event_keeps. apply (alive_iff own) in A; [|assumption|assumption]. destruct A as [A Hi]. apply (alive_iff own); [assumption|assumption|]. split; [|assumption].
  assert (Hn : id_ok (id (about e))) by apply He. pose proof (bucketId_spec own _ Ho Hn) as (K1 & K2 & K3). pose proof (bucketId_spec own _ Ho Hi) as (J1 & J2 & J3). destruct T as [L T].
  destruct e as [n time|n time]; cbn [apply_event about] in *; unfold nodeResponded, nodeNotResponded, bucketAt in *; rewrite nth_upd.
  - destruct (Nat.eqb_spec (Z.to_nat (getBucketId own i)) (Z.to_nat (getBucketId own (id n)))) as [E|N]; cbn [andb]; [|assumption]. destruct (Nat.ltb _ _); [|assumption]. rewrite <- E.
    apply responded_stays with own (Z.to_nat (getBucketId own i)); [assumption|now apply T|assumption].
  - destruct (Nat.eqb_spec (Z.to_nat (getBucketId own i)) (Z.to_nat (getBucketId own (id n)))) as [E|N]; cbn [andb]; [|assumption]. destruct (Nat.ltb _ _); [|assumption]. rewrite <- E.
    destruct A as (x & X1 & X2 & X3). exists x. split; [|auto]. apply failed_other with own (Z.to_nat (getBucketId own i)); [assumption|now apply T|assumption|]. cbn in NF. rewrite X2. auto.
Qed.

Lemma events_alive own es i : forall t, id_ok own -> Forall event_ok es -> table_ok own t -> Forall (not_failed i) es -> alive t i -> alive (after_events own es t) i.
Proof.
  induction es as [|e es IH]; intros t Ho F T NF A; [assumption|]. inversion F as [|? ? F1 F2]; subst. inversion NF as [|? ? N1 N2]; subst. cbn.
  apply IH; [assumption|assumption|now apply event_keeps|assumption|]. now apply event_alive.
Qed.

(** * Time *)

Definition times_ok (T : Z) (t : table) : Prop := forall i, blast (nth i t emptyBucket) <= T.

Lemma times_event own T t e : times_ok T t -> T <= time_of e -> times_ok (time_of e) (apply_event own t e).
Proof.
  intros H L i. destruct e as [n time|n time]; cbn [apply_event time_of] in *; unfold nodeResponded, nodeNotResponded, bucketAt; rewrite nth_upd;
    destruct (_ && _)%bool; try (specialize (H i); lia).
  - unfold bucketResponded. specialize (H (Z.to_nat (getBucketId own (id n)))). destruct (find _ (nodes _)); [cbn [blast]; lia|]. destruct (find _ (cache _)); [cbn [blast]; lia|]. destruct (Nat.ltb _ 8); cbn [blast]; lia.
  - unfold bucketNotResponded. specialize (H (Z.to_nat (getBucketId own (id n)))). destruct (find _ (nodes _)); [|lia]. destruct (_ <? blast _); [destruct (cache _); cbn [blast]; lia|cbn [blast]; lia].
Qed.

Fixpoint last_time (T : Z) (es : list event) : Z := match es with [] => T | e :: es' => last_time (time_of e) es' end.

Lemma times_events own es : forall T t, times_ok T t -> clock_ok T es -> times_ok (last_time T es) (after_events own es t).
Proof.
  induction es as [|e es IH]; intros T t H C; [assumption|]. destruct C as [C1 C2]. cbn. apply IH; [|assumption]. now apply times_event with T.
Qed.

Lemma clock_app es e : forall T, clock_ok T (es ++ [e]) -> clock_ok T es /\ last_time T es <= time_of e.
Proof.
  induction es as [|x es IH]; intros T H; [cbn in *; tauto|]. cbn in *. destruct H as [H1 H2]. destruct (IH _ H2). tauto.
Qed.

Lemma after_app own es e t : after_events own (es ++ [e]) t = apply_event own (after_events own es t) e.
Proof. unfold after_events. now rewrite fold_left_app. Qed.

Lemma failed_first own k b n time i : id_ok (id n) -> bucket_ok own k b -> bucket_alive b i -> blast b <= time -> 0 <= time < 2 ^ 63 -> exists x, In x (nodes (bucketNotResponded b n time)) /\ id (info x) = i.
Proof.
  intros Hn B (x & X1 & X2 & X3) L T. destruct (list_eq_dec Z.eq_dec i (id n)) as [->|N]; [|exists x; split; [apply failed_other with own k; congruence|assumption]].
  pose proof B as (_ & _ & _ & F). apply Forall_app in F. destruct F as [Fn Fc].
  assert (Gn : Forall (fun n => id_ok (id (info n))) (nodes b)) by (eapply Forall_impl; [|exact Fn]; intros ? [? ?]; assumption).
  unfold bucketNotResponded. destruct (find (id n) (nodes b)) as [j|] eqn:E1; [|exists x; auto]. destruct (find_some _ _ Hn Gn _ E1) as [Lj Ij].
  assert (E : nth j (nodes b) dummyNode = x) by (apply same_node with own k b; [assumption|now apply nth_In|assumption|congruence]). rewrite E, X3. cbn [lastupdate].
  unfold u64. rewrite Z.mod_small by (destruct (Nat.ltb 5 j); lia). destruct (Z.ltb_spec (time + (if (5 <? j)%nat then 0 else 900)) (blast b)); [destruct (Nat.ltb 5 j); lia|].
  cbn [nodes]. eexists. split; [apply in_upd_new; assumption|]. exact X2.
Qed.

(** * The closest nodes *)

Definition fam (v : bool) (n : node) : bool := active n && eqb (ipv6 (info n)) v.
Definition count (v : bool) (L : list node) : Z := zlen (filter (fam v) L).

(** The state after the nodes [L] were looked at. *)
Record picked (L : list node) (st : list nodeInfo * Z * Z) : Prop := {
  pk_v6 : filter (fun i => ipv6 i) (fst (fst st)) = map info (firstn 8 (filter (fam true) L));
  pk_v4 : filter (fun i => negb (ipv6 i)) (fst (fst st)) = map info (firstn 8 (filter (fam false) L));
  pk_c6 : Z.min 8 (snd (fst st)) = Z.min 8 (count true L);
  pk_c4 : Z.min 8 (snd st) = Z.min 8 (count false L)
}.

Lemma filter_parts (l : list nodeInfo) : zlen l = zlen (filter (fun i => ipv6 i) l) + zlen (filter (fun i => negb (ipv6 i)) l).
Proof. induction l as [|x l IH]; [reflexivity|]. cbn [filter]. destruct (ipv6 x); cbn [negb]; rewrite !zlen_cons, IH; lia. Qed.

Lemma picked_size L st : picked L st -> zlen (fst (fst st)) = Z.min 8 (count true L) + Z.min 8 (count false L).
Proof.
  intros [P1 P2 _ _]. rewrite filter_parts, P1, P2. unfold count, zlen. rewrite !map_length, !firstn_length. lia.
Qed.

Lemma firstn_full {A} n (a b : list A) : (n <= length a)%nat -> firstn n (a ++ b) = firstn n a.
Proof. intros H. rewrite firstn_app. replace (n - length a)%nat with 0%nat by lia. cbn. apply app_nil_r. Qed.

Lemma firstn_room {A} n (a : list A) x : (length a < n)%nat -> firstn n (a ++ [x]) = firstn n a ++ [x].
Proof. intros H. rewrite firstn_app. rewrite (firstn_all2 a) by lia. f_equal. destruct (n - length a)%nat eqn:E; [lia|]. cbn. now rewrite firstn_nil. Qed.

Lemma picked_one L st n : picked L st -> picked (L ++ [n]) (collectOne st n).
Proof.
  intros P. pose proof (picked_size _ _ P) as Sz. destruct st as [[out v6] v4]. destruct P as [P1 P2 P3 P4]. cbn [fst snd] in *. unfold collectOne.
  destruct (active n) eqn:A; cbn [andb].
  2:{ constructor; cbn [fst snd]; rewrite ?filter_app; unfold count; rewrite ?filter_app; cbn [filter]; unfold fam at 2; rewrite A; cbn [andb]; rewrite ?app_nil_r; assumption. }
  destruct (ipv6 (info n)) eqn:V6.
  - assert (F6 : filter (fam true) (L ++ [n]) = filter (fam true) L ++ [n]) by (rewrite filter_app; cbn [filter]; unfold fam at 2; now rewrite A, V6).
    assert (F4 : filter (fam false) (L ++ [n]) = filter (fam false) L) by (rewrite filter_app; cbn [filter]; unfold fam at 2; rewrite A, V6; cbn [eqb andb]; apply app_nil_r).
    assert (C6 : count true (L ++ [n]) = count true L + 1) by (unfold count; rewrite F6, zlen_app; reflexivity).
    assert (C4 : count false (L ++ [n]) = count false L) by (unfold count; now rewrite F4).
    unfold count in Sz, C6, C4, P3, P4. pose proof (zlen_nonneg (filter (fam true) L)). pose proof (zlen_nonneg (filter (fam false) L)).
    destruct (Z.ltb_spec (zlen out) 16) as [Lt|Ge]; [destruct (Z.ltb_spec v6 8) as [V|V]|]; constructor; cbn [fst snd]; rewrite ?F4, ?F6; unfold count; rewrite ?C6, ?C4; try assumption; try lia.
    + rewrite filter_app. cbn [filter]. rewrite V6, P1. rewrite firstn_room, map_app; [reflexivity|]. unfold zlen in *. lia.
    + rewrite filter_app. cbn [filter]. rewrite V6. cbn [negb]. now rewrite app_nil_r.
    + rewrite P1, firstn_full; [reflexivity|]. unfold zlen in *. lia.
    + rewrite P1, firstn_full; [reflexivity|]. unfold zlen in *. lia.
  - assert (F4 : filter (fam false) (L ++ [n]) = filter (fam false) L ++ [n]) by (rewrite filter_app; cbn [filter]; unfold fam at 2; now rewrite A, V6).
    assert (F6 : filter (fam true) (L ++ [n]) = filter (fam true) L) by (rewrite filter_app; cbn [filter]; unfold fam at 2; rewrite A, V6; cbn [eqb andb]; apply app_nil_r).
    assert (C4 : count false (L ++ [n]) = count false L + 1) by (unfold count; rewrite F4, zlen_app; reflexivity).
    assert (C6 : count true (L ++ [n]) = count true L) by (unfold count; now rewrite F6).
    unfold count in Sz, C6, C4, P3, P4. pose proof (zlen_nonneg (filter (fam true) L)). pose proof (zlen_nonneg (filter (fam false) L)).
    destruct (Z.ltb_spec (zlen out) 16) as [Lt|Ge]; [destruct (Z.ltb_spec v4 8) as [V|V]|]; constructor; cbn [fst snd]; rewrite ?F4, ?F6; unfold count; rewrite ?C6, ?C4; try assumption; try lia.
    + rewrite filter_app. cbn [filter]. rewrite V6. now rewrite app_nil_r.
    + rewrite filter_app. cbn [filter]. rewrite V6. cbn [negb]. rewrite P2. rewrite firstn_room, map_app; [reflexivity|]. unfold zlen in *. lia.
    + rewrite P2, firstn_full; [reflexivity|]. unfold zlen in *. lia.
    + rewrite P2, firstn_full; [reflexivity|]. unfold zlen in *. lia.
Qed.

Lemma picked_fold ns : forall L st, picked L st -> picked (L ++ ns) (fold_left collectOne ns st).
Proof.
  induction ns as [|n ns IH]; intros L st P; [now rewrite app_nil_r|]. cbn [fold_left]. replace (L ++ n :: ns) with ((L ++ [n]) ++ ns) by now rewrite <- app_assoc. apply IH. now apply picked_one.
Qed.

(** Once both families are full nothing more is taken. *)
Lemma picked_full L ns st : picked L st -> 16 <= zlen (fst (fst st)) -> picked (L ++ ns) st.
Proof.
  intros P H. pose proof (picked_size _ _ P) as Sz. destruct P as [P1 P2 P3 P4]. assert (8 <= count true L /\ 8 <= count false L) as [C6 C4] by lia.
  assert (X6 : count true (L ++ ns) >= count true L) by (unfold count; rewrite filter_app, zlen_app; pose proof (zlen_nonneg (filter (fam true) ns)); lia).
  assert (X4 : count false (L ++ ns) >= count false L) by (unfold count; rewrite filter_app, zlen_app; pose proof (zlen_nonneg (filter (fam false) ns)); lia).
  unfold count, zlen in *. constructor; unfold count, zlen; try lia.
  - rewrite P1, filter_app, firstn_full by lia. reflexivity.
  - rewrite P2, filter_app, firstn_full by lia. reflexivity.
Qed.

Lemma picked_collect t is : forall L st, picked L st -> picked (L ++ flat_map (fun i => nodes (nth i t emptyBucket)) is) (collect t is st).
Proof.
  induction is as [|i is IH]; intros L st P; [cbn; now rewrite app_nil_r|]. cbn [collect flat_map]. destruct st as [[out v6] v4] eqn:E. rewrite <- E in *.
  destruct (Z.ltb_spec (zlen out) 16) as [Lt|Ge].
  - rewrite app_assoc. apply IH. now apply picked_fold.
  - apply picked_full; [assumption|]. rewrite E. exact Ge.
Qed.

(** The nodes in the order they are looked at. *)
Definition visit (t : table) (s : nat) : list node := flat_map (fun i => nodes (nth i t emptyBucket)) (rev (seq 1 s) ++ seq (S s) (159 - s)).

Lemma closest_picked own t target : picked (visit t (Z.to_nat (getBucketId own target))) (getClosestNodes own t target, count true (visit t (Z.to_nat (getBucketId own target))), count false (visit t (Z.to_nat (getBucketId own target)))).
Proof.
  unfold getClosestNodes. set (s := Z.to_nat (getBucketId own target)).
  assert (P0 : picked [] ([], 0, 0)) by (constructor; reflexivity).
  apply (picked_collect t (rev (seq 1 s))) in P0. apply (picked_collect t (seq (S s) (159 - s))) in P0. cbn [app] in P0. rewrite <- flat_map_app in P0. fold (visit t s) in P0.
  destruct (collect t (seq (S s) (159 - s)) (collect t (rev (seq 1 s)) ([], 0, 0))) as [[out v6] v4]. destruct P0 as [P1 P2 P3 P4]. constructor; cbn [fst snd] in *; auto.
Qed.
