(** C31: the routing table stays well formed.  C32: closest nodes. *)
From Coq Require Import Sorting.Sorted.
From Verif Require Import Base BaseLemmas NodeModel NodeSpec NodeProofs NodeProps TableModel TableSpec TableProofs TableProofs2 TableProofs3.

(** After any events every bucket holds at most 8 nodes and 8 replacements, no id twice, each in
    the bucket of its distance. *)
Theorem C31_well_formed : forall own es, id_ok own -> Forall event_ok es -> table_ok own (after_events own es emptyTable).
Proof. intros own es Ho F. apply events_keep; [assumption|assumption|apply empty_ok]. Qed.
Print Assumptions C31_well_formed.

(** A node stays, as active, as long as it does not fail, whatever other nodes do. *)
Theorem C31_responding_stay : forall own t es i, id_ok own -> table_ok own t -> Forall event_ok es -> Forall (not_failed i) es ->
  alive t i -> alive (after_events own es t) i.
Proof. intros. now apply events_alive. Qed.
Print Assumptions C31_responding_stay.

(** One failure does not remove a node that answered before. *)
Theorem C31_first_failure : forall own es n time, id_ok own -> Forall event_ok (es ++ [Failed n time]) -> clock_ok 0 (es ++ [Failed n time]) ->
  alive (after_events own es emptyTable) (id n) -> has_id (after_events own (es ++ [Failed n time]) emptyTable) (id n).
Proof.
  intros own es n time Ho F C A. apply Forall_app in F. destruct F as [F1 F2]. inversion F2 as [|? ? [Hn Ht] _]; subst. cbn [about time_of] in *.
  assert (T : table_ok own (after_events own es emptyTable)) by (apply events_keep; [assumption|assumption|apply empty_ok]).
  apply clock_app in C. destruct C as [C1 C2]. cbn [time_of] in C2.
  assert (B : times_ok (last_time 0 es) (after_events own es emptyTable)) by (apply times_events; [intros i; unfold emptyTable; rewrite nth_repeat; cbn; lia|assumption]).
  apply (alive_iff own) in A; [|assumption|assumption]. destruct A as [A _]. rewrite after_app. cbn [apply_event]. unfold nodeNotResponded.
  pose proof (bucketId_spec own _ Ho Hn) as (K1 & K2 & K3). specialize (B (Z.to_nat (getBucketId own (id n)))).
  destruct (failed_first own (Z.to_nat (getBucketId own (id n))) (bucketAt (after_events own es emptyTable) (getBucketId own (id n))) n time (id n)) as (x & X1 & X2).
  - assumption.
  - apply T. assumption.
  - assumption.
  - unfold bucketAt. lia.
  - lia.
  - exists x. split; [|assumption]. exists (Z.to_nat (getBucketId own (id n))). split; [assumption|]. rewrite nth_upd_same; [assumption|]. destruct T as [L _]. lia.
Qed.
Print Assumptions C31_first_failure.

Definition nod (v : Z) (v6 : bool) : nodeInfo := {| id := id_of v; addrBytes := be 16 v; port := v mod 65536; ipv6 := v6 |}.

Example C31_meets : let es := map (fun k => Responded (nod (1024 + Z.of_nat k) false) (100 + Z.of_nat k)) (seq 0 18) ++ [Failed (nod 1026 false) 200] in
  let t := after_events (id_of 5) es emptyTable in
  length (nodes (nth 10 t emptyBucket)) = 8%nat /\ length (cache (nth 10 t emptyBucket)) = 8%nat /\
  map (fun n => id (info n)) (filter (fun n => negb (active n)) (nodes (nth 10 t emptyBucket))) = [id_of 1026] /\
  clock_ok 0 es.
Proof. vm_compute. repeat split; discriminate. Qed.

(** Finding: the responder adds whatever id a query claims, even this client's own, which is no
    node to route to. *)
Theorem C31_own_id_refuted : forall own, id_ok own -> let n := {| id := own; addrBytes := []; port := 0; ipv6 := false |} in
  has_id (after_events own [Responded n 1] emptyTable) own /\ isValidNode own own = false.
Proof.
  intros own Ho n. split.
  - assert (B : getBucketId own own = 0) by (unfold getBucketId; rewrite idLength_dist by assumption; unfold xor_dist; now rewrite Z.lxor_nilpotent).
    cbn [after_events fold_left apply_event]. unfold nodeResponded. cbn [id n]. rewrite B. eexists. split; [exists 0%nat; split; [lia|]|].
    + change (Z.to_nat 0) with 0%nat. rewrite nth_upd_same by (cbn; lia). unfold bucketAt. change (nth (Z.to_nat 0) emptyTable emptyBucket) with emptyBucket. left. reflexivity.
    + reflexivity.
  - unfold isValidNode. replace (forallb (fun i => nth i own 0 =? nth i own 0) (seq 0 20)) with true; [reflexivity|]. symmetry. apply forallb_forall. intros x _. apply Z.eqb_refl.
Qed.
Print Assumptions C31_own_id_refuted.

(** At most 8 nodes of each family, all of them active nodes of the table. *)
Theorem C32_bounded : forall own t target, id_ok own -> id_ok target -> table_ok own t ->
  zlen (filter (fun i => ipv6 i) (getClosestNodes own t target)) <= 8 /\
  zlen (filter (fun i => negb (ipv6 i)) (getClosestNodes own t target)) <= 8 /\
  Forall (fun i => exists n, in_table t n /\ active n = true /\ info n = i) (getClosestNodes own t target).
Proof.
  intros own t target Ho Ht T. pose proof (bucketId_spec own _ Ho Ht) as (K1 & K2 & K3). destruct (closest_picked own t target) as [P1 P2 _ _]. cbn [fst snd] in *.
  rewrite P1, P2. unfold zlen. rewrite !map_length, !firstn_length. split; [lia|]. split; [lia|].
  destruct (closest_part own t target) as (M & Pm & E & F). rewrite E. apply Forall_forall. intros i Hi. apply in_map_iff in Hi. destruct Hi as (n & <- & Hn). exists n.
  rewrite Forall_forall in F. split; [|auto]. apply (part_in _ _ _ Pm) in Hn. apply (visit_in own t _ n Ho T K1) in Hn. tauto.
Qed.
Print Assumptions C32_bounded.

(** Nodes come in the order of the top bit of their distance to the target, where all nodes closer
    to the target than this client come first. *)
Theorem C32_order : forall own t target o1 a o2 b o3 k, id_ok own -> id_ok target -> table_ok own t ->
  getClosestNodes own t target = o1 ++ a :: o2 ++ b :: o3 ->
  0 <= k -> xor_dist own target < 2 ^ (k + 1) -> xor_dist (id b) target < 2 ^ k -> xor_dist (id a) target < 2 ^ k.
Proof.
  intros own t target o1 a o2 b o3 k Ho Ht T E K Sd D. pose proof (bucketId_spec own _ Ho Ht) as (K1 & K2 & K3).
  destruct (closest_part own t target) as (M & Pm & Em & _). rewrite Em in E.
  pose proof (part_sorted _ _ _ Pm (visit_sorted own t target _ Ho Ht T K3 K1)) as Sm.
  apply map_eq_app in E. destruct E as (m1 & m2 & -> & <- & E). destruct m2 as [|xa m2]; [discriminate|]. cbn [map] in E. injection E as <- E.
  apply map_eq_app in E. destruct E as (m3 & m4 & -> & <- & E). destruct m4 as [|xb m4]; [discriminate|]. cbn [map] in E. injection E as <- E.
  assert (R : before (Z.of_nat (Z.to_nat (getBucketId own target))) target xa xb).
  { apply (sorted_split _ (S (length m1)) _ xa xb Sm).
    - rewrite firstn_app. apply in_or_app. right. replace (S (length m1) - length m1)%nat with 1%nat by lia. now left.
    - rewrite skipn_app. apply in_or_app. right. replace (S (length m1) - length m1)%nat with 1%nat by lia. cbn. apply in_or_app. right. now left. }
  apply (R k); [|assumption]. destruct K3 as [K3|[_ K3]]; [|lia]. destruct (Z.le_gt_cases (Z.of_nat (Z.to_nat (getBucketId own target))) k) as [|G]; [assumption|]. exfalso.
  assert (2 ^ (k + 1) <= 2 ^ Z.of_nat (Z.to_nat (getBucketId own target))) by (apply Z.pow_le_mono_r; lia). lia.
Qed.
Print Assumptions C32_order.

(** An active node is left out only if 8 nodes of its family were returned and none of these is
    farther by the top bit of the distance. Missing: nodes that differ from this client's id in the
    last bit only. *)
Theorem C32_nothing_closer_partial : forall own t target n, id_ok own -> id_ok target -> table_ok own t ->
  in_table t n -> active n = true -> 2 <= xor_dist own (id (info n)) -> ~ In (info n) (getClosestNodes own t target) ->
  let same := filter (fun i => eqb (ipv6 i) (ipv6 (info n))) (getClosestNodes own t target) in
  length same = 8%nat /\
  forall a k, In a same -> 0 <= k -> xor_dist own target < 2 ^ (k + 1) -> xor_dist (id (info n)) target < 2 ^ k -> xor_dist (id a) target < 2 ^ k.
Proof.
  intros own t target n Ho Ht T Hn A D N same. pose proof (bucketId_spec own _ Ho Ht) as (K1 & K2 & K3). pose proof (visit_sorted own t target _ Ho Ht T K3 K1) as Sv.
  destruct (closest_picked own t target) as [P1 P2 _ _]. cbn [fst snd] in *. set (V := visit t (Z.to_nat (getBucketId own target))) in *.
  assert (E : same = map info (firstn 8 (filter (fam (ipv6 (info n))) V))).
  { unfold same. destruct (ipv6 (info n)).
    - rewrite <- P1. apply filter_ext. intros i. now destruct (ipv6 i).
    - rewrite <- P2. apply filter_ext. intros i. now destruct (ipv6 i). }
  assert (Hv : In n (filter (fam (ipv6 (info n))) V)).
  { apply filter_In. split; [apply (visit_in own t _ n Ho T K1); auto|]. unfold fam. rewrite A. now rewrite eqb_reflx. }
  assert (Hs : In n (skipn 8 (filter (fam (ipv6 (info n))) V))).
  { rewrite <- (firstn_skipn 8 (filter (fam (ipv6 (info n))) V)) in Hv. apply in_app_or in Hv. destruct Hv as [Hv|Hv]; [|assumption]. exfalso. apply N.
    apply (in_map info) in Hv. rewrite <- E in Hv. unfold same in Hv. apply filter_In in Hv. tauto. }
  split.
  - rewrite E, map_length, firstn_length. assert (skipn 8 (filter (fam (ipv6 (info n))) V) <> []) by (intros Q; rewrite Q in Hs; inversion Hs).
    destruct (Nat.le_gt_cases 8 (length (filter (fam (ipv6 (info n))) V))); [lia|]. rewrite skipn_all2 in Hs by lia. inversion Hs.
  - intros a k Ha K S Dn. rewrite E in Ha. apply in_map_iff in Ha. destruct Ha as (x & <- & Hx).
    assert (R : before (Z.of_nat (Z.to_nat (getBucketId own target))) target x n) by (apply (sorted_split _ 8 _ x n (filter_sorted _ (fam (ipv6 (info n))) _ Sv)); assumption).
    apply (R k); [|assumption]. destruct K3 as [K3|[_ K3]]; [|lia]. destruct (Z.le_gt_cases (Z.of_nat (Z.to_nat (getBucketId own target))) k) as [|G]; [assumption|]. exfalso.
    assert (2 ^ (k + 1) <= 2 ^ Z.of_nat (Z.to_nat (getBucketId own target))) by (apply Z.pow_le_mono_r; lia). lia.
Qed.
Print Assumptions C32_nothing_closer_partial.

(** Finding: the nearest possible neighbour is never returned, not even for itself. *)
Theorem C32_neighbour_refuted : forall own n target time, id_ok own -> id_ok target -> id_ok (id n) -> xor_dist own (id n) < 2 ->
  getClosestNodes own (after_events own [Responded n time] emptyTable) target = [].
Proof.
  intros own n target time Ho Ht Hn D. set (t := after_events own [Responded n time] emptyTable).
  pose proof (bucketId_spec own _ Ho Ht) as (K1 & K2 & K3). destruct (closest_part own t target) as (M & Pm & E & _). rewrite E.
  assert (B : getBucketId own (id n) = 0) by (unfold getBucketId; rewrite idLength_dist by assumption; apply Z.log2_null; lia).
  destruct M as [|x M]; [reflexivity|]. exfalso. assert (Hx : In x (visit t (Z.to_nat (getBucketId own target)))) by (apply (part_in _ _ _ Pm); now left).
  unfold visit in Hx. apply in_flat_map in Hx. destruct Hx as (i & Hi & Hx). change (In i (indices (Z.to_nat (getBucketId own target)))) in Hi. apply (indices_in _ i K1) in Hi.
  unfold t in Hx. cbn [after_events fold_left apply_event] in Hx. unfold nodeResponded in Hx. rewrite B in Hx. change (Z.to_nat 0) with 0%nat in Hx. rewrite nth_upd_other in Hx by lia.
  unfold emptyTable in Hx. rewrite nth_repeat in Hx. inversion Hx.
Qed.
Print Assumptions C32_neighbour_refuted.

Example C32_meets : let t := after_events (id_of 5) (map (fun k => Responded (nod (64 + 8 * Z.of_nat k) (Nat.even k)) 1) (seq 0 40)) emptyTable in
  length (filter (fun i => ipv6 i) (getClosestNodes (id_of 5) t (id_of 200))) = 8%nat /\
  length (filter (fun i => negb (ipv6 i)) (getClosestNodes (id_of 5) t (id_of 200))) = 8%nat.
Proof. vm_compute. auto. Qed.

(** The nodes asked again at a refresh are exactly those which failed last or have not been heard
    of for 15 minutes. *)
Theorem C31_refreshed : forall own es now i, id_ok own -> Forall event_ok es ->
  (forall n, in_table (after_events own es emptyTable) n -> 0 <= lastupdate n < 2 ^ 63) ->
  (In i (getInactiveNodes (after_events own es emptyTable) now) <->
   exists n, in_table (after_events own es emptyTable) n /\ info n = i /\ (active n = false \/ lastupdate n + 900 < now)).
Proof.
  intros own es now i Ho He Ht. destruct (C31_well_formed own es Ho He) as [L _]. unfold getInactiveNodes.
  set (t := after_events own es emptyTable) in *. rewrite in_flat_map. split.
  - intros (b & Hb & Hi). apply in_map_iff in Hi. destruct Hi as (n & E & Hn). apply filter_In in Hn. destruct Hn as [Hn Q].
    assert (T : in_table t n).
    { apply (In_nth _ _ emptyBucket) in Hb. destruct Hb as (k & Hk & E2). exists k. split; [lia|]. now rewrite E2. }
    exists n. split; [assumption|]. split; [assumption|]. specialize (Ht n T). apply Bool.orb_true_iff in Q. destruct Q as [Q|Q].
    + left. now destruct (active n).
    + right. unfold u64 in Q. rewrite Z.mod_small in Q by lia. lia.
  - intros (n & T & E & Q). pose proof (Ht n T) as B. destruct T as (k & Hk & Hn). exists (nth k t emptyBucket).
    split; [apply nth_In; lia|]. apply in_map_iff. exists n. split; [assumption|]. apply filter_In. split; [assumption|].
    apply Bool.orb_true_iff. destruct Q as [Q|Q]; [left; now rewrite Q|right]. unfold u64. rewrite Z.mod_small by lia. lia.
Qed.
Print Assumptions C31_refreshed.

Example C31_refreshed_example : let n := {| id := repeat 1 20; addrBytes := [1; 2; 3; 4]; port := 5; ipv6 := false |} in
  getInactiveNodes (after_events (repeat 0 20) [Responded n 100] emptyTable) 1000 = [] /\
  getInactiveNodes (after_events (repeat 0 20) [Responded n 100] emptyTable) 1001 = [n] /\
  getInactiveNodes (after_events (repeat 0 20) [Responded n 100; Failed n 200] emptyTable) 300 = [n].
Proof. vm_compute. repeat split; reflexivity. Qed.
