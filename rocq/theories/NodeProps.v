(** C30: node distance is the XOR metric. *)
From Verif Require Import Base BaseLemmas NodeModel NodeSpec NodeProofs.

Theorem C30_distance : forall a b, id_ok a -> id_ok b -> id_ok (distance a b) /\ id_value (distance a b) = xor_dist a b.
Proof. intros a b Ha Hb. split; [now apply distance_ok|now apply distance_value]. Qed.
Print Assumptions C30_distance.

(** The bucket number is the position of the top differing bit, below 160. *)
Theorem C30_bucket : forall own id, id_ok own -> id_ok id ->
  0 <= idLength (distance own id) < 160 /\ forall k, 0 <= k -> (idLength (distance own id) = k <-> top_bit (xor_dist own id) k).
Proof.
  intros own id Ho Hi. rewrite idLength_dist by assumption. split; [now apply log2_range|]. intros k K. split.
  - intros <-. apply top_bit_log2. now apply xor_dist_range.
  - intros H. now apply top_bit_unique.
Qed.
Print Assumptions C30_bucket.

(** The order used for the candidates is the order of the values. *)
Theorem C30_order : forall a b, id_ok a -> id_ok b -> (idLess a b = true <-> id_value a < id_value b).
Proof. intros a b Ha Hb. rewrite idLess_value by assumption. apply Z.ltb_lt. Qed.
Print Assumptions C30_order.

(** A node counts as closer exactly when its distance is smaller; missing: when the node is the
    target or differs from it in the last bit only. *)
Theorem C30_closer_partial : forall id other target, id_ok id -> id_ok other -> id_ok target -> 2 <= xor_dist id target ->
  (closerThan id other target = true <-> xor_dist id target < xor_dist other target).
Proof.
  intros id other target Hi Ho Ht D. unfold closerThan, closerToNodeThan. rewrite idLength_dist by assumption.
  assert (L : 0 < Z.log2 (xor_dist id target)) by (apply Z.log2_pos; lia). destruct (Z.eqb_spec (Z.log2 (xor_dist id target)) 0); [lia|]. cbn [negb].
  change (lessLoop 20 0 (distance id target) (distance other target)) with (idLess (distance id target) (distance other target)).
  rewrite idLess_value, !distance_value by (try apply distance_ok; assumption). apply Z.ltb_lt.
Qed.
Print Assumptions C30_closer_partial.

(** A node never counts as closer without being so. *)
Theorem C30_closer_sound : forall id other target, id_ok id -> id_ok other -> id_ok target ->
  closerThan id other target = true -> xor_dist id target < xor_dist other target.
Proof.
  intros id other target Hi Ho Ht. unfold closerThan, closerToNodeThan. destruct (idLength (distance id target) =? 0); [discriminate|]. cbn [negb].
  change (lessLoop 20 0 (distance id target) (distance other target)) with (idLess (distance id target) (distance other target)).
  rewrite idLess_value, !distance_value by (try apply distance_ok; assumption). apply Z.ltb_lt.
Qed.
Print Assumptions C30_closer_sound.

(** Finding: the target itself and its nearest neighbour never count as closer than anything. *)
Theorem C30_nearest_refuted : forall id other target, id_ok id -> id_ok other -> id_ok target -> xor_dist id target < 2 ->
  closerThan id other target = false.
Proof.
  intros id other target Hi Ho Ht D. unfold closerThan, closerToNodeThan. rewrite idLength_dist by assumption. pose proof (xor_dist_range id target Hi Ht).
  assert (E : Z.log2 (xor_dist id target) = 0) by (apply Z.log2_null; lia). rewrite E. reflexivity.
Qed.
Print Assumptions C30_nearest_refuted.

Definition id_of (v : Z) : list Z := be 20 v.
Lemma id_of_ok v : id_ok (id_of v).
Proof. split; [apply be_length|apply be_bytes]. Qed.

Example C30_meets : closerThan (id_of 1000) (id_of 70000) (id_of 70001) = false /\ closerThan (id_of 1003) (id_of 70000) (id_of 1000) = true /\
  closerThan (id_of 1001) (id_of 70000) (id_of 1000) = false /\ idLength (distance (id_of 1003) (id_of 1000)) = 1.
Proof. vm_compute. auto. Qed.
