From Verif Require Import Base BaseLemmas NodeModel NodeSpec NodeProofs TableModel TableSpec.

Lemma idEq_spec a b : id_ok a -> id_ok b -> (idEq a b = true <-> a = b).
Proof.
  intros [La _] [Lb _]. unfold idEq. rewrite (firstn_all2 a) by lia. rewrite (firstn_all2 b) by lia. apply list_eqb_spec.
Qed.

Lemma find_some i ns : id_ok i -> Forall (fun n => id_ok (id (info n))) ns -> forall k, find i ns = Some k ->
  (k < length ns)%nat /\ id (info (nth k ns dummyNode)) = i.
Proof.
  intros Hi. induction ns as [|n ns IH]; intros F k H; [discriminate|]. inversion F as [|? ? F1 F2]; subst. cbn [find] in H.
  destruct (idEq (id (info n)) i) eqn:E.
  - injection H as <-. apply idEq_spec in E; [|assumption|assumption]. cbn. split; [lia|assumption].
  - destruct (find i ns) as [j|] eqn:Fj; [|discriminate]. injection H as <-. destruct (IH F2 j eq_refl) as [A B]. cbn [length nth]. split; [lia|assumption].
Qed.

Lemma find_none i ns : id_ok i -> Forall (fun n => id_ok (id (info n))) ns -> find i ns = None -> ~ In i (ids ns).
Proof.
  intros Hi. induction ns as [|n ns IH]; intros F H; [intros []|]. inversion F as [|? ? F1 F2]; subst. cbn [find] in H. cbn [ids map In].
  destruct (idEq (id (info n)) i) eqn:E; [discriminate|]. destruct (find i ns); [discriminate|].
  intros [Q|Q]; [apply idEq_spec in Q; [congruence|assumption|assumption]|now apply (IH F2 eq_refl)].
Qed.

Lemma ids_upd k n ns : id (info n) = id (info (nth k ns dummyNode)) -> ids (upd k n ns) = ids ns.
Proof.
  revert k. induction ns as [|x ns IH]; intros [|k] H; try reflexivity; cbn [upd ids map nth] in *; [now rewrite H|]. unfold ids in IH. now rewrite IH.
Qed.

Lemma ids_app a b : ids (a ++ b) = ids a ++ ids b.
Proof. apply map_app. Qed.

Lemma nodup_erase {A} k (l : list A) : NoDup l -> NoDup (erase k l).
Proof.
  unfold erase. revert k. induction l as [|x l IH]; intros k H; [destruct k; constructor|]. inversion H as [|? ? H1 H2]; subst. destruct k as [|k]; [exact H2|].
  cbn [firstn skipn app]. constructor; [|apply IH; assumption]. intros Q. apply H1. apply in_app_or in Q. rewrite <- (firstn_skipn (S k) l).
  destruct Q as [Q|Q]; [apply in_or_app; left; rewrite <- (firstn_skipn k (firstn (S k) l)); apply in_or_app; left; rewrite firstn_firstn; now rewrite Nat.min_l by lia|].
  apply in_or_app. right. exact Q.
Qed.

Lemma in_erase {A} k (l : list A) x : In x (erase k l) -> In x l.
Proof.
  unfold erase. intros H. apply in_app_or in H. destruct H as [H|H].
  - rewrite <- (firstn_skipn k l). apply in_or_app. now left.
  - rewrite <- (firstn_skipn (S k) l). apply in_or_app. now right.
Qed.

Lemma erase_map {A B} (f : A -> B) k l : map f (erase k l) = erase k (map f l).
Proof. unfold erase. now rewrite map_app, firstn_map, skipn_map. Qed.

Lemma erase_length {A} k (l : list A) : (k < length l)%nat -> length (erase k l) = (length l - 1)%nat.
Proof. intros H. unfold erase. rewrite app_length, firstn_length, skipn_length. lia. Qed.

Lemma erase_app {A} k (a b : list A) : (k < length a)%nat -> erase k (a ++ b) = erase k a ++ b.
Proof.
  intros H. unfold erase. rewrite firstn_app, skipn_app. replace (k - length a)%nat with 0%nat by lia. replace (S k - length a)%nat with 0%nat by lia.
  cbn [firstn skipn]. now rewrite app_nil_r, app_assoc.
Qed.

Definition node_in (own : list Z) (i : nat) (n : node) : Prop := id_ok (id (info n)) /\ top_bit (xor_dist own (id (info n))) (Z.of_nat i).

Lemma Forall_erase {A} (P : A -> Prop) k l : Forall P l -> Forall P (erase k l).
Proof. intros H. rewrite Forall_forall in *. intros x Hx. apply H. now apply in_erase in Hx. Qed.

Lemma Forall_nth_d {A} (P : A -> Prop) k l d : Forall P l -> (k < length l)%nat -> P (nth k l d).
Proof. intros H L. rewrite Forall_forall in H. apply H. now apply nth_In. Qed.

Lemma responded_ok own i b n time : id_ok (id n) -> top_bit (xor_dist own (id n)) (Z.of_nat i) -> bucket_ok own i b -> bucket_ok own i (bucketResponded b n time).
Proof.
  intros Hn Ht (L1 & L2 & D & F). pose proof F as F'. fold (node_in own i) in F. apply Forall_app in F. destruct F as [Fn Fc].
  assert (Gn : Forall (fun n => id_ok (id (info n))) (nodes b)) by (eapply Forall_impl; [|exact Fn]; intros ? [? ?]; assumption).
  assert (Gc : Forall (fun n => id_ok (id (info n))) (cache b)) by (eapply Forall_impl; [|exact Fc]; intros ? [? ?]; assumption).
  unfold bucketResponded. destruct (find (id n) (nodes b)) as [k|] eqn:E1; [|destruct (find (id n) (cache b)) as [k|] eqn:E2].
  - destruct (find_some _ _ Hn Gn _ E1) as [Lk Ik]. unfold bucket_ok. cbn [nodes cache]. rewrite upd_length, ids_upd by reflexivity.
    refine (conj L1 (conj L2 (conj D _))). apply Forall_app. split; [|assumption]. apply Forall_upd; [assumption|]. exact (Forall_nth_d _ _ _ dummyNode Fn Lk).
  - destruct (find_some _ _ Hn Gc _ E2) as [Lk Ik]. unfold bucket_ok. cbn [nodes cache]. rewrite upd_length, ids_upd by reflexivity.
    refine (conj L1 (conj L2 (conj D _))). apply Forall_app. split; [assumption|]. apply Forall_upd; [assumption|]. exact (Forall_nth_d _ _ _ dummyNode Fc Lk).
  - pose proof (find_none _ _ Hn Gn E1) as N1. pose proof (find_none _ _ Hn Gc E2) as N2. destruct (Nat.ltb_spec (length (nodes b)) 8) as [Lt|Ge].
    + unfold bucket_ok. cbn [nodes cache]. rewrite app_length. cbn [length]. refine (conj _ (conj L2 (conj _ _))); [lia| |].
      * rewrite ids_app. cbn [ids map info]. rewrite <- app_assoc. cbn [app]. apply NoDup_Add with (a := id n) (l := ids (nodes b) ++ ids (cache b)); [apply Add_app|]. split; [assumption|].
        intros Q. apply in_app_or in Q. tauto.
      * rewrite <- app_assoc. apply Forall_app. split; [assumption|]. constructor; [|assumption]. cbn [info]. auto.
    + unfold bucket_ok. cbn [nodes cache]. destruct (Nat.ltb_spec (length (cache b)) 8) as [Lt|Ge2].
      * rewrite app_length. cbn [length]. refine (conj L1 (conj _ (conj _ _))); [lia| |].
        -- rewrite ids_app. cbn [ids map info]. rewrite app_assoc. apply NoDup_Add with (a := id n) (l := ids (nodes b) ++ ids (cache b)); [rewrite <- (app_nil_r (ids (nodes b) ++ ids (cache b))) at 1; apply Add_app|].
           split; [assumption|]. intros Q. apply in_app_or in Q. tauto.
        -- rewrite app_assoc. apply Forall_app. split; [assumption|]. constructor; [|constructor]. cbn [info]. auto.
      * rewrite upd_length. refine (conj L1 (conj L2 (conj _ _))).
        -- assert (C : exists c0 x, cache b = c0 ++ [x]). { destruct (cache b) as [|y c]; [cbn in Ge2; lia|]. exists (removelast (y :: c)), (last (y :: c) dummyNode). apply app_removelast_last. discriminate. }
           destruct C as (c0 & x & C). rewrite C in *. rewrite app_length. cbn [length]. replace (length c0 + 1 - 1)%nat with (length c0 + 0)%nat by lia. rewrite upd_app_r. cbn [upd].
           rewrite ids_app in *. cbn [ids map info] in *. rewrite app_assoc in *. apply NoDup_remove in D. destruct D as [D _]. rewrite app_nil_r in D.
           apply NoDup_Add with (a := id n) (l := ids (nodes b) ++ ids c0); [rewrite <- (app_nil_r (ids (nodes b) ++ ids c0)) at 1; apply Add_app|]. split; [assumption|].
           intros Q. apply in_app_or in Q. destruct Q as [Q|Q]; [contradiction|]. apply N2. apply in_or_app. now left.
        -- apply Forall_app. split; [assumption|]. apply Forall_upd; [assumption|]. cbn [info]. auto.
Qed.

Lemma failed_ok own i b n time : id_ok (id n) -> bucket_ok own i b -> bucket_ok own i (bucketNotResponded b n time).
Proof.
  intros Hn B. pose proof B as (L1 & L2 & D & F). fold (node_in own i) in F. apply Forall_app in F. destruct F as [Fn Fc].
  assert (Gn : Forall (fun n => id_ok (id (info n))) (nodes b)) by (eapply Forall_impl; [|exact Fn]; intros ? [? ?]; assumption).
  unfold bucketNotResponded. destruct (find (id n) (nodes b)) as [k|] eqn:E1; [|assumption]. destruct (find_some _ _ Hn Gn _ E1) as [Lk Ik].
  set (it := nth k (nodes b) dummyNode) in *. set (it' := if active it then _ else it).
  assert (Iid : id (info it') = id (info it)) by (unfold it'; destruct (active it); reflexivity).
  assert (Nit : node_in own i it') by (unfold node_in; rewrite Iid; exact (Forall_nth_d _ _ _ dummyNode Fn Lk)).
  assert (E : ids (upd k it' (nodes b)) = ids (nodes b)) by (apply ids_upd; exact Iid).
  assert (Fu : Forall (node_in own i) (upd k it' (nodes b))) by now apply Forall_upd.
  destruct (_ <? blast b).
  - destruct (cache b) as [|c cs] eqn:C; unfold bucket_ok; cbn [nodes cache].
    + rewrite erase_length by now rewrite upd_length. rewrite upd_length. refine (conj _ (conj L2 (conj _ _))); [lia| |].
      * cbn [ids map]. rewrite app_nil_r. unfold ids. rewrite erase_map. fold (ids (upd k it' (nodes b))). rewrite E. apply nodup_erase. cbn [ids map] in D. now rewrite app_nil_r in D.
      * rewrite app_nil_r. now apply Forall_erase.
    + rewrite app_length, erase_length by now rewrite upd_length. rewrite upd_length. cbn [length] in *. refine (conj _ (conj _ (conj _ _))); [lia|lia| |].
      * rewrite ids_app, <- app_assoc. unfold ids at 1. rewrite erase_map. fold (ids (upd k it' (nodes b))). rewrite E. change (ids [c] ++ ids cs) with (ids (c :: cs)).
        rewrite <- erase_app by (unfold ids; now rewrite map_length). apply nodup_erase. exact D.
      * rewrite <- app_assoc. apply Forall_app. split; [now apply Forall_erase|exact Fc].
  - unfold bucket_ok. cbn [nodes cache]. rewrite upd_length, E. refine (conj L1 (conj L2 (conj D _))). apply Forall_app. split; assumption.
Qed.

Lemma empty_ok own : table_ok own emptyTable.
Proof.
  split; [reflexivity|]. intros i Hi. unfold emptyTable. rewrite nth_repeat. unfold bucket_ok. cbn. repeat split; try lia; constructor.
Qed.

Lemma bucketId_spec own i : id_ok own -> id_ok i -> let k := Z.to_nat (getBucketId own i) in (k < 160)%nat /\ Z.of_nat k = getBucketId own i /\ top_bit (xor_dist own i) (Z.of_nat k).
Proof.
  intros Ho Hi k. pose proof (log2_range own i Ho Hi). unfold k, getBucketId. rewrite idLength_dist by assumption. rewrite Z2Nat.id by lia. refine (conj _ (conj eq_refl _)); [lia|]. apply top_bit_log2. now apply xor_dist_range.
Qed.

Lemma event_keeps own t e : id_ok own -> event_ok e -> table_ok own t -> table_ok own (apply_event own t e).
Proof.
  intros Ho He [L T]. assert (Hi : id_ok (id (about e))) by apply He. pose proof (bucketId_spec own _ Ho Hi) as (B1 & B2 & B3).
  destruct e as [n time|n time]; cbn [apply_event about] in *; unfold nodeResponded, nodeNotResponded, bucketAt; (split; [now rewrite upd_length|]); intros i Li; rewrite nth_upd.
  - destruct (Nat.eqb_spec i (Z.to_nat (getBucketId own (id n)))) as [->|N]; cbn [andb]; [|now apply T]. destruct (Nat.ltb_spec (Z.to_nat (getBucketId own (id n))) (length t)); [|lia]. apply responded_ok; [assumption|assumption|now apply T].
  - destruct (Nat.eqb_spec i (Z.to_nat (getBucketId own (id n)))) as [->|N]; cbn [andb]; [|now apply T]. destruct (Nat.ltb_spec (Z.to_nat (getBucketId own (id n))) (length t)); [|lia]. apply failed_ok; [assumption|now apply T].
Qed.

Lemma events_keep own es : forall t, id_ok own -> Forall event_ok es -> table_ok own t -> table_ok own (after_events own es t).
Proof.
  induction es as [|e es IH]; intros t Ho F T; [assumption|]. inversion F as [|? ? F1 F2]; subst. cbn. apply IH; [assumption|assumption|]. now apply event_keeps.
Qed.
