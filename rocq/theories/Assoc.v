(** Maps from integers as association lists: std::map and unordered_map of the sources, where the
    order of the entries does not matter. *)
From Verif Require Import Base.

Section Assoc.
Context {A : Type}.

(** find *)
Fixpoint aget (k : Z) (m : list (Z * A)) : option A :=
  match m with [] => None | (k', v) :: m' => if k' =? k then Some v else aget k m' end.

(** operator[] and assignment *)
Fixpoint aset (k : Z) (v : A) (m : list (Z * A)) : list (Z * A) :=
  match m with [] => [(k, v)] | (k', v') :: m' => if k' =? k then (k, v) :: m' else (k', v') :: aset k v m' end.

(** erase *)
Definition adel (k : Z) (m : list (Z * A)) : list (Z * A) := filter (fun e => negb (fst e =? k)) m.

Lemma aget_set_same k v m : aget k (aset k v m) = Some v.
Proof. induction m as [|[k' v'] m IH]; cbn; [now rewrite Z.eqb_refl|]. destruct (Z.eqb_spec k' k); cbn; [now rewrite Z.eqb_refl|]. destruct (Z.eqb_spec k' k); [congruence|assumption]. Qed.

Lemma aget_set_other k k' v m : k' <> k -> aget k' (aset k v m) = aget k' m.
Proof.
  intros N. induction m as [|[k1 v1] m IH]; cbn; [destruct (Z.eqb_spec k k'); [congruence|reflexivity]|].
  destruct (Z.eqb_spec k1 k); cbn; [subst; destruct (Z.eqb_spec k k'); [congruence|reflexivity]|]. now rewrite IH.
Qed.

Lemma adel_cons k k1 v1 m : adel k ((k1, v1) :: m) = if k1 =? k then adel k m else (k1, v1) :: adel k m.
Proof. unfold adel. cbn [filter fst]. now destruct (k1 =? k). Qed.

Lemma aget_del_same k m : aget k (adel k m) = None.
Proof. induction m as [|[k1 v1] m IH]; [reflexivity|]. rewrite adel_cons. destruct (Z.eqb_spec k1 k); [assumption|]. cbn [aget]. destruct (Z.eqb_spec k1 k); [congruence|assumption]. Qed.

Lemma aget_del_other k k' m : k' <> k -> aget k' (adel k m) = aget k' m.
Proof.
  intros N. induction m as [|[k1 v1] m IH]; [reflexivity|]. rewrite adel_cons. cbn [aget]. destruct (Z.eqb_spec k1 k).
  - subst. destruct (Z.eqb_spec k k'); [congruence|assumption].
  - cbn [aget]. now rewrite IH.
Qed.

Lemma aget_In k m v : aget k m = Some v -> In (k, v) m.
Proof. induction m as [|[k1 v1] m IH]; cbn; [discriminate|]. destruct (Z.eqb_spec k1 k); [intros H; inversion H; subst; now left|]. intros H. right. auto. Qed.

Lemma aget_None k m : aget k m = None -> ~ In k (map fst m).
Proof. induction m as [|[k1 v1] m IH]; cbn; [tauto|]. destruct (Z.eqb_spec k1 k); [discriminate|]. intros H [K|K]; [congruence|]. now apply IH. Qed.

Lemma In_aget k v m : NoDup (map fst m) -> In (k, v) m -> aget k m = Some v.
Proof.
  induction m as [|[k1 v1] m IH]; cbn; intros N H; [contradiction|]. inversion N; subst. destruct H as [H|H].
  - inversion H; subst. now rewrite Z.eqb_refl.
  - destruct (Z.eqb_spec k1 k); [|now apply IH]. subst. exfalso. apply H2. apply (in_map fst) in H. exact H.
Qed.

Lemma aset_keys k v m : forall x, In x (map fst (aset k v m)) <-> x = k \/ In x (map fst m).
Proof.
  induction m as [|[k1 v1] m IH]; intros x; cbn; [intuition|]. destruct (Z.eqb_spec k1 k); cbn; [subst; intuition|]. rewrite IH. intuition.
Qed.

Lemma NoDup_aset k v m : NoDup (map fst m) -> NoDup (map fst (aset k v m)).
Proof.
  induction m as [|[k1 v1] m IH]; cbn; intros N; [constructor; [tauto|constructor]|]. inversion N; subst. destruct (Z.eqb_spec k1 k); cbn; [subst; now constructor|].
  constructor; [|now apply IH]. intros K. apply aset_keys in K. destruct K; [congruence|contradiction].
Qed.

Lemma In_adel k m e : In e (adel k m) <-> In e m /\ fst e <> k.
Proof. unfold adel. rewrite filter_In, negb_true_iff, Z.eqb_neq. reflexivity. Qed.

Lemma NoDup_adel k m : NoDup (map fst m) -> NoDup (map fst (adel k m)).
Proof.
  induction m as [|[k1 v1] m IH]; intros N; [constructor|]. rewrite adel_cons. cbn [map fst] in N. inversion N; subst. destruct (k1 =? k); [now apply IH|]. cbn [map fst].
  constructor; [|now apply IH]. intros K. apply in_map_iff in K. destruct K as (e & E & K). apply In_adel in K. apply H1. rewrite <- E. apply in_map. apply K.
Qed.
End Assoc.
