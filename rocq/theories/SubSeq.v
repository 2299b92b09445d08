(** Subsequences: the order is kept, items may be left out. *)
From Verif Require Import Base.

Inductive subseq {A} : list A -> list A -> Prop :=
| ss_nil : subseq [] []
| ss_skip x a b : subseq a b -> subseq a (x :: b)
| ss_take x a b : subseq a b -> subseq (x :: a) (x :: b).

Lemma ss_refl {A} (l : list A) : subseq l l.
Proof. induction l; constructor; assumption. Qed.

Lemma ss_none {A} (l : list A) : subseq [] l.
Proof. induction l; constructor; assumption. Qed.

Lemma ss_app {A} (a b c d : list A) : subseq a b -> subseq c d -> subseq (a ++ c) (b ++ d).
Proof. induction 1; intros P; cbn; [assumption|apply ss_skip; auto|apply ss_take; auto]. Qed.

Lemma ss_in {A} (a b : list A) x : subseq a b -> In x a -> In x b.
Proof. induction 1; cbn; intros; intuition. Qed.

Lemma ss_trans {A} (a b c : list A) : subseq a b -> subseq b c -> subseq a c.
Proof.
  intros H1 H2. revert a H1. induction H2; intros a0 H1.
  - exact H1.
  - apply ss_skip. auto.
  - inversion H1; subst; [apply ss_skip; auto|apply ss_take; auto].
Qed.

Lemma ss_filter {A} (f : A -> bool) l : subseq (filter f l) l.
Proof. induction l as [|x l IH]; cbn; [constructor|]. destruct (f x); constructor; assumption. Qed.

Lemma ss_map {A B} (f : A -> B) a b : subseq a b -> subseq (map f a) (map f b).
Proof. induction 1; cbn; constructor; assumption. Qed.

Lemma ss_length {A} (a b : list A) : subseq a b -> (length a <= length b)%nat.
Proof. induction 1; cbn; lia. Qed.

Lemma ss_count {A} (dec : forall x y : A, {x = y} + {x <> y}) (a b : list A) x :
  subseq a b -> (count_occ dec a x <= count_occ dec b x)%nat.
Proof. induction 1; cbn; [lia| |]; destruct (dec _ _); lia. Qed.

Lemma ss_Forall {A} (P : A -> Prop) a b : subseq a b -> Forall P b -> Forall P a.
Proof. induction 1; intros F; [constructor| |]; inversion F; subst; auto. Qed.

Lemma ss_NoDup {A} (a b : list A) : subseq a b -> NoDup b -> NoDup a.
Proof.
  induction 1; intros N; [constructor| |]; inversion N; subst; auto.
  constructor; [|auto]. intros X. apply H2. eapply ss_in; eauto.
Qed.
