From Verif Require Import Base BaseLemmas CheckersModel CheckersSpec.
From Coq Require Import Lia List.
Import ListNotations.

Lemma nth_put : forall {A} i (x : A) l k, nth_error (put i x l) k = if (k =? i)%nat then match nth_error l i with Some _ => Some x | None => None end else nth_error l k.
Proof.
  intros A i x l. revert i. induction l as [|y l I]; intros i k; cbn [put]. { destruct i, k; cbn; try reflexivity. now destruct (k =? i)%nat. }
  destruct i, k; cbn [put nth_error Nat.eqb]; try reflexivity. apply I.
Qed.
Lemma length_put : forall {A} i (x : A) l, length (put i x l) = length l.
Proof. intros A i x l. revert i. induction l as [|y l I]; intros [|i]; cbn; try reflexivity. now rewrite I. Qed.

Lemma finishedTimes_app : forall c a b, finishedTimes c (a ++ b) = (finishedTimes c a + finishedTimes c b)%nat.
Proof. intros c. induction a as [|[] a I]; intros b; cbn [app finishedTimes]; rewrite ?I; lia. Qed.
Lemma startedTimes_app : forall c a b, startedTimes c (a ++ b) = (startedTimes c a + startedTimes c b)%nat.
Proof. intros c. induction a as [|[] a I]; intros b; cbn [app startedTimes]; rewrite ?I; lia. Qed.

Lemma gone_put_loaded : forall v l w, nth_error l w = Some Busy -> gone (put w (Loaded v) l) = gone l.
Proof. intros v. induction l as [|p l I]; intros [|w] H; cbn in *; try discriminate. { now injection H as ->. } destruct p; now rewrite I. Qed.
Lemma gone_put_gone : forall l w v, nth_error l w = Some (Loaded v) -> gone (put w Gone l) = S (gone l).
Proof. induction l as [|p l I]; intros [|w] v H; cbn in *; try discriminate. { now injection H as ->. } destruct p; now rewrite (I _ _ H). Qed.
Lemma gone_le : forall l, (gone l <= length l)%nat.
Proof. induction l as [|[] l I]; cbn; lia. Qed.
Lemma gone_lt : forall l w v, nth_error l w = Some (Loaded v) -> (gone l < length l)%nat.
Proof. induction l as [|p l I]; intros [|w] v H; cbn in *; try discriminate. { injection H as ->. pose proof (gone_le l). lia. } pose proof (I _ _ H). destruct p; lia. Qed.
Lemma gone_lt_busy : forall l w, nth_error l w = Some Busy -> (gone l < length l)%nat.
Proof. induction l as [|p l I]; intros [|w] H; cbn in *; try discriminate. { injection H as ->. pose proof (gone_le l). lia. } pose proof (I _ H). destruct p; lia. Qed.

(** A check, as any history leaves it *)
Definition JInv (j : job) : Prop := length (workers j) = 4%nat /\ (finished j <= gone (workers j))%nat /\ (forall w v, nth_error (workers j) w = Some (Loaded v) -> (v <= gone (workers j))%nat).

Definition Inv (s : files) : Prop :=
  (forall c j, nth_error (jobs s) c = Some j -> JInv j) /\
  (forall c, startedTimes c (out s) = if (c <? length (jobs s))%nat then 1%nat else 0%nat) /\
  (forall c, (finishedTimes c (out s) <= 1)%nat /\ (finishedTimes c (out s) = 1%nat -> exists j, nth_error (jobs s) c = Some j /\ gone (workers j) = 4%nat)) /\
  (forall c, In (OKept c) (out s) -> finishedTimes c (out s) = 1%nat) /\
  (forall c, current s = Some c -> finishedTimes c (out s) = 0%nat /\ exists j, nth_error (jobs s) c = Some j /\ (checking s = true -> rejected j = false)).

Lemma Inv_new : Inv newFiles.
Proof. repeat split; cbn; intros; try lia; try contradiction; try discriminate; destruct c; discriminate. Qed.

Lemma nth_snoc : forall {A} (l : list A) x c, nth_error (l ++ [x]) c = if (c =? length l)%nat then Some x else nth_error l c.
Proof.
  intros A l x c. destruct (Nat.eqb_spec c (length l)) as [->|N]; [rewrite nth_error_app2, Nat.sub_diag by lia; reflexivity|].
  destruct (le_lt_dec (length l) c) as [L|L]; [|now apply nth_error_app1]. rewrite !(proj2 (nth_error_None _ _)); [reflexivity|lia|rewrite app_length; cbn; lia].
Qed.
Lemma nth_len : forall {A} (l : list A) c j, nth_error l c = Some j -> (c < length l)%nat.
Proof. intros A l c j H. apply nth_error_Some. congruence. Qed.

Lemma Inv_check : forall s, Inv s -> Inv (checkFiles s).
Proof.
  intros s V0. pose proof V0 as (A & B & C & D & E). unfold checkFiles. destruct (checking s) eqn:K; [exact V0|].
  unfold Inv. cbn [jobs out current checking].
  assert (F0 : forall c, finishedTimes c (out s ++ [AStarted (length (jobs s))]) = finishedTimes c (out s)) by (intros c; rewrite finishedTimes_app; cbn; lia).
  split; [|split; [|split; [|split]]].
  - intros c j H. rewrite nth_snoc in H. destruct (c =? length (jobs s))%nat; [|now apply A in H]. injection H as <-. split; [reflexivity|]. split; [cbn; lia|]. intros w v H. cbn in H. do 4 (destruct w as [|w]; [discriminate|]). destruct w; discriminate.
  - intros c. rewrite startedTimes_app, B, app_length. cbn [startedTimes length]. destruct (Nat.ltb_spec c (length (jobs s))), (Nat.ltb_spec c (length (jobs s) + 1)), (Nat.eqb_spec (length (jobs s)) c); lia.
  - intros c. rewrite F0. split; [apply C|]. intros H. destruct (proj2 (C c) H) as (j & J1 & J2). exists j. split; [|exact J2]. rewrite nth_snoc. pose proof (nth_len _ _ _ J1). destruct (Nat.eqb_spec c (length (jobs s))); [lia|exact J1].
  - intros c H. rewrite F0. apply D. apply in_app_or in H as [H|[H|[]]]; [exact H|discriminate].
  - intros c [= <-]. rewrite F0. split.
    + pose proof (C (length (jobs s))) as (C1 & C2). destruct (finishedTimes (length (jobs s)) (out s)) as [|[|k]]; [reflexivity| |lia]. destruct (C2 eq_refl) as (j & J1 & _). apply nth_len in J1. lia.
    + exists newJob. rewrite nth_snoc, Nat.eqb_refl. split; reflexivity.
Qed.

Lemma Inv_stop : forall s, Inv s -> Inv (stop s).
Proof.
  intros s V0. pose proof V0 as (A & B & C & D & E). unfold stop. destruct (checking s) eqn:K; [|exact V0].
  destruct (current s) as [c|] eqn:CU.
  - destruct (E c eq_refl) as (E1 & j & J1 & J2). rewrite J1. unfold setJob. unfold Inv. cbn [jobs out current checking]. split; [|split; [|split; [|split]]].
    + intros x k H. rewrite nth_put, J1 in H. destruct (x =? c)%nat; [|now apply A in H]. injection H as <-. exact (A c j J1).
    + intros x. rewrite length_put. apply B.
    + intros x. split; [apply C|]. intros H. destruct (proj2 (C x) H) as (k & K1 & K2). rewrite nth_put, J1. destruct (Nat.eqb_spec x c) as [->|N]; [|now exists k]. congruence.
    + exact D.
    + intros x X. rewrite CU in X. injection X as <-. split; [exact E1|]. rewrite nth_put, J1, Nat.eqb_refl. eexists. split; [reflexivity|discriminate].
  - unfold Inv. cbn [jobs out current checking]. rewrite CU. split; [exact A|]; split; [exact B|]; split; [exact C|]; split; [exact D|discriminate].
Qed.

Lemma Inv_load : forall c w s, Inv s -> Inv (load c w s).
Proof.
  intros c w s V0. pose proof V0 as (A & B & C & D & E). unfold load. destruct (nth_error (jobs s) c) as [j|] eqn:J; [|exact V0].
  destruct (nth_error (workers j) w) as [[]|] eqn:W; try exact V0.
  unfold setJob, Inv. cbn [jobs out current checking]. split; [|split; [|split; [|split]]].
  - intros x k H. rewrite nth_put, J in H. destruct (x =? c)%nat; [|now apply A in H]. injection H as <-. destruct (A c j J) as (A1 & A2 & A3). unfold JInv. cbn [workers finished]. rewrite length_put, gone_put_loaded by exact W.
    split; [exact A1|]. split; [exact A2|]. intros y v H. rewrite nth_put, W in H. destruct (y =? w)%nat; [injection H as <-; exact A2|now apply A3 in H].
  - intros x. rewrite length_put. apply B.
  - intros x. split; [apply C|]. intros H. destruct (proj2 (C x) H) as (k & K1 & K2). rewrite nth_put, J. destruct (Nat.eqb_spec x c) as [->|N]; [|now exists k].
    eexists. split; [reflexivity|]. cbn [workers]. rewrite gone_put_loaded by exact W. congruence.
  - exact D.
  - intros x X. destruct (E x X) as (E1 & k & K1 & K2). split; [exact E1|]. rewrite nth_put, J. destruct (Nat.eqb_spec x c) as [->|N]; [|now exists k]. eexists. split; [reflexivity|]. cbn [rejected]. replace j with k by congruence. exact K2.
Qed.

Lemma Inv_store : forall c w s, Inv s -> Inv (store c w s).
Proof.
  intros c w s V0. pose proof V0 as (A & B & C & D & E). unfold store. destruct (nth_error (jobs s) c) as [j|] eqn:J; [|exact V0].
  destruct (nth_error (workers j) w) as [[|v|]|] eqn:W; try exact V0.
  destruct (A c j J) as (A1 & A2 & A3). pose proof (A3 _ _ W) as V. pose proof (gone_lt _ _ _ W) as L.
  assert (AA : forall x k, nth_error (put c {| rejected := rejected j; finished := S v; workers := put w Gone (workers j) |} (jobs s)) x = Some k -> JInv k).
  { intros x k H. rewrite nth_put, J in H. destruct (x =? c)%nat; [|now apply A in H]. injection H as <-. unfold JInv. cbn [workers finished]. rewrite length_put, (gone_put_gone _ _ _ W). split; [exact A1|]. split; [lia|].
    intros y u H. rewrite nth_put, W in H. destruct (y =? w)%nat; [discriminate|]. apply A3 in H. lia. }
  assert (F0 : finishedTimes c (out s) = 0%nat).
  { destruct (C c) as (C1 & C2). destruct (finishedTimes c (out s)) as [|[|k]]; [reflexivity| |lia]. destruct (C2 eq_refl) as (k & K1 & K2). assert (k = j) by congruence. subst k. lia. }
  destruct (S v =? 4)%nat eqn:Q; unfold onFinish, setJob, Inv; cbn [jobs out current checking]; (split; [exact AA|]).
  - apply Nat.eqb_eq in Q.
    assert (F : forall x, finishedTimes x (out s ++ (if rejected j then [AFinished c] else [OKept c; AFinished c])) = (finishedTimes x (out s) + if (c =? x)%nat then 1 else 0)%nat) by (intros x; rewrite finishedTimes_app; destruct (rejected j); cbn; destruct (c =? x)%nat; lia).
    split; [|split; [|split; [|discriminate]]].
    + intros x. rewrite length_put, startedTimes_app. replace (startedTimes x (if rejected j then [AFinished c] else [OKept c; AFinished c])) with 0%nat by now destruct (rejected j). rewrite Nat.add_0_r. apply B.
    + intros x. rewrite F. destruct (Nat.eqb_spec c x) as [<-|N]; [|rewrite Nat.add_0_r].
      * rewrite F0. split; [lia|]. intros _. rewrite nth_put, J, Nat.eqb_refl. eexists. split; [reflexivity|]. cbn [workers]. rewrite (gone_put_gone _ _ _ W). lia.
      * split; [apply C|]. intros H. destruct (proj2 (C x) H) as (k & K1 & K2). exists k. rewrite nth_put. destruct (Nat.eqb_spec x c); [congruence|]. now split.
    + intros x H. rewrite F. destruct (Nat.eqb_spec c x) as [<-|N]; [lia|]. rewrite Nat.add_0_r. apply D. apply in_app_or in H as [H|H]; [exact H|]. destruct (rejected j); cbn in H; [destruct H as [H|[]]; discriminate|]. destruct H as [H|[H|[]]]; [congruence|discriminate].
  - split; [|split; [|split]].
    + intros x. rewrite length_put. apply B.
    + intros x. split; [apply C|]. intros H. destruct (proj2 (C x) H) as (k & K1 & K2). rewrite nth_put, J. destruct (Nat.eqb_spec x c) as [->|N]; [lia|]. now exists k.
    + exact D.
    + intros x X. destruct (E x X) as (E1 & k & K1 & K2). split; [exact E1|]. rewrite nth_put, J. destruct (Nat.eqb_spec x c) as [->|N]; [|now exists k]. eexists. split; [reflexivity|]. cbn [rejected]. replace j with k by congruence. exact K2.
Qed.

Lemma Inv_run : forall es s, Inv s -> Inv (run es s).
Proof. induction es as [|e es I]; intros s H; [exact H|]. unfold run in *. cbn [fold_left]. apply I. destruct e; [now apply Inv_check|now apply Inv_stop|now apply Inv_load|now apply Inv_store]. Qed.

(** A stopped check *)
Definition Off (c : nat) (s : files) : Prop := (exists j, nth_error (jobs s) c = Some j /\ rejected j = true) /\ ~ In (OKept c) (out s).
Lemma Off_step : forall c e s, Off c s -> Off c (step e s).
Proof.
  intros c e s ((j & J1 & J2) & N). destruct e as [| |x w|x w]; cbn [step].
  - unfold checkFiles. destruct (checking s); [split; [now exists j|exact N]|]. unfold Off. cbn [jobs out]. split; [exists j; rewrite nth_snoc; pose proof (nth_len _ _ _ J1); destruct (Nat.eqb_spec c (length (jobs s))); [lia|now split]|].
    intros H. apply in_app_or in H as [H|[H|[]]]; [now apply N|discriminate].
  - unfold stop. destruct (checking s); [|split; [now exists j|exact N]]. destruct (current s) as [x|]; [|split; [now exists j|exact N]]. destruct (nth_error (jobs s) x) as [k|] eqn:K; [|split; [now exists j|exact N]].
    unfold Off, setJob. cbn [jobs out]. split; [|exact N]. rewrite nth_put, K. destruct (c =? x)%nat; [eexists; split; [reflexivity|reflexivity]|now exists j].
  - unfold load. destruct (nth_error (jobs s) x) as [k|] eqn:K; [|split; [now exists j|exact N]]. destruct (nth_error (workers k) w) as [[]|]; try (split; [now exists j|exact N]).
    unfold Off, setJob. cbn [jobs out]. split; [|exact N]. rewrite nth_put, K. destruct (Nat.eqb_spec c x) as [<-|]; [|now exists j]. eexists. split; [reflexivity|]. cbn. congruence.
  - unfold store. destruct (nth_error (jobs s) x) as [k|] eqn:K; [|split; [now exists j|exact N]]. destruct (nth_error (workers k) w) as [[|v|]|]; try (split; [now exists j|exact N]).
    assert (G : exists i, nth_error (put x {| rejected := rejected k; finished := S v; workers := put w Gone (workers k) |} (jobs s)) c = Some i /\ rejected i = true).
    { rewrite nth_put, K. destruct (Nat.eqb_spec c x) as [<-|]; [|now exists j]. eexists. split; [reflexivity|]. cbn. congruence. }
    destruct (S v =? 4)%nat; unfold Off, onFinish, setJob; cbn [jobs out]; (split; [exact G|]); [|exact N]. intros H. apply in_app_or in H as [H|H]; [now apply N|].
    destruct (rejected k) eqn:RK; cbn in H; [destruct H as [H|[]]; discriminate|]. destruct H as [H|[H|[]]]; [|discriminate]. injection H as ->. congruence.
Qed.
Lemma Off_run : forall c es s, Off c s -> Off c (run es s).
Proof. intros c. induction es as [|e es I]; intros s H; [exact H|]. unfold run in *. cbn [fold_left]. apply I. now apply Off_step. Qed.

(** When no two workers count at the same time *)
Definition Ser (s : files) : Prop := forall c j, nth_error (jobs s) c = Some j ->
  length (workers j) = 4%nat /\ finished j = gone (workers j) /\ (forall w v, nth_error (workers j) w <> Some (Loaded v)) /\ finishedTimes c (out s) = (if (gone (workers j) =? 4)%nat then 1 else 0)%nat.

(** What the end of one worker does *)
Lemma end_spec : forall c w s j, nth_error (jobs s) c = Some j -> nth_error (workers j) w = Some Busy ->
  run (expand (OEnd c w)) s = (let s1 := setJob c {| rejected := rejected j; finished := S (finished j); workers := put w Gone (workers j) |} s in if (S (finished j) =? 4)%nat then onFinish c (rejected j) s1 else s1).
Proof.
  intros c w s j J W. unfold run. cbn [expand fold_left step]. unfold load. rewrite J, W. unfold store, setJob. cbn [jobs checking current out]. rewrite nth_put, Nat.eqb_refl, J. cbn [workers rejected]. rewrite nth_put, Nat.eqb_refl, W.
  assert (P : forall {A} i (x y : A) l, put i x (put i y l) = put i x l) by (intros A i x y l; revert i; induction l as [|z l I]; intros [|i]; cbn; try reflexivity; now rewrite I).
  rewrite !P. reflexivity.
Qed.
Lemma gone_put_busy : forall l w, nth_error l w = Some Busy -> gone (put w Gone l) = S (gone l).
Proof. induction l as [|p l I]; intros [|w] H; cbn in *; try discriminate. { now injection H as ->. } destruct p; now rewrite (I _ H). Qed.
Lemma end_none : forall c w s, (forall j, nth_error (jobs s) c = Some j -> nth_error (workers j) w <> Some Busy /\ forall v, nth_error (workers j) w <> Some (Loaded v)) -> run (expand (OEnd c w)) s = s.
Proof.
  intros c w s H. unfold run. cbn [expand fold_left step].
  assert (L : load c w s = s). { unfold load. destruct (nth_error (jobs s) c) as [j|]; [|reflexivity]. destruct (H j eq_refl) as (H1 & H2). destruct (nth_error (workers j) w) as [[]|]; congruence. }
  rewrite L. unfold store. destruct (nth_error (jobs s) c) as [j|]; [|reflexivity]. destruct (H j eq_refl) as (H1 & H2). destruct (nth_error (workers j) w) as [[|v|]|]; try reflexivity. now destruct (H2 v).
Qed.

Lemma Ser_op : forall o s, Inv s -> Ser s -> Ser (run (expand o) s).
Proof.
  intros o s V I. destruct o as [| |c w].
  - unfold run. cbn [expand fold_left step]. unfold checkFiles. destruct (checking s); [exact I|]. intros c j H. cbn [jobs out] in *. rewrite finishedTimes_app. cbn [finishedTimes]. rewrite Nat.add_0_r. rewrite nth_snoc in H. destruct (Nat.eqb_spec c (length (jobs s))) as [->|N]; [|now apply I].
    injection H as <-. split; [reflexivity|]. split; [reflexivity|]. split; [intros w v X; do 4 (destruct w as [|w]; [discriminate|]); destruct w; discriminate|]. cbn.
    destruct V as (_ & _ & C & _). destruct (C (length (jobs s))) as (C1 & C2). destruct (finishedTimes (length (jobs s)) (out s)) as [|[|k]]; [reflexivity| |lia]. destruct (C2 eq_refl) as (k & K1 & _). apply nth_len in K1. lia.
  - unfold run. cbn [expand fold_left step]. unfold stop. destruct (checking s); [|exact I]. destruct (current s) as [c|]; [|exact I]. destruct (nth_error (jobs s) c) as [k|] eqn:K; [|exact I].
    intros x j H. unfold setJob in *. cbn [jobs out] in *. rewrite nth_put, K in H. destruct (Nat.eqb_spec x c) as [->|N]; [|now apply I]. injection H as <-. exact (I c k K).
  - destruct (nth_error (jobs s) c) as [j|] eqn:J; [|rewrite end_none; [exact I|]; intros j X; congruence]. destruct (I c j J) as (I1 & I2 & I3 & I4).
    destruct (nth_error (workers j) w) as [[|v|]|] eqn:W; [|now destruct (I3 w v)|rewrite end_none; [exact I|]; intros k X; assert (k = j) by congruence; subst k; rewrite W; split; discriminate..].
    rewrite (end_spec _ _ _ _ J W). cbv zeta. pose proof (gone_lt_busy _ _ W) as L.
    assert (FC : finishedTimes c (out s) = 0%nat) by (rewrite I4; destruct (Nat.eqb_spec (gone (workers j)) 4); [lia|reflexivity]).
    assert (G : forall o2, (forall x, x <> c -> finishedTimes x o2 = finishedTimes x (out s)) -> finishedTimes c o2 = (if (S (finished j) =? 4)%nat then 1 else 0)%nat ->
      forall x k, nth_error (put c {| rejected := rejected j; finished := S (finished j); workers := put w Gone (workers j) |} (jobs s)) x = Some k ->
      length (workers k) = 4%nat /\ finished k = gone (workers k) /\ (forall w v, nth_error (workers k) w <> Some (Loaded v)) /\ finishedTimes x o2 = (if (gone (workers k) =? 4)%nat then 1 else 0)%nat).
    { intros o2 O1 O2 x k H. rewrite nth_put, J in H. destruct (Nat.eqb_spec x c) as [->|N]; [|rewrite O1 by exact N; now apply I]. injection H as <-. cbn [workers finished]. rewrite length_put, (gone_put_busy _ _ W). split; [exact I1|]. split; [now rewrite I2|].
      split; [|rewrite O2, I2; reflexivity]. intros y v. rewrite nth_put, W. destruct (y =? w)%nat; [discriminate|apply I3]. }
    destruct (S (finished j) =? 4)%nat eqn:Q; unfold Ser, onFinish, setJob; cbn [jobs out]; apply G; rewrite ?Q.
    + intros x N. rewrite finishedTimes_app. destruct (rejected j); cbn; (destruct (Nat.eqb_spec c x); [congruence|lia]).
    + rewrite finishedTimes_app, FC. destruct (rejected j); cbn; now rewrite Nat.eqb_refl.
    + reflexivity.
    + exact FC.
Qed.

Lemma serial_ind : forall (P : files -> Prop), (forall o s, Inv s -> Ser s -> P s -> P (run (expand o) s)) -> forall os s, Inv s -> Ser s -> P s -> Inv (run (serial os) s) /\ Ser (run (serial os) s) /\ P (run (serial os) s).
Proof.
  intros P H. induction os as [|o os I]; intros s A B C; [now split|]. cbn [serial flat_map]. unfold run. rewrite fold_left_app. apply I; [now apply Inv_run|now apply Ser_op|now apply H].
Qed.
