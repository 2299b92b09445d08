(** C105: a check of the files ends once, and only one runs at a time *)
From Verif Require Import Base BaseLemmas CheckersModel CheckersSpec CheckersProofs.
From Coq Require Import Lia List.
Import ListNotations.

(** In every history each check is told to begin once and to end at most once, and then all its workers are done *)
Theorem C105_once : forall es c, let s := run es newFiles in
  startedTimes c (out s) = (if (c <? length (jobs s))%nat then 1 else 0)%nat /\ (finishedTimes c (out s) <= 1)%nat /\
  (finishedTimes c (out s) = 1%nat -> exists j, nth_error (jobs s) c = Some j /\ busy j = false).
Proof.
  intros es c s. destruct (Inv_run es newFiles Inv_new) as (_ & B & C & _). split; [apply B|]. split; [apply C|]. intros F. destruct (proj2 (C c) F) as (j & J1 & J2). exists j. split; [exact J1|]. unfold busy. now rewrite J2.
Qed.
Print Assumptions C105_once.

(** What a check found that was stopped never counts, whatever its workers still do *)
Theorem C105_stopped : forall es es2 c, let s := run es newFiles in checking s = true -> current s = Some c -> ~ In (OKept c) (out (run es2 (stop s))).
Proof.
  intros es es2 c s K C. destruct (Inv_run es newFiles Inv_new) as (_ & _ & _ & D & E). fold s in D, E. destruct (E c C) as (E1 & j & J1 & _).
  apply (Off_run c es2 (stop s)). unfold stop. rewrite K, C, J1. unfold Off, setJob. cbn [jobs out]. split; [rewrite nth_put, Nat.eqb_refl, J1; eexists; split; reflexivity|].
  intros H. apply D in H. lia.
Qed.
Print Assumptions C105_stopped.

Example C105_stopped_ex : let s := run [ECheck; ELoad 0 1] newFiles in checking s = true /\ current s = Some 0%nat /\
  out (run (serial [OEnd 0 0; OEnd 0 2; OEnd 0 3]%nat ++ [EStore 0 1]%nat ++ serial [OEnd 0 0]%nat) (stop s)) = [AStarted 0].
Proof. repeat split. Qed.

(** When no two workers count at the same moment, a check whose workers are done has ended, and what it found counts unless it was stopped.
    Missing: workers that count at the same moment (C105_race_refuted). *)
Theorem C105_ends_partial : forall os c j, let s := run (serial os) newFiles in nth_error (jobs s) c = Some j ->
  finishedTimes c (out s) = (if busy j then 0 else 1)%nat /\ (busy j = false -> (In (OKept c) (out s) <-> rejected j = false)).
Proof.
  intros os c j s J.
  assert (G : Inv s /\ Ser s /\ forall c j, nth_error (jobs s) c = Some j -> gone (workers j) = 4%nat -> (In (OKept c) (out s) <-> rejected j = false)).
  { apply (serial_ind (fun s => forall c j, nth_error (jobs s) c = Some j -> gone (workers j) = 4%nat -> (In (OKept c) (out s) <-> rejected j = false))); [|apply Inv_new|intros [|x] k H; discriminate|intros [|x] k H; discriminate].
    clear. intros o s V S0 P. destruct o as [| |c w].
    - unfold run. cbn [expand fold_left step]. unfold checkFiles. destruct (checking s); [exact P|]. intros c j H G. cbn [jobs out] in *. rewrite in_app_iff. rewrite nth_snoc in H. destruct (Nat.eqb_spec c (length (jobs s))) as [->|N]; [injection H as <-; discriminate G|].
      rewrite <- (P c j H G). cbn. intuition discriminate.
    - unfold run. cbn [expand fold_left step]. unfold stop. destruct (checking s) eqn:K; [|exact P]. destruct (current s) as [c|] eqn:C; [|exact P]. destruct (nth_error (jobs s) c) as [k|] eqn:KJ; [|exact P].
      intros x j H G. unfold setJob in *. cbn [jobs out] in *. rewrite nth_put, KJ in H. destruct (Nat.eqb_spec x c) as [->|N]; [|now apply P]. injection H as <-. cbn [workers] in G.
      destruct V as (_ & _ & _ & _ & E). destruct (E c C) as (E1 & _). destruct (S0 c k KJ) as (_ & _ & _ & S1). rewrite G in S1. cbn in S1. congruence.
    - destruct (nth_error (jobs s) c) as [j|] eqn:J; [|rewrite end_none; [exact P|]; intros j X; congruence]. destruct (S0 c j J) as (I1 & I2 & I3 & I4).
      destruct (nth_error (workers j) w) as [[|v|]|] eqn:W; [|now destruct (I3 w v)|rewrite end_none; [exact P|]; intros k X; assert (k = j) by congruence; subst k; rewrite W; split; discriminate..].
      rewrite (end_spec _ _ _ _ J W). cbv zeta. destruct V as (_ & _ & _ & D & _). pose proof (gone_lt_busy _ _ W) as L.
      assert (F0 : ~ In (OKept c) (out s)) by (intros H; apply D in H; rewrite I4 in H; destruct (Nat.eqb_spec (gone (workers j)) 4); lia).
      destruct (S (finished j) =? 4)%nat eqn:Q; unfold onFinish, setJob; cbn [jobs out]; intros x k H G; rewrite nth_put, J in H; (destruct (Nat.eqb_spec x c) as [->|N]; [injection H as <-; cbn [workers rejected] in *|]).
      + rewrite in_app_iff. destruct (rejected j); cbn; intuition congruence.
      + rewrite in_app_iff. rewrite <- (P x k H G). destruct (rejected j); cbn; intuition congruence.
      + rewrite (gone_put_busy _ _ W) in G. rewrite I2 in Q. apply Nat.eqb_neq in Q. lia.
      + now apply P. }
  destruct G as (_ & S0 & P). destruct (S0 c j J) as (_ & _ & _ & F). unfold busy. split; [rewrite F; now destruct (gone (workers j) =? 4)%nat|]. intros B. apply P; [exact J|]. now apply Nat.eqb_eq, Bool.negb_false_iff.
Qed.
Print Assumptions C105_ends_partial.

(** ... and when a check begins only after the workers of the last one are done, at most one is busy at any time, and [checking] says whether one is
    that was not stopped. Missing: a check that begins before (C105_stale_refuted). *)
Theorem C105_one_partial : forall os, let s := run (serial os) newFiles in calm os newFiles ->
  (forall c d j k, nth_error (jobs s) c = Some j -> nth_error (jobs s) d = Some k -> busy j = true -> busy k = true -> c = d) /\
  (checking s = true <-> exists c j, nth_error (jobs s) c = Some j /\ busy j = true /\ rejected j = false).
Proof.
  intros os.
  set (Q := fun s => (forall c j, nth_error (jobs s) c = Some j -> busy j = true -> S c = length (jobs s) /\ (rejected j = false <-> checking s = true) /\ (checking s = true -> current s = Some c)) /\
    (checking s = true -> exists c j, nth_error (jobs s) c = Some j /\ busy j = true /\ rejected j = false)).
  assert (G : forall os s, Inv s -> Ser s -> Q s -> calm os s -> Q (run (serial os) s)).
  2:{ intros s C. assert (H : Q s) by (apply G; [apply Inv_new|intros [|x] k H; discriminate|split; [intros [|x] k H; discriminate|discriminate]|exact C]). destruct H as (H1 & H2). split.
      - intros c d j k J K B1 B2. destruct (H1 c j J B1) as (X & _), (H1 d k K B2) as (Y & _). lia.
      - split; [exact H2|]. intros (c & j & J & B & R). now apply (H1 c j J B). }
  clear os. induction os as [|o os I]; intros s V S0 H C; [exact H|]. destruct C as (C1 & C2). cbn [serial flat_map]. unfold run. rewrite fold_left_app. apply I; [now apply Inv_run|now apply Ser_op| |exact C2]. clear I C2 os.
  change (Q (run (expand o) s)). destruct H as (H1 & H2). destruct o as [| |c w].
  - unfold run. cbn [expand fold_left step]. unfold checkFiles. destruct (checking s) eqn:K; [unfold Q; rewrite K; now split|]. destruct (C1 eq_refl) as [B|B]; [|discriminate].
    assert (NB : forall c j, nth_error (jobs s) c = Some j -> busy j = false). { intros c j J. apply nth_error_In in J. destruct (busy j) eqn:X; [|reflexivity]. exfalso. assert (Y : existsb busy (jobs s) = true) by (apply existsb_exists; now exists j). congruence. }
    unfold Q. cbn [jobs checking current]. split.
    + intros c j J BJ. rewrite nth_snoc in J. rewrite app_length. cbn [length]. destruct (Nat.eqb_spec c (length (jobs s))) as [->|N]; [|rewrite (NB _ _ J) in BJ; discriminate]. injection J as <-. split; [lia|]. cbn. tauto.
    + intros _. exists (length (jobs s)), newJob. rewrite nth_snoc, Nat.eqb_refl. repeat split.
  - unfold run. cbn [expand fold_left step]. unfold stop. destruct (checking s) eqn:K; [|unfold Q; rewrite K; split; [exact H1|discriminate]].
    destruct (H2 eq_refl) as (c & j & J & B & R). destruct (H1 c j J B) as (L & _ & CU). specialize (CU eq_refl). rewrite CU, J. unfold Q, setJob. cbn [jobs checking current]. split; [|discriminate].
    intros x k X BK. rewrite length_put. rewrite nth_put, J in X. destruct (Nat.eqb_spec x c) as [->|N]; [injection X as <-; cbn; split; [exact L|split; [split; discriminate|discriminate]]|]. destruct (H1 x k X BK) as (Y & _). lia.
  - destruct (nth_error (jobs s) c) as [j|] eqn:J; [|rewrite end_none; [now split|]; intros j X; congruence]. destruct (S0 c j J) as (I1 & I2 & I3 & I4).
    destruct (nth_error (workers j) w) as [[|v|]|] eqn:W; [|now destruct (I3 w v)|rewrite end_none; [now split|]; intros k X; assert (k = j) by congruence; subst k; rewrite W; split; discriminate..].
    rewrite (end_spec _ _ _ _ J W). cbv zeta. pose proof (gone_lt_busy _ _ W) as L.
    assert (BJ : busy j = true) by (unfold busy; apply Bool.negb_true_iff, Nat.eqb_neq; lia). destruct (H1 c j J BJ) as (LC & RC & CC).
    destruct (S (finished j) =? 4)%nat eqn:F; unfold Q, onFinish, setJob; cbn [jobs checking current]; rewrite length_put.
    + split; [|discriminate]. intros x k X BK. exfalso. rewrite nth_put, J in X. destruct (Nat.eqb_spec x c) as [->|N]; [|destruct (H1 x k X BK) as (Y & _); lia]. injection X as <-. unfold busy in BK. cbn [workers] in BK. rewrite (gone_put_busy _ _ W), <- I2, F in BK. discriminate.
    + split.
      * intros x k X BK. rewrite nth_put, J in X. destruct (Nat.eqb_spec x c) as [->|N]; [|now apply H1]. injection X as <-. cbn [rejected]. now repeat split; try apply RC.
      * intros K. exists c. rewrite nth_put, Nat.eqb_refl, J. eexists. split; [reflexivity|]. unfold busy. cbn [workers rejected]. rewrite (gone_put_busy _ _ W), <- I2, F. split; [reflexivity|now apply RC].
Qed.
Print Assumptions C105_one_partial.

Example C105_partial_ex : let os := [OCheck; OEnd 0 0; OEnd 0 3; OCheck; OEnd 0 1; OEnd 0 2; OCheck; OEnd 1 1; OStop; OEnd 1 0; OEnd 1 2; OEnd 1 3; OCheck]%nat in
  calm os newFiles /\ out (run (serial os) newFiles) = [AStarted 0; OKept 0; AFinished 0; AStarted 1; AFinished 1; AStarted 2]%nat /\ checking (run (serial os) newFiles) = true.
Proof.
  cbv zeta. split; [|vm_compute; split; reflexivity]. cbn [calm]. repeat (split; [intros X; first [discriminate X|left; vm_compute; reflexivity|right; vm_compute; reflexivity]|]). exact Logic.I.
Qed.

(** Violated: the workers share a plain counter. When two of them count at the same moment one is not counted: the check never ends, and as long as it
    is not stopped no other check begins, the torrent stays "checking" and does not go on *)
Theorem C105_race_refuted : exists es, let s := run es newFiles in (exists j, jobs s = [j] /\ busy j = false) /\ checking s = true /\ out s = [AStarted 0] /\
  forall es2, ~ In EStop es2 -> run es2 s = s.
Proof.
  exists ([ECheck; ELoad 0 0; ELoad 0 1; EStore 0 0; EStore 0 1] ++ serial [OEnd 0 2; OEnd 0 3])%nat. cbv zeta. set (s := run _ _). vm_compute in s. split; [eexists; split; reflexivity|]. split; [reflexivity|]. split; [reflexivity|].
  induction es2 as [|e es2 I]; intros N; [reflexivity|]. unfold run in *. cbn [fold_left]. replace (step e s) with s; [apply I; intros X; apply N; now right|]. symmetry. destruct e as [| |c w|c w]; [reflexivity|exfalso; apply N; now left| |].
  - cbn [step]. unfold load, s. cbn [jobs]. destruct c as [|[|c]]; [|reflexivity|reflexivity]. cbn [nth_error workers]. do 4 (destruct w as [|w]; [reflexivity|]). now destruct w.
  - cbn [step]. unfold store, s. cbn [jobs]. destruct c as [|[|c]]; [|reflexivity|reflexivity]. cbn [nth_error workers]. do 4 (destruct w as [|w]; [reflexivity|]). now destruct w.
Qed.
Print Assumptions C105_race_refuted.

(** Violated: a stopped check whose workers end after the next one began takes that one for ended: it still runs although the torrent is no longer
    "checking", it cannot be stopped, and another check begins beside it *)
Theorem C105_stale_refuted : exists os, let s := run (serial os) newFiles in
  (exists j, nth_error (jobs s) 1 = Some j /\ busy j = true /\ rejected j = false) /\ checking s = false /\ stop s = s /\ length (jobs (checkFiles s)) = 3%nat.
Proof. exists [OCheck; OStop; OCheck; OEnd 0 0; OEnd 0 1; OEnd 0 2; OEnd 0 3]%nat. cbv zeta. split; [eexists; split; [reflexivity|split; reflexivity]|]. repeat split. Qed.
Print Assumptions C105_stale_refuted.
