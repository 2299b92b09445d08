(** C109: a peer that is silent is given up, in time and once. *)
From Verif Require Import Base UtpTimerModel UtpTimerSpec UtpTimerProofs.

Lemma reached_Tinv s : reached s -> Tinv s.
Proof.
  intros (s0 & es & B & P & R). destruct (Tinv_run es s0 (Tinv_begun s0 B) P) as (s' & R' & I). congruence.
Qed.

Lemma reached_live s : reached s -> posted s = O -> step s <> CLOSED -> live s /\ 0 <= timeoutCount s <= 11.
Proof. intros R P C. destruct (reached_Tinv s R) as [B [D | [D | D]]]; [contradiction | lia | split; assumption]. Qed.

(** However long a stream lives, its wait is computed without overflow, as it never counts more than eleven timeouts. *)
Theorem C109_no_overflow s es : begun s -> prompt es s -> exists s', run es s = Ok s' /\ 0 <= timeoutCount s' <= 11.
Proof. intros B P. destruct (Tinv_run es s (Tinv_begun s B) P) as (s' & R & I & _). exists s'. split; assumption. Qed.

(** Were the closes not run, though, it would overflow. *)
Theorem C109_no_overflow_refuted : exists es, run es (connect 0) = UB.
Proof. exists (EPacket 100 0 :: map (fun i => ERefresh (Z.of_nat i * 40000)) (seq 1 25)). vm_compute. reflexivity. Qed.

(** The waits double: after the timeout numbered n + 1 the next is 500 + 1000 * 2^n ms later, or 30 s if that is less. *)
Theorem C109_waits s now s' : reached s -> posted s = O -> step s = CONNECTED -> nextTimeout s < now -> refresh now s = Ok s' ->
  nextTimeout s' = now + Z.min 30000 (500 + 1000 * 2 ^ timeoutCount s) /\ timeoutCount s' = timeoutCount s + 1 /\ lastReceive s' = lastReceive s.
Proof.
  intros R P C T E. destruct (reached_live s R P ltac:(congruence)) as [L B]. unfold refresh in E. rewrite C in E.
  assert (nextTimeout s <? now = true) as TT by (apply Z.ltb_lt; exact T). rewrite TT in E.
  assert (packetTimeout CONNECTED (timeoutCount s + 1) = Ok (Z.min 30000 (500 + 1000 * 2 ^ timeoutCount s))) as PT.
  { assert (timeoutCount s = 0 \/ timeoutCount s = 1 \/ timeoutCount s = 2 \/ timeoutCount s = 3 \/ timeoutCount s = 4 \/ timeoutCount s = 5 \/ timeoutCount s = 6 \/ timeoutCount s = 7
      \/ timeoutCount s = 8 \/ timeoutCount s = 9 \/ timeoutCount s = 10 \/ timeoutCount s = 11) as D by lia.
    repeat (destruct D as [-> | D]; [reflexivity|]). rewrite D. reflexivity. }
  destruct s as [sp lr nt tc u p te o]; cbn [step lastReceive nextTimeout timeoutCount unacked posted] in *; subst sp p.
  destruct ((lr + MaxStreamTimeout <? now) || false); [|destruct (0 <? u)]; unfold close, withPosted, say in E; cbn [step lastReceive timeoutCount] in E; rewrite PT in E; cbn [bind] in E; injection E as <-; repeat split.
Qed.

(** A stream that heard nothing for a minute is closed by the refresh, whatever it was doing, and the owner is told when that is run. *)
Theorem C109_given_up s now : reached s -> posted s = O -> step s <> CLOSED -> lastReceive s + 60000 < now ->
  exists s', refresh now s = Ok s' /\ posted s' = 1%nat /\ out s' = out s /\
             exists s'', step1 EPosted s' = Ok s'' /\ step s'' = CLOSED /\ out s'' = out s ++ (if tell s then [CClosed] else []).
Proof.
  intros R P C T. destruct (reached_live s R P C) as [(L1 & L2 & _) B]. destruct (timeout_ok (step s) (timeoutCount s + 1) ltac:(lia)) as (t & PT & _).
  assert (refresh now s = Ok (withTimes (lastReceive s) (now + t) (timeoutCount s + 1) (withPosted 1 (tell s) s))) as E.
  { unfold refresh. assert (nextTimeout s <? now = true) as TT by (apply Z.ltb_lt; lia). rewrite TT.
    assert (lastReceive s + MaxStreamTimeout <? now = true) as TM by (apply Z.ltb_lt; unfold MaxStreamTimeout; lia). rewrite TM. cbn [orb].
    destruct s as [sp lr nt tc u p te o]; cbn [step lastReceive nextTimeout timeoutCount unacked posted tell] in *; subst p.
    destruct sp; try contradiction; unfold close, withPosted; cbn [step lastReceive timeoutCount posted tell]; rewrite PT; reflexivity. }
  eexists. split; [exact E|]. split; [reflexivity|]. split; [reflexivity|]. eexists. split; [reflexivity|].
  unfold runClose. cbn [withTimes withPosted tell]. destruct (tell s); (split; [reflexivity|]); cbn; rewrite ?app_nil_r; reflexivity.
Qed.

(** And a connected stream that heard something within 30 seconds is not closed by it. *)
Theorem C109_kept s now s' : step s = CONNECTED -> now <= lastReceive s + 30000 -> refresh now s = Ok s' -> posted s' = posted s /\ step s' = CONNECTED.
Proof.
  intros C T E. unfold refresh in E. rewrite C in E. destruct (nextTimeout s <? now); [|injection E as <-; split; [reflexivity | exact C]].
  assert (lastReceive s + MaxStreamTimeout <? now = false) as TM by (apply Z.ltb_ge; exact T). rewrite TM in E. cbn [orb] in E.
  destruct (0 <? unacked s); match type of E with bind ?x _ = _ => destruct x as [t|]; cbn [bind] in E; [injection E as <- | discriminate E] end; (split; [reflexivity | exact C]).
Qed.

(** No history sends more than two SYNs. *)
Theorem C109_syn s es s' : begun s -> run es s = Ok s' -> (times_ isSyn (out s') <= 2)%nat.
Proof. intros B R. exact (proj1 (proj2 (proj1 (Oinv_run es s s' (Oinv_begun s B) R)))). Qed.

(** One that is not answered is sent again once, after three seconds, and three seconds later the stream is closed. *)
Theorem C109_unanswered t0 n1 n2 : t0 + 3000 < n1 -> n1 <= t0 + 30000 -> n1 + 3000 < n2 ->
  exists s1 s2, refresh n1 (connect t0) = Ok s1 /\ out s1 = [OSyn; OSyn] /\ posted s1 = O /\
                refresh n2 s1 = Ok s2 /\ out s2 = [OSyn; OSyn] /\ posted s2 = 1%nat /\
                (forall now, now <= t0 + 3000 -> refresh now (connect t0) = Ok (connect t0)) /\ (forall now, now <= n1 + 3000 -> refresh now s1 = Ok s1).
Proof.
  intros A B C.
  exists {| step := SYN_SEND; lastReceive := t0; nextTimeout := n1 + 3000; timeoutCount := 1; unacked := 0; posted := 0; tell := true; out := [OSyn; OSyn] |}.
  exists {| step := SYN_SEND; lastReceive := t0; nextTimeout := n2 + 3000; timeoutCount := 2; unacked := 0; posted := 1; tell := true; out := [OSyn; OSyn] |}.
  split; [|split; [|split; [|split; [|split; [|split; [|split]]]]]].
  - unfold refresh, connect. cbn [step lastReceive nextTimeout timeoutCount unacked]. replace (t0 + 3000 <? n1) with true by (symmetry; apply Z.ltb_lt; lia).
    unfold MaxStreamTimeout. replace (t0 + 30000 <? n1) with false by (symmetry; apply Z.ltb_ge; lia). reflexivity.
  - reflexivity.
  - reflexivity.
  - unfold refresh. cbn [step lastReceive nextTimeout timeoutCount unacked]. replace (n1 + 3000 <? n2) with true by (symmetry; apply Z.ltb_lt; lia).
    destruct ((t0 + MaxStreamTimeout <? n2) || false); reflexivity.
  - reflexivity.
  - reflexivity.
  - intros now N. unfold refresh, connect. cbn [step nextTimeout]. replace (t0 + 3000 <? now) with false by (symmetry; apply Z.ltb_ge; lia). reflexivity.
  - intros now N. unfold refresh. cbn [withTimes say step nextTimeout]. replace (n1 + 3000 <? now) with false by (symmetry; apply Z.ltb_ge; lia). reflexivity.
Qed.

(** The answer to a SYN is likewise sent once more if nothing comes, and then the stream is closed. *)
Theorem C109_answer t0 n1 n2 : t0 + 3000 < n1 -> n1 <= t0 + 30000 -> n1 + 3000 < n2 ->
  exists s1 s2, refresh n1 (connectRemote t0) = Ok s1 /\ out s1 = [OState; OState] /\ posted s1 = O /\
                refresh n2 s1 = Ok s2 /\ out s2 = [OState; OState] /\ posted s2 = 1%nat /\
                (forall now, now <= t0 + 3000 -> refresh now (connectRemote t0) = Ok (connectRemote t0)) /\ (forall now, now <= n1 + 3000 -> refresh now s1 = Ok s1).
Proof.
  intros A B C.
  exists {| step := SYN_RECV; lastReceive := t0; nextTimeout := n1 + 3000; timeoutCount := 1; unacked := 0; posted := 0; tell := true; out := [OState; OState] |}.
  exists {| step := SYN_RECV; lastReceive := t0; nextTimeout := n2 + 3000; timeoutCount := 2; unacked := 0; posted := 1; tell := true; out := [OState; OState] |}.
  split; [|split; [|split; [|split; [|split; [|split; [|split]]]]]].
  - unfold refresh, connectRemote. cbn [step lastReceive nextTimeout timeoutCount unacked]. replace (t0 + 3000 <? n1) with true by (symmetry; apply Z.ltb_lt; lia).
    unfold MaxStreamTimeout. replace (t0 + 30000 <? n1) with false by (symmetry; apply Z.ltb_ge; lia). reflexivity.
  - reflexivity.
  - reflexivity.
  - unfold refresh. cbn [step lastReceive nextTimeout timeoutCount unacked]. replace (n1 + 3000 <? n2) with true by (symmetry; apply Z.ltb_lt; lia).
    destruct ((t0 + MaxStreamTimeout <? n2) || false); reflexivity.
  - reflexivity.
  - reflexivity.
  - intros now N. unfold refresh, connectRemote. cbn [step nextTimeout]. replace (t0 + 3000 <? now) with false by (symmetry; apply Z.ltb_ge; lia). reflexivity.
  - intros now N. unfold refresh. cbn [withTimes say step nextTimeout]. replace (n1 + 3000 <? now) with false by (symmetry; apply Z.ltb_ge; lia). reflexivity.
Qed.

(** A stream whose peer ended it, or whose owner did, is closed: at once if nothing is missing before the end, else at the next timeout at the latest. *)
Theorem C109_ended s : reached s -> posted s = O -> step s <> CLOSED ->
  let closed r := exists s', r = Ok s' /\ step s' = CLOSED /\ out s' = out s ++ (if tell s then [CClosed] else []) in
  closed (run [EFin true; EPosted] s) /\ closed (run [EReset; EPosted] s) /\ closed (run [EOwner; EPosted] s) /\
  (forall now, nextTimeout s < now -> closed (run [EFin false; ERefresh now; EPosted] s)) /\
  exists s', run [EFin false] s = Ok s' /\ step s' = CLOSING /\ out s' = out s /\ unacked s' = 0.
Proof.
  intros R P C closed. destruct (reached_live s R P C) as [L B]. destruct (timeout_ok CLOSING (timeoutCount s + 1) ltac:(lia)) as (t & PT & _).
  destruct s as [sp lr nt tc u p te o]. cbn [step posted nextTimeout timeoutCount tell out unacked] in *. subst p. unfold closed. clear closed R L B.
  destruct sp; try contradiction; destruct te; rewrite ?app_nil_r;
    (split; [eexists; repeat split; cbn; rewrite ?app_nil_r; reflexivity|]; split; [eexists; repeat split; cbn; rewrite ?app_nil_r; reflexivity|];
     split; [eexists; repeat split; cbn; rewrite ?app_nil_r; reflexivity|];
     split; [|eexists; repeat split; reflexivity]; intros now T;
     cbn [run bind step1 fin step withStep refresh nextTimeout lastReceive timeoutCount unacked posted tell out]; replace (nt <? now) with true by (symmetry; apply Z.ltb_lt; exact T);
     rewrite orb_true_r; unfold close, withPosted, withStep; cbn [step timeoutCount lastReceive posted tell]; rewrite PT; cbn [bind withTimes posted]; eexists; repeat split; cbn; rewrite ?app_nil_r; reflexivity).
Qed.

(** A packet during the handshake connects the stream and the owner is told; each packet ends the silence, and one later tells nothing. *)
Theorem C109_heard s now u s' : reached s -> packet now u s = Ok s' ->
  lastReceive s' = now /\ unacked s' = u /\ timeoutCount s' = timeoutCount s /\ posted s' = posted s /\
  match step s with
  | SYN_SEND | SYN_RECV => step s' = CONNECTED /\ out s' = out s ++ [CConnected] /\ now < nextTimeout s'
  | _ => step s' = step s /\ out s' = out s /\ now < nextTimeout s'
  end.
Proof.
  intros R E. destruct (reached_Tinv s R) as [B _]. destruct (timeout_ok CONNECTED (timeoutCount s) ltac:(lia)) as (t & PT & TB & _).
  destruct s as [sp lr nt tc u0 p te o]. cbn [step posted nextTimeout timeoutCount tell out unacked] in *. unfold packet in E. cbn [step] in E.
  destruct sp; cbn [handshaking withStep step timeoutCount] in E; try change (packetTimeout CLOSING tc) with (packetTimeout CONNECTED tc) in E; try change (packetTimeout CLOSED tc) with (packetTimeout CONNECTED tc) in E;
    rewrite PT in E; cbn [bind] in E; injection E as <-; cbn; repeat split; lia.
Qed.

(** What is written and not acknowledged is there for the timeout to send again. *)
Theorem C109_written s u : step s <> CLOSED -> exists s', run [EWrite u] s = Ok s' /\ unacked s' = u /\ step s' = step s /\ nextTimeout s' = nextTimeout s /\ lastReceive s' = lastReceive s /\ out s' = out s.
Proof. intros C. destruct s as [sp lr nt tc u0 p te o]. cbn [step] in C. destruct sp; try contradiction; eexists; repeat split. Qed.

(** The owner is told at most once that it connected and at most once that it closed, and after that nothing is sent or told. *)
Theorem C109_told s es1 s1 es2 s2 : begun s -> run es1 s = Ok s1 -> run es2 s1 = Ok s2 ->
  (times_ isConnected (out s2) <= 1)%nat /\ (times_ isClosed (out s2) <= 1)%nat /\ (times_ isClosed (out s1) = 1%nat -> out s2 = out s1 /\ step s2 = CLOSED).
Proof.
  intros B R1 R2. pose proof (Oinv_run es1 s s1 (Oinv_begun s B) R1) as I1. pose proof (Oinv_run es2 s1 s2 I1 R2) as (_ & A & _ & C & _).
  split; [exact A|]. split; [exact C|]. intros O1. destruct I1 as (_ & _ & _ & _ & T & K).
  assert (tell s1 = false) as T1 by (destruct (tell s1); [specialize (T eq_refl); lia | reflexivity]).
  destruct (closed_run es2 s1 s2 (K O1) T1 R2) as [X Y]. split; [exact Y | exact X].
Qed.

(** What a connected stream sent and was not acknowledged is sent again at the timeout, while it counted fewer than six timeouts in its life.
    Missing: after that it is not, see below. *)
Theorem C109_resend_partial s now s' : reached s -> posted s = O -> step s = CONNECTED -> 0 < unacked s -> nextTimeout s < now -> now <= lastReceive s + 30000 ->
  refresh now s = Ok s' -> out s' = out s ++ [OResend] /\ timeoutCount s < 6.
Proof.
  intros R P C U T M E. destruct (reached_live s R P ltac:(congruence)) as [(L1 & L2 & L3 & L4) B]. split; [|destruct (Z.lt_ge_cases (timeoutCount s) 6); [assumption | specialize (L4 C ltac:(lia)); lia]].
  unfold refresh in E. rewrite C in E. assert (nextTimeout s <? now = true) as TT by (apply Z.ltb_lt; exact T). rewrite TT in E.
  assert (lastReceive s + MaxStreamTimeout <? now = false) as TM by (apply Z.ltb_ge; exact M). rewrite TM in E. cbn [orb] in E.
  assert (0 <? unacked s = true) as UU by (apply Z.ltb_lt; exact U). rewrite UU in E.
  match type of E with bind ?x _ = _ => destruct x as [t|]; cbn [bind] in E; [injection E as <- | discriminate E] end. reflexivity.
Qed.

(** The count of timeouts never goes down. *)
Lemma count_step e s s' : step1 e s = Ok s' -> timeoutCount s <= timeoutCount s'.
Proof.
  destruct s as [sp lr nt tc u p te o]. intros E. destruct e; cbn [step1] in E.
  - unfold refresh in E. cbn [step lastReceive nextTimeout timeoutCount unacked] in E. destruct sp; try (injection E as <-; cbn; lia).
    all: destruct (nt <? now); [|injection E as <-; cbn; lia].
    all: repeat match type of E with context [if ?b then _ else _] => lazymatch b with context [packetTimeout] => fail | _ => destruct b eqn:? end end.
    all: unfold close, withPosted, say in E; cbn [step timeoutCount lastReceive posted tell unacked nextTimeout out] in E.
    all: match type of E with bind ?x _ = _ => destruct x as [t|]; cbn [bind] in E; [injection E as <- | discriminate E] end; cbn; lia.
  - unfold packet in E. cbn [step] in E. destruct sp; cbn [handshaking] in *;
      match type of E with bind ?x _ = _ => destruct x as [t|]; cbn [bind] in E; [injection E as <- | discriminate E] end; cbn; lia.
  - injection E as <-. destruct sp, eof; cbn; lia.
  - injection E as <-. destruct sp; cbn; lia.
  - injection E as <-. destruct sp; cbn; lia.
  - injection E as <-. destruct sp; cbn; lia.
  - cbn [posted] in E. destruct p, te; injection E as <-; cbn; lia.
Qed.

(** After the handshake there is no way back. *)
Lemma shaken_step e s s' : handshaking (step s) = false -> step1 e s = Ok s' -> handshaking (step s') = false.
Proof.
  destruct s as [sp lr nt tc u p te o]. cbn [step]. intros H E. destruct e; cbn [step1] in E.
  - unfold refresh in E. cbn [step lastReceive nextTimeout timeoutCount unacked] in E. destruct sp; try discriminate H; try (injection E as <-; reflexivity).
    all: destruct (nt <? now); [|injection E as <-; reflexivity].
    all: repeat match type of E with context [if ?b then _ else _] => lazymatch b with context [packetTimeout] => fail | _ => destruct b eqn:? end end.
    all: unfold close, withPosted, say in E; cbn [step timeoutCount lastReceive posted tell unacked nextTimeout out] in E.
    all: match type of E with bind ?x _ = _ => destruct x as [t|]; cbn [bind] in E; [injection E as <- | discriminate E] end; reflexivity.
  - unfold packet in E. cbn [step] in E. destruct sp; try discriminate H; cbn [handshaking] in *;
      match type of E with bind ?x _ = _ => destruct x as [t|]; cbn [bind] in E; [injection E as <- | discriminate E] end; reflexivity.
  - injection E as <-. destruct sp, eof; try discriminate H; reflexivity.
  - injection E as <-. destruct sp; try discriminate H; reflexivity.
  - injection E as <-. destruct sp; try discriminate H; reflexivity.
  - injection E as <-. destruct sp; try discriminate H; reflexivity.
  - cbn [posted] in E. destruct p, te; injection E as <-; try exact H; reflexivity.
Qed.

Lemma tired_step e s s' : Tinv s -> handshaking (step s) = false -> 6 <= timeoutCount s -> match e with ERefresh _ => posted s = O | _ => True end ->
  step1 e s = Ok s' -> times_ isResend (out s') = times_ isResend (out s).
Proof.
  intros [B D] H N P E. destruct e; cbn [step1] in E.
  - unfold refresh in E. destruct (step s) eqn:C; try discriminate H; try (injection E as <-; reflexivity).
    all: destruct (nextTimeout s <? now) eqn:T; [apply Z.ltb_lt in T | injection E as <-; reflexivity].
    all: destruct D as [D | [D | (L1 & L2 & L3 & L4)]]; [congruence | lia |].
    + specialize (L4 C N). assert (lastReceive s + MaxStreamTimeout <? now = true) as TM by (apply Z.ltb_lt; unfold MaxStreamTimeout; lia). rewrite TM in E. cbn [orb] in E.
      unfold close in E. rewrite C in E. match type of E with bind ?x _ = _ => destruct x as [t|]; cbn [bind] in E; [injection E as <- | discriminate E] end. reflexivity.
    + rewrite orb_true_r in E. unfold close in E. rewrite C in E. match type of E with bind ?x _ = _ => destruct x as [t|]; cbn [bind] in E; [injection E as <- | discriminate E] end. reflexivity.
  - unfold packet in E. rewrite H in E. match type of E with bind ?x _ = _ => destruct x as [t|]; cbn [bind] in E; [injection E as <- | discriminate E] end. reflexivity.
  - injection E as <-. unfold fin, close. destruct (step s) eqn:C, eof; cbn [step withStep]; rewrite ?C; reflexivity.
  - injection E as <-. unfold reset, close. cbn [step withStep]. destruct (step s); reflexivity.
  - injection E as <-. unfold write. destruct (step s); reflexivity.
  - injection E as <-. unfold close. destruct (step s); reflexivity.
  - destruct (posted s); injection E as <-; [reflexivity|]. unfold runClose. destruct (tell s); [|reflexivity]. cbn [withPosted say withStep out]. rewrite times_app. cbn. lia.
Qed.

(** As the count is never set back, a stream which had six timeouts in its life, however long ago and however well they were answered, never again sends anything anew
    because of a timeout: in any further history. *)
Theorem C109_never_again es : forall s s', reached s -> step s = CONNECTED -> 6 <= timeoutCount s -> prompt es s -> run es s = Ok s' ->
  times_ isResend (out s') = times_ isResend (out s).
Proof.
  intros s s' R C N. assert (handshaking (step s) = false) as H by (rewrite C; reflexivity). pose proof (reached_Tinv s R) as I. clear R C.
  revert s s' N H I. induction es as [|e es IH]; intros s s' N H I P E; [injection E as <-; reflexivity|]. destruct P as [P1 P2]. cbn [run] in E.
  destruct (step1 e s) as [s1|] eqn:E1; [|discriminate E]. cbn [bind] in E. rewrite <- (tired_step e s s1 I H N P1 E1).
  destruct (Tinv_step e s I P1) as (s1' & E1' & I1). assert (s1' = s1) as -> by congruence.
  apply (IH s1 s'); try assumption; [pose proof (count_step e s s1 E1); lia | exact (shaken_step e s s1 H E1)].
Qed.

(** Six losses, each made good at once, over an hour. *)
Definition hour : list event :=
  EPacket 100 0 :: flat_map (fun i => let t := Z.of_nat i * 600000 in [EPacket t 0; EWrite 100; ERefresh (t + 29000); EPacket (t + 29100) 0]) (seq 1 6).

(** So there is a stream with data that is not acknowledged, heard a moment ago, at which a timeout never sends that again. *)
Theorem C109_resend_refuted : exists s, reached s /\ posted s = O /\ step s = CONNECTED /\ 0 < unacked s /\
  forall now s', refresh now s = Ok s' -> times_ isResend (out s') = times_ isResend (out s).
Proof.
  destruct (run (hour ++ [EWrite 100]) (connect 0)) as [s|] eqn:E; [|vm_compute in E; discriminate E].
  assert (reached s) as R.
  { exists (connect 0), (hour ++ [EWrite 100]). split; [exists 0; left; reflexivity|]. split; [|exact E]. vm_compute. repeat split. }
  exists s. split; [exact R|]. vm_compute in E. injection E as <-. split; [reflexivity|]. split; [reflexivity|]. split; [reflexivity|].
  intros now s' E. refine (C109_never_again [ERefresh now] _ s' R eq_refl _ _ _).
  - vm_compute. discriminate.
  - cbn [prompt step1]. split; [reflexivity|]. rewrite E. exact Logic.I.
  - cbn [run step1]. rewrite E. reflexivity.
Qed.

Example C109_resend_ex : exists s, run [EPacket 100 0; EWrite 100; ERefresh 700; ERefresh 2300; ERefresh 5400] (connect 0) = Ok s /\ out s = [OSyn; CConnected; OResend; OResend; OResend] /\ nextTimeout s = 9900.
Proof. eexists. vm_compute. repeat split. Qed.
Example C109_told_ex : exists s, run [ERefresh 3500; ERefresh 7000; EPacket 7010 0; EOwner; EPosted; EPosted; EPacket 7020 0; ERefresh 7500] (connect 0) = Ok s /\ out s = [OSyn; OSyn; CConnected; CClosed] /\ step s = CLOSED.
Proof. eexists. vm_compute. repeat split. Qed.

Print Assumptions C109_no_overflow.
Print Assumptions C109_no_overflow_refuted.
Print Assumptions C109_waits.
Print Assumptions C109_given_up.
Print Assumptions C109_kept.
Print Assumptions C109_syn.
Print Assumptions C109_unanswered.
Print Assumptions C109_answer.
Print Assumptions C109_ended.
Print Assumptions C109_heard.
Print Assumptions C109_written.
Print Assumptions C109_told.
Print Assumptions C109_resend_partial.
Print Assumptions C109_never_again.
Print Assumptions C109_resend_refuted.
