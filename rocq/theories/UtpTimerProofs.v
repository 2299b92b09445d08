(** Proofs for UtpTimerProps.v. *)
From Verif Require Import Base UtpTimerModel UtpTimerSpec.

(** With few timeouts the wait is between half a second and 30 seconds, and it is 30 seconds from the sixth on. *)
Lemma timeout_ok sp c : 0 <= c <= 12 ->
  exists t, packetTimeout sp c = Ok t /\ 500 <= t <= 30000 /\ (handshaking sp = true -> t = 3000) /\ (handshaking sp = false -> 6 <= c -> t = 30000).
Proof.
  intros B. unfold packetTimeout. destruct (handshaking sp) eqn:H.
  - exists 3000. repeat split; intros; try reflexivity; lia || discriminate.
  - assert (c = 0 \/ c = 1 \/ c = 2 \/ c = 3 \/ c = 4 \/ c = 5 \/ c = 6 \/ c = 7 \/ c = 8 \/ c = 9 \/ c = 10 \/ c = 11 \/ c = 12) as D by lia.
    repeat (destruct D as [-> | D]; [eexists; split; [reflexivity|]; repeat split; intros; try discriminate; try lia; vm_compute; try reflexivity; discriminate |]).
    subst c. eexists; split; [reflexivity|]. repeat split; intros; try discriminate; try lia; vm_compute; try reflexivity; discriminate.
Qed.

(** What holds of a stream nothing closes yet. *)
Definition live (s : timer) : Prop :=
  timeoutCount s <= 10 /\ lastReceive s <= nextTimeout s <= lastReceive s + 60000 /\
  (handshaking (step s) = true -> timeoutCount s <= 9 /\ lastReceive s + 3000 * (timeoutCount s + 1) <= nextTimeout s) /\
  (step s = CONNECTED -> 6 <= timeoutCount s -> lastReceive s + 30000 <= nextTimeout s).
Definition Tinv (s : timer) : Prop := 0 <= timeoutCount s <= 11 /\ (step s = CLOSED \/ (0 < posted s)%nat \/ live s).

Lemma Tinv_begun s : begun s -> Tinv s.
Proof.
  intros [now [-> | ->]]; (split; [cbn; lia|]); right; right; unfold live; cbn [connect connectRemote timeoutCount lastReceive nextTimeout step handshaking];
    (split; [lia|]; split; [lia|]; split; [lia|]; discriminate).
Qed.

Lemma Tinv_refresh now s : Tinv s -> posted s = O -> exists s', refresh now s = Ok s' /\ Tinv s'.
Proof.
  intros I0 P. pose proof I0 as [B D]. unfold refresh. destruct (step s) eqn:E; try (exists s; split; [reflexivity | exact I0]).
  all: destruct (nextTimeout s <? now) eqn:T; [|exists s; split; [reflexivity | exact I0]].
  all: apply Z.ltb_lt in T; destruct D as [D | [D | L]]; [congruence | lia |].
  all: destruct s as [sp lr nt tc u p te o]; cbn [step lastReceive nextTimeout timeoutCount unacked posted] in *; subst sp p.
  all: unfold live in L; cbn [step lastReceive nextTimeout timeoutCount handshaking] in L; destruct L as (L1 & L2 & L3 & L4).
  all: destruct (timeout_ok SYN_SEND (tc + 1) ltac:(lia)) as (t1 & T1 & B1 & H1 & _); destruct (timeout_ok CONNECTED (tc + 1) ltac:(lia)) as (t2 & T2 & B2 & _ & H2);
       assert (packetTimeout SYN_RECV (tc + 1) = Ok t1) as T3 by exact T1; assert (packetTimeout CLOSING (tc + 1) = Ok t2) as T4 by exact T2;
       specialize (H1 eq_refl); specialize (H2 eq_refl).
  all: destruct (lr + MaxStreamTimeout <? now) eqn:M; cbn [orb].
  all: repeat match goal with |- context [if ?b then _ else _] => destruct b eqn:? end.
  all: unfold close, withPosted, say; cbn [step timeoutCount lastReceive]; rewrite ?T1, ?T2, ?T3, ?T4; cbn [bind]; eexists; (split; [reflexivity|]).
  all: unfold withTimes; split; cbn [step lastReceive nextTimeout timeoutCount unacked posted handshaking]; [lia|].
  all: try (right; left; lia).
  all: right; right; unfold live, MaxStreamTimeout in *; cbn [step lastReceive nextTimeout timeoutCount handshaking]; apply Z.ltb_ge in M.
  all: repeat split; intros; try discriminate; try lia.
Qed.

Lemma Tinv_packet now u s : Tinv s -> exists s', packet now u s = Ok s' /\ Tinv s'.
Proof.
  intros [B D]. destruct s as [sp lr nt tc u0 p te o]. unfold packet. cbn [step timeoutCount] in *.
  destruct (timeout_ok CONNECTED tc ltac:(lia)) as (t2 & T2 & B2 & _ & H2); specialize (H2 eq_refl).
  assert (packetTimeout CLOSING tc = Ok t2) as T4 by exact T2. assert (packetTimeout CLOSED tc = Ok t2) as T5 by exact T2.
  destruct sp; cbn [handshaking]; unfold withStep, withTimes, say; cbn [step timeoutCount lastReceive]; rewrite ?T2, ?T4, ?T5; cbn [bind]; eexists; (split; [reflexivity|]);
    (split; cbn [step lastReceive nextTimeout timeoutCount unacked posted handshaking]; [lia|]).
  all: cbn [posted] in D; destruct D as [D | [D | D]]; try discriminate; try (left; reflexivity); try (right; left; exact D).
  all: destruct D as (L1 & _); cbn [timeoutCount] in L1; right; right; unfold live; cbn [step lastReceive nextTimeout timeoutCount handshaking]; repeat split; intros; try discriminate; try lia.
Qed.

Lemma Tinv_close s : Tinv s -> Tinv (close s).
Proof. intros I0. pose proof I0 as [B D]. unfold close. destruct (step s) eqn:E; try exact I0; (split; [exact B|]); right; left; cbn; lia. Qed.

Lemma Tinv_unacked u s : Tinv s -> Tinv (withStep (step s) u s).
Proof. intros [B D]. split; [exact B|]. destruct D as [D | [D | D]]; [left; exact D | right; left; exact D | right; right; exact D]. Qed.

Lemma Tinv_fin eof s : Tinv s -> Tinv (fin eof s).
Proof.
  intros I. assert (Tinv (match step s with CLOSED => s | _ => withStep CLOSING 0 s end)) as J.
  { destruct I as [B D]. destruct (step s) eqn:E; try (split; [exact B|]; destruct D as [D | [D | (L1 & L2 & _)]]; [congruence | right; left; exact D |];
      right; right; repeat split; try exact L1; try exact (proj1 L2); try exact (proj2 L2); cbn; intros; discriminate). split; [exact B | left; exact E]. }
  unfold fin. destruct eof; [apply Tinv_close|]; exact J.
Qed.

Lemma Tinv_step e s : Tinv s -> (match e with ERefresh _ => posted s = O | _ => True end) -> exists s', step1 e s = Ok s' /\ Tinv s'.
Proof.
  intros I P. destruct e; cbn [step1].
  - apply Tinv_refresh; assumption.
  - apply Tinv_packet; assumption.
  - eexists; split; [reflexivity | apply Tinv_fin; exact I].
  - eexists; split; [reflexivity | apply Tinv_close, Tinv_unacked; exact I].
  - eexists; split; [reflexivity|]. unfold write. destruct (step s) eqn:E; try exact I; rewrite <- E; apply Tinv_unacked; exact I.
  - eexists; split; [reflexivity | apply Tinv_close; exact I].
  - destruct (posted s) eqn:E; [exists s; split; [reflexivity | exact I]|]. eexists; split; [reflexivity|].
    destruct I as [B _]. unfold runClose. destruct (tell s); (split; [exact B | left; reflexivity]).
Qed.

Lemma Tinv_run es : forall s, Tinv s -> prompt es s -> exists s', run es s = Ok s' /\ Tinv s'.
Proof.
  induction es as [|e es IH]; intros s I P; [exists s; split; [reflexivity | exact I]|].
  destruct P as [P1 P2]. destruct (Tinv_step e s I P1) as (s1 & E1 & I1). rewrite E1 in P2. cbn [run]. rewrite E1. cbn [bind]. exact (IH s1 I1 P2).
Qed.

(** ** What is sent and said, in any history at all *)

Lemma times_app f a b : times_ f (a ++ b) = (times_ f a + times_ f b)%nat.
Proof. unfold times_. rewrite filter_app, app_length. reflexivity. Qed.

(** At most two SYNs; connected told only while handshaking; closed told only while [tell]. *)
Definition Oinv (s : timer) : Prop :=
  (0 <= timeoutCount s /\ (times_ isSyn (out s) <= 2)%nat /\ (timeoutCount s = 0 -> (times_ isSyn (out s) <= 1)%nat)) /\
  (times_ isConnected (out s) <= 1)%nat /\ (handshaking (step s) = true -> times_ isConnected (out s) = 0%nat) /\
  (times_ isClosed (out s) <= 1)%nat /\ (tell s = true -> times_ isClosed (out s) = 0%nat) /\
  (times_ isClosed (out s) = 1%nat -> step s = CLOSED).

Lemma Oinv_begun s : begun s -> Oinv s.
Proof. intros [now [-> | ->]]; unfold Oinv; cbn; repeat split; intros; try lia; discriminate. Qed.

Lemma Oinv_step e s s' : Oinv s -> step1 e s = Ok s' -> Oinv s'.
Proof.
  intros I E. destruct s as [sp lr nt tc u p te o]. unfold Oinv in *. cbn [step timeoutCount tell out] in I. destruct I as ((I0 & I1 & I2) & I3 & I4 & I5 & I6 & I7).
  destruct e; cbn [step1] in E.
  - unfold refresh in E. cbn [step lastReceive nextTimeout timeoutCount unacked] in E.
    destruct sp; cbn [handshaking] in *; try (injection E as <-; cbn [step timeoutCount tell out handshaking]; repeat split; assumption).
    all: destruct (nt <? now); [|injection E as <-; cbn [step timeoutCount tell out handshaking]; repeat split; assumption].
    all: repeat match type of E with context [if ?b then _ else _] => lazymatch b with context [packetTimeout] => fail | _ => destruct b eqn:? end end.
    all: unfold close, withPosted, say in E; cbn [step timeoutCount lastReceive posted tell unacked nextTimeout out] in E.
    all: match type of E with bind ?x _ = _ => destruct x as [t|]; cbn [bind] in E; [injection E as <- | discriminate E] end.
    all: unfold withTimes; cbn [step timeoutCount tell out handshaking]; rewrite ?times_app; cbn [times_ filter isSyn isConnected isClosed length].
    all: repeat match goal with H : (0 <? _) = false |- _ => apply Z.ltb_ge in H end.
    all: repeat split; intros; try discriminate; try lia.
    all: try (specialize (I4 eq_refl)); try (specialize (I7 ltac:(lia)); discriminate I7); try (specialize (I6 ltac:(assumption))); try lia.
    all: try (apply I2; lia).
  - unfold packet in E. cbn [step] in E. destruct sp; cbn [handshaking] in *; unfold withStep, withTimes, say in E; cbn [step timeoutCount] in E;
      match type of E with bind ?x _ = _ => destruct x as [t|]; cbn [bind] in E; [injection E as <- | discriminate E] end;
      cbn [step timeoutCount tell out handshaking]; rewrite ?times_app; unfold times_ in *; cbn [filter isSyn isConnected isClosed length] in *; try (specialize (I4 eq_refl));
      repeat split; intros; try discriminate; try lia; try (specialize (I7 ltac:(lia)); discriminate I7); try (specialize (I6 ltac:(assumption))); try lia; try (specialize (I2 ltac:(assumption)); lia); auto.
  - injection E as <-. unfold fin, close, withStep, withPosted. destruct sp, eof; cbn [step timeoutCount tell out handshaking] in *; repeat split; intros; try discriminate; auto; try (specialize (I7 ltac:(lia)); discriminate I7).
  - injection E as <-. unfold reset, close, withStep, withPosted. destruct sp; cbn [step timeoutCount tell out handshaking] in *; repeat split; intros; try discriminate; auto.
  - injection E as <-. unfold write, withStep. destruct sp; cbn [step timeoutCount tell out handshaking] in *; repeat split; intros; try discriminate; auto.
  - injection E as <-. unfold close, withPosted. destruct sp; cbn [step timeoutCount tell out handshaking] in *; repeat split; intros; try discriminate; auto.
  - cbn [posted] in E. destruct p; [injection E as <-; cbn [step timeoutCount tell out]; repeat split; assumption|]. injection E as <-.
    unfold runClose. cbn [tell]. destruct te; unfold withPosted, withStep, say; cbn [step timeoutCount tell out handshaking]; rewrite ?times_app; unfold times_ in *; cbn [filter isSyn isConnected isClosed length];
      try (specialize (I6 eq_refl)); repeat split; intros; try discriminate; try lia; auto; try (specialize (I2 ltac:(assumption)); lia).
Qed.

Lemma Oinv_run es : forall s s', Oinv s -> run es s = Ok s' -> Oinv s'.
Proof.
  induction es as [|e es IH]; intros s s' I E; [injection E as <-; exact I|]. cbn [run] in E. destruct (step1 e s) as [s1|] eqn:E1; [|discriminate E].
  cbn [bind] in E. exact (IH s1 s' (Oinv_step e s s1 I E1) E).
Qed.

(** A closed stream stays closed, and nothing is sent or said by it. *)
Lemma closed_step e s s' : step s = CLOSED -> tell s = false -> step1 e s = Ok s' -> step s' = CLOSED /\ tell s' = false /\ out s' = out s.
Proof.
  destruct s as [sp lr nt tc u p te o]. cbn [step tell]. intros -> -> E. destruct e; cbn [step1] in E.
  - injection E as <-. repeat split.
  - unfold packet in E. cbn [step handshaking] in E. match type of E with bind ?x _ = _ => destruct x as [t|]; cbn [bind] in E; [injection E as <- | discriminate E] end. repeat split.
  - injection E as <-. destruct eof; repeat split.
  - injection E as <-. repeat split.
  - injection E as <-. repeat split.
  - injection E as <-. repeat split.
  - cbn [posted] in E. destruct p; injection E as <-; repeat split.
Qed.

Lemma closed_run es : forall s s', step s = CLOSED -> tell s = false -> run es s = Ok s' -> step s' = CLOSED /\ out s' = out s.
Proof.
  induction es as [|e es IH]; intros s s' C T E; [injection E as <-; split; [exact C | reflexivity]|]. cbn [run] in E.
  destruct (step1 e s) as [s1|] eqn:E1; [|discriminate E]. cbn [bind] in E. destruct (closed_step e s s1 C T E1) as (C1 & T1 & O1).
  destruct (IH s1 s' C1 T1 E) as [C2 O2]. split; [exact C2 | congruence].
Qed.
