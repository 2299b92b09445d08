(** C103: what is written goes out once, in order, to the address set *)
From Verif Require Import Base BaseLemmas WriterModel WriterSpec WriterProofs.
From Coq Require Import Lia List.
Import ListNotations.

(** Whatever happens, nothing is sent that the owner did not write *)
Theorem C103_known : forall b es d, In d (sent (out (run es (newWriter b)))) -> In d (written es).
Proof.
  intros b es d D. assert (K : Known ([] ++ written es) (run es (newWriter b))) by (apply Known_run; split; [now left|apply Forall_nil]).
  destruct K as (_ & F). rewrite Forall_forall in F. now apply F.
Qed.
Print Assumptions C103_known.

(** When the address is set and the owner writes only while no connect is on its way, each datagram is sent once and in order; the last one may wait for the
    connect it began. Missing: the owner that writes before (C103_lost_refuted, C103_resolving_refuted). *)
Theorem C103_once_partial : forall b a es, let s := step (EAddress a) (newWriter b) in calmRun es s ->
  let s' := run es s in
  connects s' = 0%nat /\ sent (out s') = written es \/ connects s' = 1%nat /\ sent (out s') ++ [message s'] = written es /\ sent (out (step (EConnected true true) s')) = written es.
Proof.
  intros b a es s C s'. assert (E : Even ([] ++ written es) s') by (apply Even_run; [exact C|]; split; [discriminate|now left]). cbn [app] in E.
  destruct E as (A & [E|(E1 & E2 & E3 & E4 & E5)]); [now left|]. right. split; [exact E1|]. split; [exact E5|].
  assert (E : Even (written es ++ writes (EConnected true true)) (step (EConnected true true) s')) by (apply Even_step; [now split|]; split; [exact A|right; now repeat split]).
  cbn [writes] in E. rewrite app_nil_r in E. destruct E as (_ & [(_ & E)|(E & _)]); [exact E|]. exfalso. clear - E E1. clearbody s'. destruct s' as [st0 h r m o b0 t re te c rc ou]. cbn in E1. subst. revert E. clear.
  destruct re, st0, m; cbn; discriminate.
Qed.
Print Assumptions C103_once_partial.

Example C103_once_partial_ex : let es := [EWrite [1; 2] true; EConnected true true; EView [3] true; EReceive false [RGot 7 [9]]; EWrite [4] true] in
  calmRun es (step (EAddress 7) (newWriter false)) /\ sent (out (run es (step (EAddress 7) (newWriter false)))) = [[1; 2]; [3]; [4]] /\
  connects (run es (step (EAddress 7) (newWriter false))) = 0%nat.
Proof. vm_compute. repeat split; discriminate. Qed.

(** Violated: written twice before the connect is over, the first datagram is never sent and the second one twice *)
Theorem C103_lost_refuted : forall a x d y e, sent (out (run [EWrite (x :: d) true; EWrite (y :: e) true; EConnected true true; EConnected true true] (step (EAddress a) (newWriter false)))) = [y :: e; y :: e].
Proof. reflexivity. Qed.
Print Assumptions C103_lost_refuted.

(** Violated: while the name is looked up, only the last datagram is kept *)
Theorem C103_resolving_refuted : forall a ws x d, Forall (fun w => exists e, w = EWrite e true) ws ->
  sent (out (run (EName true :: ws ++ [EWrite (x :: d) true; EResolved (Some a) true; EConnected true true]) (newWriter false))) = [x :: d].
Proof.
  intros a ws x d F. unfold run. cbn [fold_left]. rewrite fold_left_app.
  assert (W : forall m, exists m2, fold_left (fun s e => step e s) ws (withMessage m (step (EName true) (newWriter false))) = withMessage m2 (step (EName true) (newWriter false))).
  { clear x d. induction F as [|w ws (e & ->) F I]; intros m; [now exists m|]. cbn [fold_left]. exact (I e). }
  destruct (W []) as (m2 & E). change (withMessage [] (step (EName true) (newWriter false))) with (step (EName true) (newWriter false)) in E. rewrite E. reflexivity.
Qed.
Print Assumptions C103_resolving_refuted.

(** As long as one address is set and only that one answers, everything goes there *)
Theorem C103_target_partial : forall b a es, Forall (only a) es -> Forall (fun t => t = a) (sentTo (out (run (EAddress a :: es) (newWriter b)))).
Proof.
  intros b a es F. change (run (EAddress a :: es) (newWriter b)) with (run es (step (EAddress a) (newWriter b))).
  assert (S0 : At a (step (EAddress a) (newWriter b))) by (split; [reflexivity|apply Forall_nil]). revert S0. generalize (step (EAddress a) (newWriter b)) as s.
  induction F as [|e es O F I]; intros s A; [apply A|]. unfold run in *. cbn [fold_left]. apply I. now apply At_step.
Qed.
Print Assumptions C103_target_partial.

Example C103_target_partial_ex : let es := [EWrite [1; 2] true; EConnected true true; EReceive false [RGot 7 [9]; RInterrupted; RGot 7 [8]]; ERewrite true] in
  Forall (only 7) es /\ sentTo (out (run (EAddress 7 :: es) (newWriter false))) = [7; 7].
Proof. split; [|reflexivity]. repeat apply Forall_cons; try apply Forall_nil; cbn; auto. Qed.

(** Violated: the answer of anyone overwrites the address, and what is broadcast next is sent to that one alone *)
Theorem C103_target_refuted : forall a f x d y e z r, f <> a ->
  sentTo (out (run [EAddress a; EWrite (x :: d) true; EReceive false [RGot f (y :: e)]; EWrite (z :: r) true] (newWriter true))) = [a; f].
Proof. reflexivity. Qed.
Print Assumptions C103_target_refuted.

(** After a close the owner is not called again, whatever still happens *)
Theorem C103_closed : forall b es es2, filter isCall (out (run es2 (step EClose (run es (newWriter b))))) = filter isCall (out (run es (newWriter b))).
Proof.
  intros b es es2. assert (S0 : Safe (run es (newWriter b))) by (apply Safe_run; split; [intros []|]; left; now repeat split).
  assert (O : opened (run es (newWriter b)) = true \/ receives (run es (newWriter b)) = 0%nat).
  { destruct S0 as (_ & [(_ & A)|(_ & A)]); [|now right]. destruct (opened _); [now left|]. right. now apply A. }
  revert O. clear S0. generalize (run es (newWriter b)). clear. intros s O. rewrite Shut_run.
  - destruct s as [st0 h r m o b t re te c rc ou]. destruct st0, o; reflexivity.
  - destruct s as [st0 h r m o b t re te c rc ou]. cbn in O. unfold Shut; destruct st0, o; cbn in O |- *; (split; [reflexivity|]); (split; [reflexivity|]); destruct O as [O|O]; try reflexivity; try exact O; discriminate O.
Qed.
Print Assumptions C103_closed.

(** No history calls a callback that is not set *)
Theorem C103_no_throw : forall b es, ~ In OThrow (out (run es (newWriter b))).
Proof. intros b es. apply (Safe_run es (newWriter b)). split; [intros []|]. left. now repeat split. Qed.
Print Assumptions C103_no_throw.

(** Violated: a write after the close opens the socket again and is sent *)
Theorem C103_again_refuted : forall b a x d, let s := run [EClose; EWrite (x :: d) true; EConnected true true] (step (EAddress a) (newWriter b)) in
  opened s = true /\ sent (out s) = [x :: d].
Proof. intros [] a x d; split; reflexivity. Qed.
Print Assumptions C103_again_refuted.

(** The owner gets each answer that waits, the first thirty of them, in order and with the state it was in otherwise *)
Theorem C103_answers : forall s f ds, st s = Connected -> respond s = true -> Forall (fun d => d <> []) ds -> (length ds <= 30)%nat ->
  out (snd (handleReceive false (map (RGot f) ds) s)) = out s ++ map (CResponse f) ds /\ fst (handleReceive false (map (RGot f) ds) s) = [].
Proof.
  intros s f ds C R F L. unfold handleReceive. rewrite C. clear C. revert s ds R F L. generalize 30%nat as n.
  induction n as [|n I]; intros s ds R F L. { destruct ds; [|cbn in L; lia]. cbn. now rewrite app_nil_r. }
  destruct ds as [|d ds]; [cbn; now rewrite app_nil_r|]. inversion F as [|? ? D F2]; subst. destruct d as [|x d]; [congruence|].
  cbn [map readLoop]. change (respond (withTarget f s)) with (respond s). rewrite R. cbn in L. destruct (I (say (CResponse f (x :: d)) (withTarget f s)) ds R F2) as (A & B); [lia|]. rewrite A, B. cbn [say out withTarget]. rewrite <- app_assoc. split; reflexivity.
Qed.
Print Assumptions C103_answers.

Example C103_answers_ex : let s := run [EAddress 7; EWrite [1] true; EConnected true true] (newWriter false) in st s = Connected /\ respond s = true /\ receives s = 1%nat /\
  out (snd (handleReceive false (map (RGot 7) [[9]; [8]]) s)) = [OSent 7 [1]; CResponse 7 [9]; CResponse 7 [8]].
Proof. repeat split. Qed.

(** Violated: an empty datagram is never taken from the socket, so nothing behind it is ever read, however often the handler runs *)
Theorem C103_stuck_refuted : forall s f rs n, st s = Connected ->
  Nat.iter n (fun q => handleReceive false (fst q) (snd q)) (RGot f [] :: rs, s) = (RGot f [] :: rs, s).
Proof.
  intros s f rs n C. induction n as [|n I]; [reflexivity|]. change (Nat.iter (S n) ?g ?x) with (g (Nat.iter n g x)). cbn beta. rewrite I. cbn [fst snd]. unfold handleReceive. rewrite C. reflexivity.
Qed.
Print Assumptions C103_stuck_refuted.

(** A send that fails is told to the owner, and the next write connects again *)
Theorem C103_failed : forall s x d, st s = Connected -> tell s = true ->
  let s1 := step (EWrite (x :: d) false) s in st s1 = Initialized /\ out s1 = out s ++ [OSent (target s) (x :: d); CClosed] /\
  forall y e, broadcast s = false -> connects (step (EWrite (y :: e) true) s1) = S (connects s).
Proof.
  intros [st0 h r m o b t re te c rc ou] x d A B. cbn in A, B. subst. cbn. rewrite <- app_assoc. repeat split. intros y e ->. reflexivity.
Qed.
Print Assumptions C103_failed.

(** A name that is not found, and a connect that fails, are told too, and the lookup is over *)
Theorem C103_not_found : forall s ok, tell s = true ->
  (resolving s = true -> let s1 := step (EResolved None ok) s in out s1 = out s ++ [CClosed] /\ resolving s1 = false) /\
  ((0 < connects s)%nat -> out (step (EConnected false ok) s) = out s ++ [CClosed]).
Proof.
  intros [st0 h r m o b t re te c rc ou] ok A. cbn in A. subst te. split.
  - cbn. intros ->. destruct st0; split; reflexivity.
  - cbn. destruct c; [lia|]. intros _. destruct st0; reflexivity.
Qed.
Print Assumptions C103_not_found.

Example C103_not_found_ex : let s := run [EName true; EWrite [1] true] (newWriter false) in tell s = true /\ resolving s = true /\
  resolving (step (EWrite [1] true) (step (EResolved None true) s)) = true.
Proof. repeat split. Qed.

(** Violated: it then waits for answers once more each time, although the old wait is not over *)
Theorem C103_loops_refuted : forall a x d n, receives (Nat.iter n (fun s => run [EWrite (x :: d) false; EWrite (x :: d) true; EConnected true true] s)
    (run [EAddress a; EWrite (x :: d) true; EConnected true true] (newWriter false))) = S n.
Proof.
  intros a x d n.
  assert (G : let s := Nat.iter n (fun s => run [EWrite (x :: d) false; EWrite (x :: d) true; EConnected true true] s) (run [EAddress a; EWrite (x :: d) true; EConnected true true] (newWriter false)) in
    st s = Connected /\ respond s = true /\ broadcast s = false /\ connects s = 0%nat /\ receives s = S n); [|apply G].
  induction n as [|n I]; [repeat split|]. change (Nat.iter (S n) ?g ?x) with (g (Nat.iter n g x)). cbv zeta. cbv zeta in I.
  destruct (Nat.iter n _ _) as [st0 h r m o b t re te c rc ou]. destruct I as (I1 & I2 & I3 & I4 & I5). cbn in I1, I2, I3, I4, I5. subst. destruct te; repeat split.
Qed.
Print Assumptions C103_loops_refuted.

(** As long as nothing fails, it waits for answers exactly when it is connected, and once, however many connects there were. Missing: after a failure
    (C103_loops_refuted). *)
Theorem C103_wait_partial : forall b a es, Forall fine es -> let s := run (EAddress a :: es) (newWriter b) in receives s = match st s with Connected => 1%nat | _ => 0%nat end.
Proof.
  intros b a es F. cbv zeta. change (run (EAddress a :: es) (newWriter b)) with (run es (step (EAddress a) (newWriter b))).
  assert (G : forall s, respond s = true -> receives s = match st s with Connected => 1%nat | _ => 0%nat end -> receives (run es s) = match st (run es s) with Connected => 1%nat | _ => 0%nat end); [|now apply G].
  induction F as [|e es E F I]; intros s R H; [exact H|]. unfold run in *. cbn [fold_left]. apply I; clear I F es.
  - destruct e as [c|nm|d ok|ok|d ok| |r ok|su ok|er rs]; cbn [fine] in E; try contradiction.
    5:{ cbn [step]. destruct (receives s); [exact R|]. destruct (receive_frame er rs s) as (k & s1 & -> & W & _). destruct W as (_ & _ & _ & _ & _ & _ & W & _). cbn [withSocket respond]. congruence. }
    1-3: subst ok. 4: destruct su; [subst ok|contradiction].
    all: destruct s as [st0 h r0 m o b0 t re te c rc ou]; cbn in R, H; subst re; destruct st0; cases; reflexivity.
  - destruct e as [c|nm|d ok|ok|d ok| |r ok|su ok|er rs]; cbn [fine] in E; try contradiction.
    5:{ cbn [step]. destruct (receives s) as [|k0] eqn:K; [now rewrite K|]. subst er. unfold handleReceive. destruct (st s) eqn:Q; try discriminate H. pose proof (readLoop_frame 30 rs s) as W. destruct W as (W1 & _ & _ & _ & _ & _ & _ & _ & _ & W10 & _). rewrite W1, W10, Q. congruence. }
    1-3: subst ok. 4: destruct su; [subst ok|contradiction].
    all: destruct s as [st0 h r0 m o b0 t re te c rc ou]; cbn in R, H; subst re rc; destruct st0; cases; reflexivity.
Qed.
Print Assumptions C103_wait_partial.

Example C103_wait_partial_ex : let es := [EWrite [1] true; EWrite [2] true; EConnected true true; EConnected true true; EReceive false [RGot 7 [9]]] in
  Forall fine es /\ receives (run (EAddress 7 :: es) (newWriter false)) = 1%nat.
Proof. split; [|reflexivity]. repeat apply Forall_cons; try apply Forall_nil; reflexivity. Qed.
