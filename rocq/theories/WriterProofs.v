From Verif Require Import Base BaseLemmas WriterModel WriterSpec.
From Coq Require Import Lia List.
Import ListNotations.

Lemma sent_app : forall a b, sent (a ++ b) = sent a ++ sent b.
Proof. induction a as [|[t d|f d| |] a I]; intros b; cbn [app sent]; try apply I; [reflexivity|]. now rewrite I. Qed.
Lemma sentTo_app : forall a b, sentTo (a ++ b) = sentTo a ++ sentTo b.
Proof. induction a as [|[t d|f d| |] a I]; intros b; cbn [app sentTo]; try apply I; [reflexivity|]. now rewrite I. Qed.

Definition frame (s s' : writer) : Prop :=
  st s' = st s /\ host s' = host s /\ resolving s' = resolving s /\ message s' = message s /\ opened s' = opened s /\ broadcast s' = broadcast s /\
  respond s' = respond s /\ tell s' = tell s /\ connects s' = connects s /\ receives s' = receives s /\
  sent (out s') = sent (out s) /\ sentTo (out s') = sentTo (out s).

Lemma frame_refl : forall s, frame s s. Proof. intros s. repeat split. Qed.
Lemma frame_trans : forall a b c, frame a b -> frame b c -> frame a c.
Proof. unfold frame. intros a b c A B. repeat match goal with X : _ /\ _ |- _ => destruct X end. repeat split; congruence. Qed.

Lemma readLoop_frame : forall n rs s, frame s (snd (readLoop n rs s)).
Proof.
  induction n as [|n I]; intros rs s; [apply frame_refl|]. cbn [readLoop]. destruct rs as [|[f [|b d]|] rs]; try apply frame_refl; [|apply I].
  eapply frame_trans; [|apply I]. destruct (respond (withTarget f s)); unfold frame; cbn; rewrite sent_app, sentTo_app; cbn; rewrite !app_nil_r; repeat split.
Qed.

Lemma readLoop_target : forall a n rs s, Forall (fun r => match r with RGot f _ => f = a | RInterrupted => True end) rs -> target s = a -> target (snd (readLoop n rs s)) = a.
Proof.
  intros a. induction n as [|n I]; intros rs s F T; [exact T|]. cbn [readLoop]. destruct rs as [|[f [|b d]|] rs]; try exact T; apply Forall_inv_tail in F as F2; [|now apply I].
  apply I; [exact F2|]. apply Forall_inv in F. destruct (respond (withTarget f s)); exact F.
Qed.

Lemma readLoop_throw : forall n rs s, respond s = true -> ~ In OThrow (out s) -> ~ In OThrow (out (snd (readLoop n rs s))).
Proof.
  induction n as [|n I]; intros rs s R N; [exact N|]. cbn [readLoop]. destruct rs as [|[f [|b d]|] rs]; try exact N; [|now apply I].
  change (respond (withTarget f s)) with (respond s). rewrite R. apply I; [exact R|]. cbn. rewrite in_app_iff. intros [X|[X|[]]]; [now apply N|discriminate].
Qed.

(** The handlers of a receive change nothing but the callbacks made and the address *)
Lemma receive_frame : forall error rs s, exists k s1, snd (handleReceive error rs s) = withSocket (opened s) (connects s) k s1 /\ frame s s1 /\ (k <= receives s)%nat /\
  (st s = Connected /\ error = false /\ s1 = snd (readLoop 30 rs s) \/ s1 = s).
Proof.
  intros error rs s. unfold handleReceive. destruct error.
  - exists (pred (receives s)), s. repeat split; try lia; try apply frame_refl; auto.
  - destruct (st s) eqn:E; [exists (pred (receives s)), s; repeat split; try lia; try apply frame_refl; auto..|].
    exists (receives s), (snd (readLoop 30 rs s)). pose proof (readLoop_frame 30 rs s) as F. split; [|split; [exact F|split; [lia|left; auto]]].
    destruct F as (F1 & F2 & F3 & F4 & F5 & F6 & F7 & F8 & F9 & F10 & _). rewrite <- F5, <- F9, <- F10. destruct (snd (readLoop 30 rs s)). reflexivity.
Qed.

Ltac red0 := cbv beta iota zeta delta [step setAddress setName doWrite doRewrite writeView doClose handleResolve handleConnect sendMessage setConnected sendKept sendNow postFail resolveHostname say
  withSt withHost withMessage withTarget withSocket withCallbacks st host resolving message opened broadcast target respond tell connects receives out orb negb pred].
Ltac cases := red0; repeat (match goal with |- context [match ?x with _ => _ end] => is_var x; destruct x | |- context [orb ?x _] => is_var x; destruct x | |- context [orb _ (negb ?x)] => is_var x; destruct x end; red0).

(** *** What is sent was written *)
Definition Known (w : list (list Z)) (s : writer) : Prop := (message s = [] \/ In (message s) w) /\ Forall (fun d => In d w) (sent (out s)).

Lemma Known_mono : forall w d s, Known w s -> Known (w ++ [d]) s.
Proof.
  intros w d s (A & B). split; [destruct A as [A|A]; [now left|right; apply in_or_app; now left]|]. apply Forall_forall. intros x X. rewrite Forall_forall in B. apply in_or_app. left. now apply B.
Qed.

Definition writes (e : event) : list (list Z) := match e with EWrite d _ | EView d _ => [d] | _ => [] end.

Lemma Known_step : forall e w s, Known w s -> Known (w ++ writes e) (step e s).
Proof.
  intros e w s K. assert (K2 : Known (w ++ writes e) s) by (destruct e; cbn [writes]; rewrite ?app_nil_r; try exact K; now apply Known_mono).
  assert (New : forall d, In d (writes e) -> In d (w ++ writes e)) by (intros d D; apply in_or_app; now right). destruct K2 as (A & B). clear K.
  set (w2 := w ++ writes e) in *. clearbody w2.
  assert (Snoc : forall l d, In d w2 -> Forall (fun d => In d w2) (sent l) -> forall t, Forall (fun d => In d w2) (sent (l ++ [OSent t d]))) by (intros l d D L t; rewrite sent_app; apply Forall_app; split; [exact L|]; apply Forall_cons; [exact D|apply Forall_nil]).
  assert (Keep : forall l x, Forall (fun d => In d w2) (sent l) -> sent [x] = [] -> Forall (fun d => In d w2) (sent (l ++ [x]))) by (intros l x L E; rewrite sent_app, E, app_nil_r; exact L).
  destruct e as [a|nm|d ok|ok|d ok| |r ok|su ok|er rs];
  [..|cbn [step]; destruct (receives s); [now split|]; destruct (receive_frame er rs s) as (k & s1 & -> & F & _); unfold Known; cbn [withSocket message out]; destruct F as (_ & _ & _ & F4 & _ & _ & _ & _ & _ & _ & F11 & _); rewrite F4, F11; now split];
  cbn [writes] in New; try specialize (New d (or_introl eq_refl)); clear w; destruct s as [st0 h r0 m o b t re te c rc ou]; cbn [message out] in A, B; unfold Known; try (destruct d as [|x d]); try destruct ok; destruct st0; cases;
    (split; [first [tauto|left; reflexivity|right; assumption]|]); destruct A as [A|A]; try discriminate A; auto 8.
Qed.

Lemma Known_run : forall es w s, Known w s -> Known (w ++ written es) (run es s).
Proof.
  induction es as [|e es I]; intros w s K; [cbn; now rewrite app_nil_r|]. unfold run in *. cbn [fold_left]. apply (Known_step e) in K. apply I in K.
  replace (w ++ written (e :: es)) with ((w ++ writes e) ++ written es) by (rewrite <- app_assoc; now destruct e). exact K.
Qed.

(** *** After a close *)
Definition Shut (s : writer) : Prop := respond s = false /\ tell s = false /\ receives s = 0%nat.

Lemma Shut_step : forall e s, Shut s -> Shut (step e s) /\ filter isCall (out (step e s)) = filter isCall (out s).
Proof.
  intros e s (A & B & C). destruct e as [a|nm|d ok|ok|d ok| |r ok|su ok|er rs];
  [..|cbn [step]; rewrite C; repeat split; assumption];
  destruct s as [st0 h r0 m o b t re te c rc ou]; cbn [respond tell receives] in A, B, C; subst; unfold Shut; try (destruct d as [|x d]); try destruct ok; destruct m as [|y m], st0, b; cases; rewrite ?filter_app; cbn [filter isCall]; rewrite ?app_nil_r; repeat split; congruence.
Qed.

Lemma Shut_run : forall es s, Shut s -> filter isCall (out (run es s)) = filter isCall (out s).
Proof. induction es as [|e es I]; intros s S0; [reflexivity|]. unfold run in *. cbn [fold_left]. destruct (Shut_step e s S0) as (A & B). rewrite I by exact A. exact B. Qed.

(** *** No empty callback is called *)
Definition Safe (s : writer) : Prop := ~ In OThrow (out s) /\
  ((respond s = true /\ (opened s = false -> connects s = 0%nat /\ receives s = 0%nat)) \/ (respond s = false /\ receives s = 0%nat)).

Lemma Safe_step : forall e s, Safe s -> Safe (step e s).
Proof.
  intros e s (N & D). destruct e as [a|nm|d ok|ok|d ok| |r ok|su ok|er rs];
  [..|cbn [step]; destruct (receives s) as [|k0] eqn:R; [split; [exact N|rewrite R; exact D]|]; destruct (receive_frame er rs s) as (k & s1 & -> & F & K & W)].
  1-8: destruct s as [st0 h r0 m o b t re te c rc ou]; unfold Safe; cbn [respond opened connects receives out] in N, D; try (destruct d as [|x d]); try destruct ok; destruct st0; cases; rewrite ?in_app_iff; cbn [In];
    (split; [intros X; repeat destruct X as [X|X]; try contradiction; try discriminate X; tauto|]); destruct D as [(D1 & D2)|(D1 & D2)]; subst; try discriminate; try (left; split; [reflexivity|]; intros; try discriminate; try (destruct D2; [assumption|]; subst; split; congruence); congruence); try (right; split; congruence); try (right; split; [reflexivity|]; now apply D2).
  unfold Safe. cbn [withSocket respond opened connects receives out]. destruct F as (_ & _ & _ & _ & F5 & _ & F7 & _ & F9 & F10 & _). rewrite F7.
  destruct D as [(D1 & D2)|(D1 & D2)]; [|discriminate D2]. split.
  - destruct W as [(_ & _ & ->)| ->]; [|exact N]. now apply readLoop_throw.
  - left. split; [exact D1|]. intros O. destruct (D2 O) as (D3 & D4). discriminate D4.
Qed.

Lemma Safe_run : forall es s, Safe s -> Safe (run es s).
Proof. induction es as [|e es I]; intros s S0; [exact S0|]. unfold run in *. cbn [fold_left]. apply I. now apply Safe_step. Qed.

(** *** Where it is sent *)
Definition At (a : Z) (s : writer) : Prop := target s = a /\ Forall (fun t => t = a) (sentTo (out s)).
Lemma At_step : forall a e s, only a e -> At a s -> At a (step e s).
Proof.
  intros a e s O (A & B). destruct e as [b|nm|d ok|ok|d ok| |r ok|su ok|er rs];
  [..|cbn [step]; destruct (receives s) as [|k0]; [now split|]; destruct (receive_frame er rs s) as (k & s1 & -> & F & K & W)].
  1-8: destruct s as [st0 h r0 m o b0 t re te c rc ou]; cbn [target out] in A, B; cbn [only] in O; unfold At; try (destruct d as [|x d]); try destruct ok; destruct m as [|y m], st0, b0, re, te; cases; rewrite ?sentTo_app; cbn [sentTo]; rewrite ?app_nil_r; (split; [congruence|]); repeat (apply Forall_app; split); try exact B; try (apply Forall_cons; [congruence|apply Forall_nil]).
  unfold At. cbn [withSocket target out]. destruct F as (_ & _ & _ & _ & _ & _ & _ & _ & _ & _ & _ & F12). rewrite F12. split; [|exact B]. destruct W as [(_ & _ & ->)| ->]; [|exact A]. now apply readLoop_target.
Qed.

(** *** Written one by one *)
Definition Even (w : list (list Z)) (s : writer) : Prop :=
  st s <> Clear /\ (connects s = 0%nat /\ sent (out s) = w \/ connects s = 1%nat /\ message s <> [] /\ st s = Initialized /\ broadcast s = false /\ sent (out s) ++ [message s] = w).

Lemma Even_step : forall e w s, calm e s -> Even w s -> Even (w ++ writes e) (step e s).
Proof.
  intros e w s C (A & B). destruct e as [b|nm|d ok|ok|d ok| |r ok|su ok|er rs]; cbn [calm] in C; try (now destruct C).
  - destruct C as (C1 & -> & C3). destruct B as [(_ & B)|(B & _)]; [|congruence]. destruct d as [|x d]; [congruence|].
    destruct s as [st0 h r0 m o b0 t re te c rc ou]. cbn [st connects out] in A, B, C3. subst. unfold Even. cbn [writes]. destruct m as [|y m], st0, b0, re, te; cases; try congruence; (split; [congruence|]); rewrite ?sent_app; cbn [sent]; first [left; now split|right; repeat split; congruence].
  - destruct C as (C1 & -> & C3). destruct B as [(_ & B)|(B & _)]; [|congruence]. destruct d as [|x d]; [congruence|].
    destruct s as [st0 h r0 m o b0 t re te c rc ou]. cbn [st connects out] in A, B, C3. subst. unfold Even. cbn [writes]. destruct m as [|y m], st0, b0, re, te; cases; try congruence; (split; [congruence|]); rewrite ?sent_app; cbn [sent]; first [left; now split|right; repeat split; congruence].
  - destruct C as (-> & ->). cbn [writes]. rewrite app_nil_r. destruct B as [(B1 & B2)|(B1 & B2 & B3 & B4 & B5)].
    + cbn [step]. rewrite B1. split; [exact A|]. now left.
    + destruct s as [st0 h r0 m o b0 t re te c rc ou]. cbn [st connects out message broadcast] in *. subst. unfold Even. destruct m as [|y m], re, te; cases; try congruence; (split; [congruence|]); rewrite ?sent_app; cbn [sent]; left; now split.
  - cbn [writes]. rewrite app_nil_r. cbn [step]. destruct (receives s); [now split|]. destruct (receive_frame er rs s) as (k & s1 & -> & F & _). unfold Even. cbn [withSocket st connects out message broadcast].
    destruct F as (F1 & _ & _ & F4 & _ & F6 & _ & _ & F9 & _ & F11 & _). rewrite F1, F4, F6, F11. now split.
Qed.

Lemma Even_run : forall es w s, calmRun es s -> Even w s -> Even (w ++ written es) (run es s).
Proof.
  induction es as [|e es I]; intros w s C E; [cbn; now rewrite app_nil_r|]. destruct C as (C1 & C2). unfold run in *. cbn [fold_left]. apply (Even_step e) in E; [|exact C1]. apply (I _ _ C2) in E.
  replace (w ++ written (e :: es)) with ((w ++ writes e) ++ written es) by (rewrite <- app_assoc; now destruct e). exact E.
Qed.
