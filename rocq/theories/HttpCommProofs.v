(** Proofs about announces over HTTP. *)
From Verif Require Import Base BaseLemmas HttpModel HttpCommModel HttpCommSpec.

Ltac pj := cbn [st cbs posted queue rbuf streams cur ts last log put withCur withTs say post unpost doWrite newStream] in *.

Definition same (s s' : comm) : Prop := ts s' = ts s /\ last s' = last s /\ log s' = log s.
Definition failed (s s' : comm) : Prop := ts s = TAnnouncing /\ ts s' = (if last s then TAlive else TOffline) /\ last s' = last s /\ log s' = log s ++ [EFail].

Lemma fail_kind s : same s (fail s) /\ ts s <> TAnnouncing \/ failed s (fail s).
Proof. unfold fail, same, failed. pj. destruct (ts s) eqn:T; pj; rewrite ?T; auto 6; left; repeat split; auto; discriminate. Qed.
Lemma fail_frame s : streams (fail s) = streams s /\ cur (fail s) = None.
Proof. unfold fail. pj. destruct (ts s); pj; auto. Qed.

Lemma closed_kind s : same s (onTcpClosed s) /\ ts s <> TAnnouncing \/ failed s (onTcpClosed s).
Proof. unfold onTcpClosed. destruct (ts s) eqn:T; try (pose proof (fail_kind s) as K; rewrite T in K; exact K). left. split; [unfold same; auto|discriminate]. Qed.
Lemma closed_frame s : streams (onTcpClosed s) = streams s /\ cur (onTcpClosed s) = match ts s with TAnnounced => cur s | _ => None end.
Proof. unfold onTcpClosed. destruct (ts s); auto; apply fail_frame. Qed.

(** What a step does to the owner and the log. *)
Inductive kind (parse : list Z -> parsed) (s : comm) : event -> comm -> Prop :=
| k_same e s' : no_announce e -> same s s' -> kind parse s e s'
| k_announce r s' : ts s' = TAnnouncing -> last s' = last s -> log s' = log s -> kind parse s (EAnnounce r) s'
| k_sent i d s' : ts s' = ts s -> last s' = last s -> log s' = log s ++ [ESent d] -> kind parse s (EWritten i) s'
| k_alive i s' : ts s = TInitialized \/ ts s = TOffline -> ts s' = TAlive -> last s' = last s -> log s' = log s -> kind parse s (EOpen i) s'
| k_fail e s' i x : no_announce e -> stream_of e = Some i -> nth_error (streams s) i = Some x -> cbs x = true -> failed s s' -> kind parse s e s'
| k_result i x r n d d' s' : nth_error (streams s) i = Some x -> cbs x = true -> ts s = TAnnouncing -> ts s' = TAnnounced -> last s' = true -> d' = rbuf x ++ d -> parse d' = PDone n r ->
    log s' = log s ++ [EResult r] -> kind parse s (EData i d) s'
| k_lost e s' : no_announce e -> ts s' = ts s -> last s' = last s -> log s' = log s ++ [ELost] -> kind parse s e s'.

Lemma kind_postFail parse s e i x s0 : no_announce e -> stream_of e = Some i -> nth_error (streams s) i = Some x -> same s s0 -> forall x0, cbs x0 = cbs x -> kind parse s e (postFail i x0 s0).
Proof.
  intros N SE NX (A & B & C) x0 CX. unfold postFail. destruct (st x0); try (apply k_same; [assumption|unfold same; auto]; fail);
    (destruct (cbs x0) eqn:X; [|apply k_same; [assumption|unfold same; pj; auto]];
     destruct (closed_kind s0) as [((D & E & F) & _)|(D & E & F & G)]; [apply k_same; [assumption|unfold same; pj; repeat split; congruence]|];
     eapply k_fail; eauto; unfold failed; pj; rewrite <- ?A, <- ?B, <- ?C; auto).
Qed.

Lemma step_kind parse s e : kind parse s e (step parse e s).
Proof.
  assert (N : forall e0, (match e0 with EAnnounce _ => False | _ => True end) -> no_announce e0) by (intros e0 H r ->; exact H).
  destruct e as [req| |i|i|i|i d|i]; cbn [step]; unfold on; try (destruct (nth_error (streams s) i) as [x|] eqn:X; [|apply k_same; [now apply N|unfold same; auto]]).
  - unfold announce. cbv zeta. pj. destruct (cur s) as [i|] eqn:CU; pj; rewrite ?CU; (match goal with |- context [match nth_error ?l ?k with _ => _ end] => destruct (nth_error l k) end; apply k_announce; reflexivity).
  - unfold deinit. apply k_same; [now apply N|]. unfold same. destruct (cur s) as [i|]; [|auto]. destruct (nth_error (streams s) i); pj; auto.
  - unfold runTask. destruct (posted x) as [|[d|] l]; try (apply k_same; [now apply N|unfold same; pj; auto]; fail).
    eapply kind_postFail; [now apply N|reflexivity|exact X|unfold same; pj; auto|reflexivity].
  - unfold opened. destruct (st x); try (apply k_same; [now apply N|unfold same; pj; auto]; fail). cbv zeta. destruct (cbs x) eqn:CB; [|apply k_same; [now apply N|unfold same; pj; auto]].
    unfold onTcpConnected. pj. destruct (ts s) eqn:T; try (apply k_same; [now apply N|unfold same; pj; auto]; fail); apply k_alive; auto.
  - unfold written. destruct (queue x); [apply k_same; [now apply N|unfold same; auto]|]. eapply k_sent; reflexivity.
  - unfold received. destruct (cbs x) eqn:CB; [|apply k_same; [now apply N|unfold same; pj; auto]]. unfold onTcpReceived.
    destruct (ts s) eqn:T; try (apply k_same; [now apply N|unfold same; pj; auto]; fail). destruct (parse (rbuf x ++ d)) as [| |n r|] eqn:P.
    + apply k_same; [now apply N|unfold same; pj; auto].
    + destruct (fail_kind s) as [(A & B)|(A & B & C & D)]; [congruence|]. eapply k_fail; [now apply N|reflexivity|exact X|exact CB|unfold failed; pj; auto].
    + eapply k_result; eauto.
    + eapply k_lost; try reflexivity; pj; auto; now apply N.
  - eapply kind_postFail; [now apply N|reflexivity|exact X|unfold same; auto|reflexivity].
Qed.

Lemma requests_app es e : requests (es ++ [e]) = requests es ++ match e with EAnnounce r => [r] | _ => [] end.
Proof. induction es as [|x es IH]; [destruct e; reflexivity|]. cbn [app requests]. destruct x; cbn [app]; rewrite IH; reflexivity. Qed.
Lemma requests_other es e : no_announce e -> requests (es ++ [e]) = requests es.
Proof. intros N. rewrite requests_app. destruct e; try apply app_nil_r. now destruct (N req). Qed.
Lemma calls_app l e : calls (l ++ [e]) = (calls l + calls [e])%nat.
Proof. induction l as [|x l IH]; [reflexivity|]. cbn [app calls]. destruct x; rewrite IH; reflexivity. Qed.
Lemma results_app l e : results (l ++ [e]) = (results l + results [e])%nat.
Proof. induction l as [|x l IH]; [reflexivity|]. cbn [app results]. destruct x; rewrite IH; reflexivity. Qed.
Lemma last_call_app l : forall c e, last_call c (l ++ [e]) = last_call (last_call c l) [e].
Proof. induction l as [|x l IH]; intros c e; [reflexivity|]. cbn [app last_call]. destruct x; apply IH. Qed.
Lemma sent_app l e : sent (l ++ [e]) = sent l ++ sent [e].
Proof. induction l as [|x l IH]; [reflexivity|]. cbn [app sent]. destruct x; rewrite IH; reflexivity. Qed.

Definition IC (es : list event) (s : comm) : Prop := (calls (log s) + (match ts s with TAnnouncing => 1 | _ => 0 end) <= length (requests es))%nat.

Lemma IC_step parse es s e : IC es s -> IC (es ++ [e]) (step parse e s).
Proof.
  unfold IC. intros H. rewrite requests_app, app_length.
  destruct (step_kind parse s e) as [e s' N (A & B & C)|r s' A B C|i d s' A B C|i s' T A B C|e s' i x N SE NX CX (A & B & C & D)|i x r n d d' s' NX CX A B C DD P D|e s' N A B C].
  - rewrite A, C. lia.
  - rewrite A, C. cbn [length]. destruct (ts s); lia.
  - rewrite A, C, calls_app. cbn [calls]. lia.
  - rewrite A, C. destruct (ts s); lia.
  - rewrite A in H. rewrite B, D, calls_app. cbn [calls]. destruct (last s); lia.
  - rewrite A in H. rewrite B, D, calls_app. cbn [calls]. lia.
  - rewrite A, C, calls_app. cbn [calls]. lia.
Qed.

Lemma step_streams_empty parse s e : streams s = [] -> no_announce e -> streams (step parse e s) = [] /\ same s (step parse e s).
Proof.
  intros S N. destruct e as [req| |i|i|i|i d|i]; [now destruct (N req)| | | | | |]; cbn [step]; unfold on; rewrite ?S; try (destruct i; unfold same; auto; fail).
  unfold deinit, same. destruct (cur s) as [i|]; [|auto]. rewrite S. destruct i; pj; auto.
Qed.

Definition IT (s : comm) : Prop := last s = negb (results (log s) =? 0)%nat /\
  match ts s with
  | TInitialized => streams s = [] /\ last_call None (log s) = None
  | TOffline => last_call None (log s) = Some false /\ results (log s) = O
  | TAlive => last_call None (log s) = Some false
  | TAnnounced => last_call None (log s) = Some true
  | TAnnouncing => True
  end.

Lemma IT_step parse s e : IT s -> IT (step parse e s).
Proof.
  unfold IT. intros (L & H). destruct (ts s) eqn:T0.
  1: { destruct H as (S & H). destruct e as [req| | | | | |]; [|destruct (step_streams_empty parse s EStop S (ltac:(intros ?; discriminate))) as (X & A & B & C)
      |destruct (step_streams_empty parse s (ERun i) S (ltac:(intros ?; discriminate))) as (X & A & B & C)|destruct (step_streams_empty parse s (EOpen i) S (ltac:(intros ?; discriminate))) as (X & A & B & C)
      |destruct (step_streams_empty parse s (EWritten i) S (ltac:(intros ?; discriminate))) as (X & A & B & C)|destruct (step_streams_empty parse s (EData i d) S (ltac:(intros ?; discriminate))) as (X & A & B & C)
      |destruct (step_streams_empty parse s (EEnd i) S (ltac:(intros ?; discriminate))) as (X & A & B & C)]; try (rewrite A, B, C, T0, X; auto; fail).
    pose proof (step_kind parse s (EAnnounce req)) as K. inversion K as [e s' N|r s' A B C| | |e s' i x N| |e s' N]; subst; try (now destruct (N req)). rewrite A, B, C. auto. }
  all: destruct (step_kind parse s e) as [e s' N (A & B & C)|r s' A B C|i d s' A B C|i s' T A B C|e s' i x N SE NX CX (A & B & C & D)|i x r n d d' s' NX CX A B C DD P D|e s' N A B C];
    rewrite ?T0 in *; try discriminate;
    try (rewrite A, B, C; auto; fail);
    try (rewrite A, B, C, results_app, ?last_call_app; cbn [results last_call]; rewrite Nat.add_0_r; auto; fail);
    try (exfalso; destruct T; discriminate);
    try (rewrite B, C, D, results_app, ?last_call_app; cbn [results last_call]; destruct (Nat.eqb_spec (results (log s) + 1) 0); [lia|auto]; fail);
    try (rewrite A, B, C; split; [exact L|]; apply H);
    try (rewrite B, C, D, results_app, ?last_call_app; cbn [results last_call]; rewrite Nat.add_0_r; split; [exact L|]; destruct (Nat.eqb_spec (results (log s)) 0); rewrite L; cbn [negb]; auto; fail).
Qed.

(** What has not been sent of what was asked for. *)
Fixpoint writes (l : list task) : list (list Z) := match l with [] => [] | KWrite d :: l' => d :: writes l' | KClose :: l' => writes l' end.
Definition due (x : stream) : list (list Z) := queue x ++ writes (posted x).
Definition alldue (l : list stream) : list (list Z) := flat_map due l.

Lemma times_app d a b : times d (a ++ b) = (times d a + times d b)%nat.
Proof. apply count_occ_app. Qed.
Lemma writes_app a b : writes (a ++ b) = writes a ++ writes b.
Proof. induction a as [|[d|] a IH]; cbn [app writes]; rewrite ?IH; reflexivity. Qed.

Lemma alldue_upd d l : forall i x y, nth_error l i = Some x -> (times d (alldue (upd i y l)) + times d (due x) = times d (alldue l) + times d (due y))%nat.
Proof.
  unfold alldue. induction l as [|a l IH]; intros [|i] x y H; try discriminate; cbn [nth_error upd flat_map] in *; rewrite !times_app.
  - injection H as ->. lia.
  - specialize (IH i x y H). lia.
Qed.

Definition IS (es : list event) (s : comm) : Prop := (forall d, times d (sent (log s)) + times d (alldue (streams s)) <= times d (requests es))%nat.

Lemma alldue_le d l i x y : nth_error l i = Some x -> due y = due x -> times d (alldue (upd i y l)) = times d (alldue l).
Proof. intros H E. pose proof (alldue_upd d l i x y H). rewrite E in *. lia. Qed.

Lemma nth_error_upd_same {A} (l : list A) i x y : nth_error l i = Some x -> nth_error (upd i y l) i = Some y.
Proof. revert i. induction l as [|a l IH]; intros [|i] H; try discriminate; cbn [nth_error upd] in *; [reflexivity|auto]. Qed.

Lemma due_post r x : due (post (KWrite r) x) = due x ++ [r].
Proof. unfold due. pj. rewrite writes_app, app_assoc. reflexivity. Qed.

Lemma due_closeNow x : due (closeNow x) = due x.
Proof. unfold closeNow, due. cbv zeta. pj. destruct (st x); pj; rewrite ?writes_app; cbn [writes]; rewrite ?app_nil_r; reflexivity. Qed.

Lemma postFail_due d i x y s : nth_error (streams s) i = Some y -> due x = due y -> times d (alldue (streams (postFail i x s))) = times d (alldue (streams s)).
Proof.
  intros H E. unfold postFail. destruct (st x); try reflexivity;
    (pj; rewrite (alldue_le d _ i y); [now destruct (cbs x); [destruct (closed_frame s) as [-> _]|]|now destruct (cbs x); [destruct (closed_frame s) as [-> _]|]|now rewrite <- E]).
Qed.

Lemma postFail_sent i x s : sent (log (postFail i x s)) = sent (log s).
Proof.
  unfold postFail. destruct (st x); try reflexivity; pj; (destruct (cbs x); [|reflexivity]; destruct (closed_kind s) as [((_ & _ & ->) & _)|(_ & _ & _ & ->)]; [reflexivity|rewrite sent_app; apply app_nil_r]).
Qed.

Lemma IS_step parse es s e : IS es s -> IS (es ++ [e]) (step parse e s).
Proof.
  unfold IS. intros H d. specialize (H d). rewrite requests_app, times_app.
  destruct e as [req| |i|i|i|i c|i]; cbn [step]; unfold on; try (destruct (nth_error (streams s) i) as [x|] eqn:X; [|cbn; lia]); change (times d []) with O.
  - unfold announce. cbv zeta. pj.
    assert (G : forall s0 i, log s0 = log s -> times d (alldue (streams s0)) = times d (alldue (streams s)) -> (times d (sent (log (match nth_error (streams s0) i with Some x => put i (post (KWrite req) x) s0 | None => s0 end))) +
       times d (alldue (streams (match nth_error (streams s0) i with Some x => put i (post (KWrite req) x) s0 | None => s0 end))) <= times d (requests es) + times d [req])%nat).
    { intros s0 i L S. destruct (nth_error (streams s0) i) as [x|] eqn:X; [|rewrite L, S; lia]. cbn [streams log put]. rewrite L. pose proof (alldue_upd d (streams s0) i x (post (KWrite req) x) X) as U.
      rewrite due_post, times_app in U. lia. }
    destruct (cur s) as [i|] eqn:CU; pj; rewrite ?CU; [apply (G (withTs TAnnouncing (last s) s)); reflexivity|].
    apply (G {| streams := streams s ++ [newStream]; cur := Some (length (streams s)); ts := TAnnouncing; last := last s; log := log s |}); [reflexivity|]. pj. unfold alldue. rewrite flat_map_app, times_app. cbn. lia.
  - unfold deinit. destruct (cur s) as [i|]; [|lia]. destruct (nth_error (streams s) i) as [x|] eqn:X; pj; [rewrite (alldue_le d _ i x); [lia|exact X|apply due_closeNow]|lia].
  - unfold runTask. destruct (posted x) as [|[c|] l] eqn:P; [lia| |].
    + pj. rewrite (alldue_le d _ i x); [lia|exact X|]. unfold due. pj. rewrite P. cbn [writes tl]. rewrite <- app_assoc. reflexivity.
    + assert (D : due (unpost x) = due x) by (unfold due; pj; rewrite P; reflexivity). rewrite postFail_sent, (postFail_due d i (unpost x) (unpost x)); [|pj; eapply nth_error_upd_same; eassumption|reflexivity].
      pj. rewrite (alldue_le d _ i x); [lia|exact X|exact D].
  - unfold opened. destruct (st x); try lia. cbv zeta. destruct (cbs x); [unfold onTcpConnected; pj; destruct (ts s)|]; pj; (rewrite (alldue_le d _ i x); [lia|exact X|reflexivity]).
  - unfold written. destruct (queue x) as [|c q] eqn:Q; [lia|]. pj. rewrite sent_app, times_app. cbn [sent].
    match goal with |- context [upd i ?y] => pose proof (alldue_upd d (streams s) i x y X) as U; assert (D : due x = [c] ++ due y) by (unfold due; pj; rewrite Q; reflexivity) end.
    rewrite D, (times_app d [c]) in U. lia.
  - unfold received. assert (G : forall s1 n, streams s1 = streams s -> sent (log s1) = sent (log s) -> let s' := put i {| st := st x; cbs := cbs x; posted := posted x; queue := queue x; rbuf := skipn n (rbuf x ++ c) |} s1 in
      (times d (sent (log s')) + times d (alldue (streams s')) <= times d (requests es) + 0)%nat).
    { intros s1 n A B. pj. rewrite A, B, (alldue_le d _ i x); [lia|exact X|reflexivity]. }
    destruct (cbs x) eqn:CB; [|apply G; reflexivity]. unfold onTcpReceived. destruct (ts s) eqn:T; try (apply G; reflexivity). destruct (parse (rbuf x ++ c)); try (apply G; try reflexivity; pj; rewrite sent_app; apply app_nil_r).
    apply G; [apply fail_frame|]. destruct (fail_kind s) as [((_ & _ & ->) & _)|(_ & _ & _ & ->)]; [reflexivity|rewrite sent_app; apply app_nil_r].
  - rewrite postFail_sent, (postFail_due d i x x); [lia|exact X|reflexivity].
Qed.

(** The callbacks of streams. *)
Definition silent_end (x : stream) : Prop := st x = SDisconnected -> cbs x = false.
Definition IV (s : comm) : Prop := Forall silent_end (streams s) /\
  match cur s with None => True | Some i => exists x, nth_error (streams s) i = Some x /\ (st x = SDisconnected \/ cbs x = true) end.

Lemma nth_error_upd_other {A} (l : list A) i j y : i <> j -> nth_error (upd i y l) j = nth_error l j.
Proof. revert i j. induction l as [|a l IH]; intros [|i] [|j] H; cbn [nth_error upd]; try reflexivity; try congruence. apply IH. congruence. Qed.

Lemma cur_put s i x y : match cur s with None => True | Some j => exists x, nth_error (streams s) j = Some x /\ (st x = SDisconnected \/ cbs x = true) end ->
  nth_error (streams s) i = Some x -> (st x = SDisconnected \/ cbs x = true -> st y = SDisconnected \/ cbs y = true) ->
  match cur s with None => True | Some j => exists x, nth_error (upd i y (streams s)) j = Some x /\ (st x = SDisconnected \/ cbs x = true) end.
Proof.
  intros C X Y. destruct (cur s) as [j|]; [|exact I]. destruct C as (z & Z1 & Z2). destruct (Nat.eq_dec i j) as [<-|N].
  - exists y. split; [eapply nth_error_upd_same; eassumption|]. apply Y. congruence.
  - exists z. rewrite nth_error_upd_other; auto.
Qed.

Lemma IV_postFail s i x y : IV s -> nth_error (streams s) i = Some y -> IV (postFail i x s).
Proof.
  intros (F & C) Y. unfold postFail. destruct (st x); try (split; assumption);
    (split; pj; [destruct (cbs x); [destruct (closed_frame s) as [-> _]|]; (apply Forall_upd; [exact F|intros _; reflexivity])|];
     destruct (cbs x); [destruct (closed_frame s) as [E1 E2]; rewrite E1, E2; destruct (ts s); try exact I|]; (eapply cur_put; [exact C|exact Y|intros _; left; reflexivity])).
Qed.

Lemma IV_step parse s e : IV s -> IV (step parse e s).
Proof.
  intros H. pose proof H as (F & C). assert (FX : forall i x, nth_error (streams s) i = Some x -> silent_end x) by (intros i x X; rewrite Forall_forall in F; apply F; eapply nth_error_In; eassumption).
  destruct e as [req| |i|i|i|i c|i]; cbn [step]; unfold on; try (destruct (nth_error (streams s) i) as [x|] eqn:X; [|exact H]).
  - unfold announce. cbv zeta. pj. destruct (cur s) as [i|] eqn:CU; pj.
    + destruct C as (x & X & Y). rewrite CU, X. split; pj; [apply Forall_upd; [exact F|exact (FX i x X)]|]. rewrite CU. eexists. split; [eapply nth_error_upd_same; exact X|]. exact Y.
    + rewrite nth_error_app2, Nat.sub_diag by lia. cbn [nth_error]. split; pj; [apply Forall_upd; [apply Forall_app; split; [exact F|repeat constructor; discriminate]|discriminate]|].
      eexists. split; [eapply nth_error_upd_same; rewrite nth_error_app2, Nat.sub_diag by lia; reflexivity|]. right. reflexivity.
  - unfold deinit. destruct (cur s) as [i|] eqn:CU; [|exact H]. destruct C as (x & X & Y). rewrite X. split; pj; [|exact I]. apply Forall_upd; [exact F|]. unfold closeNow, silent_end. cbv zeta. pj. destruct (st x); auto.
  - unfold runTask. destruct (posted x) as [|[d|] l]; [exact H| |].
    + split; pj; [apply Forall_upd; [exact F|]; unfold silent_end; pj; specialize (FX i x X); unfold silent_end in FX; destruct (st x); auto; discriminate|].
      eapply cur_put; [exact C|exact X|]. pj. destruct (st x); intuition discriminate.
    + apply (IV_postFail _ _ _ (unpost x)); [|pj; eapply nth_error_upd_same; exact X]. split; pj; [apply Forall_upd; [exact F|exact (FX i x X)]|]. eapply cur_put; [exact C|exact X|auto].
  - unfold opened. destruct (st x) eqn:S; try exact H. cbv zeta.
    assert (G : forall s0, streams s0 = streams s -> cur s0 = cur s -> IV (put i {| st := SConnected; cbs := cbs x; posted := posted x; queue := queue x; rbuf := rbuf x |} s0)).
    { intros s0 A B. split; pj; rewrite A; [apply Forall_upd; [exact F|discriminate]|]. rewrite B. eapply cur_put; [exact C|exact X|]. rewrite S. pj. intuition discriminate. }
    destruct (cbs x); [|now apply G]. unfold onTcpConnected. pj. specialize (G s eq_refl eq_refl). destruct (ts s); try exact G; exact G.
  - unfold written. destruct (queue x); [exact H|]. split; pj; [apply Forall_upd; [exact F|exact (FX i x X)]|]. eapply cur_put; [exact C|exact X|auto].
  - unfold received. assert (G : forall s0 n, streams s0 = streams s -> cur s0 = cur s \/ cur s0 = None -> IV (put i {| st := st x; cbs := cbs x; posted := posted x; queue := queue x; rbuf := skipn n (rbuf x ++ c) |} s0)).
    { intros s0 n A B. split; pj; rewrite A; [apply Forall_upd; [exact F|exact (FX i x X)]|]. destruct B as [-> | ->]; [|exact I]. eapply cur_put; [exact C|exact X|auto]. }
    destruct (cbs x) eqn:CB; [|apply G; auto]. unfold onTcpReceived. destruct (ts s) eqn:T; try (apply G; auto; fail). destruct (parse (rbuf x ++ c)); try (apply G; auto; fail). destruct (fail_frame s) as [A B]. apply G; auto.
  - eapply IV_postFail; eassumption.
Qed.

(** When no response is bad, only the stream in use calls. *)
Definition IG (s : comm) : Prop := forall i x, nth_error (streams s) i = Some x -> cbs x = true -> cur s = Some i.

Lemma IG_put s i x y : IG s -> nth_error (streams s) i = Some x -> (cbs y = true -> cbs x = true) -> forall j z, nth_error (upd i y (streams s)) j = Some z -> cbs z = true -> cur s = Some j.
Proof.
  intros G X Y j z J Z. destruct (Nat.eq_dec i j) as [<-|N].
  - rewrite (nth_error_upd_same _ _ _ _ X) in J. injection J as <-. apply (G i x X). auto.
  - rewrite nth_error_upd_other in J by assumption. eapply G; eassumption.
Qed.

Lemma IG_postFail s i x y : IG s -> nth_error (streams s) i = Some y -> cbs y = cbs x -> IG (postFail i x s).
Proof.
  intros G Y E. unfold postFail. destruct (st x) eqn:S; try exact G;
    (destruct (cbs x) eqn:CX; [|intros j z; pj; eapply IG_put; [exact G|exact Y|discriminate]];
     intros j z; pj; destruct (closed_frame s) as [-> E2]; intros J Z; destruct (Nat.eq_dec i j) as [<-|N];
     [rewrite (nth_error_upd_same _ _ _ _ Y) in J; injection J as <-; discriminate|];
     rewrite nth_error_upd_other in J by assumption; pose proof (G j z J Z); pose proof (G i y Y E); congruence).
Qed.

Lemma IG_step parse s e : (forall d, parse d <> PBad) -> IV s -> IG s -> IG (step parse e s).
Proof.
  intros NB (_ & C) G.
  destruct e as [req| |i|i|i|i c|i]; cbn [step]; unfold on; try (destruct (nth_error (streams s) i) as [x|] eqn:X; [|exact G]).
  - unfold announce. cbv zeta. pj. destruct (cur s) as [i|] eqn:CU; pj.
    + destruct C as (x & X & _). rewrite CU, X. intros j z. pj. eapply IG_put; [exact G|exact X|auto].
    + rewrite nth_error_app2, Nat.sub_diag by lia. cbn [nth_error]. intros j z. pj. intros J Z. f_equal. destruct (Nat.eq_dec (length (streams s)) j) as [E|N]; [exact E|].
      rewrite nth_error_upd_other in J by assumption. assert (L : (j < length (streams s))%nat). { assert (j < length (streams s ++ [newStream]))%nat by (apply nth_error_Some; congruence). rewrite app_length in *. cbn [length] in *. lia. }
      rewrite nth_error_app1 in J by assumption. pose proof (G j z J Z). congruence.
  - unfold deinit. destruct (cur s) as [i|] eqn:CU; [|exact G]. destruct C as (x & X & _). rewrite X. intros j z. pj. intros J Z. exfalso. destruct (Nat.eq_dec i j) as [<-|N].
    + rewrite (nth_error_upd_same _ _ _ _ X) in J. injection J as <-. unfold closeNow in Z. cbv zeta in Z. pj. destruct (st x); discriminate.
    + rewrite nth_error_upd_other in J by assumption. pose proof (G j z J Z). congruence.
  - unfold runTask. destruct (posted x) as [|[d|] l]; [exact G| |].
    + intros j z. pj. eapply IG_put; [exact G|exact X|auto].
    + eapply IG_postFail; [|pj; eapply nth_error_upd_same; exact X|reflexivity]. intros j z. pj. eapply IG_put; [exact G|exact X|auto].
  - unfold opened. destruct (st x); try exact G. cbv zeta. destruct (cbs x) eqn:CX; [unfold onTcpConnected; pj; destruct (ts s)|]; intros j z; pj; (eapply IG_put; [exact G|exact X|pj; congruence]).
  - unfold written. destruct (queue x); [exact G|]. intros j z. pj. eapply IG_put; [exact G|exact X|auto].
  - unfold received. destruct (cbs x) eqn:CB; [unfold onTcpReceived; destruct (ts s) eqn:T; [| | |destruct (parse (rbuf x ++ c)) eqn:P; [|now destruct (NB (rbuf x ++ c))| |]|]|]; intros j z; pj; (eapply IG_put; [exact G|exact X|pj; congruence]).
  - eapply IG_postFail; [exact G|exact X|reflexivity].
Qed.
