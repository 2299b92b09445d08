(** Proofs about announces over HTTPS. *)
From Verif Require Import Base BaseLemmas HttpModel HttpsModel HttpsSpec.

Ltac pj := cbn [st conn known cb wbuf rbuf ops ts last log withSt withCb withConn withRead withOps withTs say begin ended] in *.

Definition same (s s' : https) : Prop := ts s' = ts s /\ last s' = last s /\ log s' = log s.
Definition failed (s s' : https) : Prop := ts s = TAnnouncing /\ ts s' = (if last s then TAlive else TOffline) /\ last s' = last s /\ log s' = log s ++ [EFail].

Lemma fail_kind s : same s (fail s) \/ failed s (fail s).
Proof. unfold fail, same, failed. destruct (ts s) eqn:T; pj; auto 6. Qed.

Lemma fail_frame s : st (fail s) = st s /\ conn (fail s) = conn s /\ known (fail s) = known s /\ cb (fail s) = cb s /\ wbuf (fail s) = wbuf s /\ rbuf (fail s) = rbuf s /\ ops (fail s) = ops s.
Proof. unfold fail. destruct (ts s); pj; repeat split. Qed.

Lemma postFail_kind parse s : same s (postFail parse s) \/ failed s (postFail parse s).
Proof.
  unfold postFail. destruct (st s); [left; repeat split| |]; (cbv zeta; cbn [onResponse]; pj; destruct (cb s); [|left; repeat split]);
    (destruct (fail_kind (withSt SDisconnected s)) as [(A & B & C)|(A & B & C & D)]; [left|right]; unfold same, failed; pj; auto).
Qed.

Lemma postFail_frame parse s : conn (postFail parse s) = conn s /\ known (postFail parse s) = known s /\ wbuf (postFail parse s) = wbuf s /\ rbuf (postFail parse s) = rbuf s /\ ops (postFail parse s) = ops s /\ st (postFail parse s) = SDisconnected.
Proof.
  unfold postFail. destruct (st s) eqn:S; [repeat split; auto| |]; (cbv zeta; cbn [onResponse]; pj; destruct (cb s); [|repeat split]);
    (destruct (fail_frame (withSt SDisconnected s)) as (A & B & C & D & E & F & G); pj; auto 12).
Qed.

Lemma doWrite_same s : same s (doWrite s).
Proof. unfold doWrite, same. destruct (st s); pj; auto. Qed.

(** What a step does to the owner and the log. *)
Inductive kind (parse : list Z -> parsed) (s : https) : event -> https -> Prop :=
| k_same e s' : no_announce e -> same s s' -> kind parse s e s'
| k_announce r s' : ts s' = TAnnouncing -> last s' = last s -> log s' = log s -> kind parse s (EAnnounce r) s'
| k_sent d n s' : ts s' = ts s -> last s' = last s -> log s' = log s ++ [ESent (firstn n d)] -> kind parse s (EWritten d (Some n)) s'
| k_fail e s' : no_announce e -> failed s s' -> kind parse s e s'
| k_result e r d s' : no_announce e -> ts s = TAnnouncing -> ts s' = TAnnounced -> last s' = true -> parse d = PDone r -> log s' = log s ++ [EResult r] -> kind parse s e s'
| k_lost e s' : no_announce e -> ts s' = ts s -> last s' = last s -> log s' = log s ++ [ELost] -> kind parse s e s'.

Lemma kind_of parse s e s0 : ts s0 = ts s -> last s0 = last s -> log s0 = log s -> no_announce e -> kind parse s e (postFail parse s0).
Proof.
  intros A B C N. destruct (postFail_kind parse s0) as [(H1 & H2 & H3)|(H1 & H2 & H3 & H4)]; [apply k_same|apply k_fail]; unfold same, failed; auto; rewrite <- ?A, <- ?B, <- ?C; repeat split; assumption.
Qed.

Lemma step_kind parse s e : kind parse s e (step parse e s).
Proof.
  assert (N : forall e0, (match e0 with EAnnounce _ => False | _ => True end) -> no_announce e0) by (intros e0 H r ->; exact H).
  destruct e as [req| |o ok|d r|r]; cbn [step].
  - unfold announce. destruct (doWrite_same (withCb true req (withTs TAnnouncing (last s) s))) as (A & B & C). apply k_announce; [rewrite A|rewrite B|rewrite C]; reflexivity.
  - apply k_same; [now apply N|]. unfold same, stop. pj. auto.
  - destruct o; try (apply k_same; [now apply N|unfold same; auto]; fail).
    + unfold handleResolve. destruct ok; [|apply kind_of; auto; now apply N]. apply k_same; [now apply N|]. unfold same. pj. auto.
    + unfold handleConnect. destruct ok; [|apply kind_of; auto; now apply N]. apply k_same; [now apply N|]. unfold same. pj. auto.
    + unfold handleHandshake. destruct ok; [|apply kind_of; auto; now apply N]. apply k_same; [now apply N|]. destruct (doWrite_same (ended OHandshake s)) as (A & B & C). unfold same. auto.
  - unfold handleWrite. destruct r as [n|]; [|apply kind_of; auto; now apply N]. apply k_sent; reflexivity.
  - unfold handleReceive. destruct r as [d|]; [|apply kind_of; auto; now apply N]. cbv zeta. destruct (_ =? _)%nat; [apply k_same; [now apply N|unfold same; pj; auto]|].
    pj. destruct (rbuf s ++ d) as [|x l] eqn:R; [apply k_same; [now apply N|unfold same; pj; auto]|]. destruct (cb s); [|apply k_same; [now apply N|unfold same; pj; auto]].
    cbn [onResponse]. unfold onTcpReceived. pj. destruct (ts s) eqn:T; try (apply k_same; [now apply N|unfold same; pj; auto]; fail).
    destruct (parse (x :: l)) as [| |r|] eqn:P.
    + apply k_same; [now apply N|unfold same; pj; auto].
    + match goal with |- kind _ _ _ (fail ?s0) => destruct (fail_kind s0) as [(A & B & C)|(A & B & C & D)] end; [apply k_same|apply k_fail]; try (now apply N); unfold same, failed; pj; auto.
    + eapply k_result; try reflexivity; try eassumption; now apply N.
    + eapply k_lost; try reflexivity; pj; auto; now apply N.
Qed.

Lemma requests_app es e : requests (es ++ [e]) = requests es ++ match e with EAnnounce r => [r] | _ => [] end.
Proof. induction es as [|x es IH]; [destruct e; reflexivity|]. cbn [app requests]. destruct x; cbn [app]; rewrite IH; reflexivity. Qed.
Lemma calls_app l e : calls (l ++ [e]) = (calls l + calls [e])%nat.
Proof. induction l as [|x l IH]; [reflexivity|]. cbn [app calls]. destruct x; rewrite IH; reflexivity. Qed.
Lemma results_app l e : results (l ++ [e]) = (results l + results [e])%nat.
Proof. induction l as [|x l IH]; [reflexivity|]. cbn [app results]. destruct x; rewrite IH; reflexivity. Qed.
Lemma last_call_app l : forall c e, last_call c (l ++ [e]) = last_call (last_call c l) [e].
Proof. induction l as [|x l IH]; intros c e; [reflexivity|]. cbn [app last_call]. destruct x; apply IH. Qed.

Definition IC (es : list event) (s : https) : Prop := (calls (log s) + (match ts s with TAnnouncing => 1 | _ => 0 end) <= length (requests es))%nat.

Lemma IC_step parse es s e : IC es s -> IC (es ++ [e]) (step parse e s).
Proof.
  unfold IC. intros H. rewrite requests_app, app_length.
  destruct (step_kind parse s e) as [e s' N (A & B & C)|r s' A B C|d n s' A B C|e s' N (A & B & C & D)|e r d s' N A B C P D|e s' N A B C].
  - rewrite A, C. lia.
  - rewrite A, C. cbn [length]. destruct (ts s); lia.
  - rewrite A, C, calls_app. cbn [calls]. lia.
  - rewrite A in H. rewrite B, D, calls_app. cbn [calls]. destruct (last s); lia.
  - rewrite A in H. rewrite B, D, calls_app. cbn [calls]. lia.
  - rewrite A, C, calls_app. cbn [calls]. lia.
Qed.

Definition IT (s : https) : Prop := last s = negb (results (log s) =? 0)%nat /\
  match ts s with
  | TInitialized => last_call None (log s) = None
  | TOffline => last_call None (log s) = Some false /\ results (log s) = O
  | TAlive => last_call None (log s) = Some false /\ (0 < results (log s))%nat
  | TAnnounced => last_call None (log s) = Some true
  | TAnnouncing => True
  end.

Lemma IT_step parse s e : IT s -> IT (step parse e s).
Proof.
  unfold IT. intros (L & H).
  destruct (step_kind parse s e) as [e s' N (A & B & C)|r s' A B C|d n s' A B C|e s' N (A & B & C & D)|e r d s' N A B C P D|e s' N A B C].
  - rewrite A, B, C. auto.
  - rewrite A, B, C. auto.
  - rewrite A, B, C, results_app, last_call_app. cbn [results last_call]. rewrite Nat.add_0_r. auto.
  - rewrite B, C, D, results_app, last_call_app. cbn [results last_call]. rewrite Nat.add_0_r. split; [exact L|]. destruct (Nat.eqb_spec (results (log s)) 0); rewrite L; cbn [negb]; split; auto; lia.
  - rewrite B, C, D, results_app, last_call_app. cbn [results last_call]. destruct (Nat.eqb_spec (results (log s) + 1) 0); [lia|]. auto.
  - rewrite A, B, C, results_app, last_call_app. cbn [results last_call]. rewrite Nat.add_0_r. auto.
Qed.

(** Where the bytes come from. *)
Definition of_request (es : list event) (d : list Z) : Prop := d = [] \/ In d (requests es).
Definition IS (es : list event) (s : https) : Prop := of_request es (wbuf s) /\ (forall d, In (OWrite d) (ops s) -> of_request es d) /\
  forall d, In (ESent d) (log s) -> exists r, of_request es r /\ is_prefix d r.

Lemma in_without x o l : In x (without o l) -> In x l.
Proof. induction l as [|y l IH]; [auto|]. cbn [without]. destruct (op_eqb o y); [now right|]. intros [->|H]; [now left|right; auto]. Qed.

Lemma in_snoc {A} (l : list A) x y : In x (l ++ [y]) <-> In x l \/ x = y.
Proof. rewrite in_app_iff. cbn. intuition. Qed.

Lemma of_request_app es e d : of_request es d -> of_request (es ++ [e]) d.
Proof. unfold of_request. rewrite requests_app, in_app_iff. intuition. Qed.

Lemma doWrite_ops s o : In o (ops (doWrite s)) -> In o (ops s) \/ o = OWrite (wbuf s) \/ o = OConnect \/ o = OResolve.
Proof. unfold doWrite. destruct (st s); pj; rewrite ?in_snoc; [|auto|]; [destruct (known s)|]; intuition. Qed.

Lemma doWrite_wbuf s : wbuf (doWrite s) = wbuf s.
Proof. unfold doWrite. destruct (st s); reflexivity. Qed.

Lemma step_wbuf_ops parse s e : (wbuf (step parse e s) = wbuf s \/ wbuf (step parse e s) = [] \/ e = EAnnounce (wbuf (step parse e s))) /\
  forall o, In o (ops (step parse e s)) -> In o (ops s) \/ o = OWrite (wbuf (step parse e s)) \/ o = OConnect \/ o = OResolve \/ o = OHandshake \/ o = ORead.
Proof.
  assert (PF : forall o s0, ops s0 = without o (ops s) -> wbuf s0 = wbuf s -> (wbuf (postFail parse s0) = wbuf s \/ wbuf (postFail parse s0) = [] \/ e = EAnnounce (wbuf (postFail parse s0))) /\
    forall o0, In o0 (ops (postFail parse s0)) -> In o0 (ops s) \/ o0 = OWrite (wbuf (postFail parse s0)) \/ o0 = OConnect \/ o0 = OResolve \/ o0 = OHandshake \/ o0 = ORead).
  { intros o s0 H W. destruct (postFail_frame parse s0) as (_ & _ & A & _ & B & _). rewrite A, B, H, W. split; [auto|]. intros o0 I. left. eapply in_without; eauto. }
  destruct e as [req| |o ok|d r|r]; cbn [step].
  - unfold announce. rewrite doWrite_wbuf. pj. split; [auto|]. intros o H. apply doWrite_ops in H. pj. intuition.
  - unfold stop. pj. auto.
  - destruct o; try (split; [auto|]; auto; fail).
    + unfold handleResolve. destruct ok; [|eapply PF; reflexivity]. pj. split; [auto|]. intros o. rewrite in_snoc. intros [H|H]; [apply in_without in H|]; auto 6.
    + unfold handleConnect. destruct ok; [|eapply PF; reflexivity]. pj. split; [auto|]. intros o. rewrite in_snoc. intros [H|H]; [apply in_without in H|]; auto 8.
    + unfold handleHandshake. destruct ok; [|eapply PF; reflexivity]. rewrite doWrite_wbuf. pj. split; [auto|]. intros o H. apply doWrite_ops in H. pj. destruct H as [H|H]; [apply in_without in H|]; intuition.
  - unfold handleWrite. destruct r as [n|]; [|eapply PF; reflexivity]. pj. split; [auto|]. intros o. rewrite in_snoc. intros [H|H]; [apply in_without in H|]; auto 8.
  - unfold handleReceive. destruct r as [d|]; [|eapply PF; reflexivity]. cbv zeta. pj.
    assert (G : forall s0, wbuf s0 = wbuf s -> ops s0 = without ORead (ops s) -> (wbuf s0 = wbuf s \/ wbuf s0 = [] \/ ERead (Some d) = EAnnounce (wbuf s0)) /\
      forall o, In o (ops s0) -> In o (ops s) \/ o = OWrite (wbuf s0) \/ o = OConnect \/ o = OResolve \/ o = OHandshake \/ o = ORead).
    { intros s0 A B. rewrite A, B. split; [auto|]. intros o H. left. eapply in_without; eauto. }
    destruct (_ =? _)%nat; [pj; split; [auto|]; intros o; rewrite in_snoc; intros [H|H]; [apply in_without in H|]; auto 8|].
    destruct (rbuf s ++ d) as [|x l]; [now apply G|]. destruct (cb s); [|now apply G]. cbn [onResponse]. unfold onTcpReceived. pj.
    destruct (ts s); try (now apply G). destruct (parse (x :: l)); try (now apply G).
    match goal with |- context [fail ?s0] => destruct (fail_frame s0) as (_ & _ & _ & _ & A & _ & B) end. apply G; [rewrite A|rewrite B]; reflexivity.
Qed.

Lemma IS_step parse es s e : IS es s -> possible e s -> IS (es ++ [e]) (step parse e s).
Proof.
  intros (W & O & L) P. destruct (step_wbuf_ops parse s e) as [SW SO].
  assert (W' : of_request (es ++ [e]) (wbuf (step parse e s))).
  { destruct SW as [->|[->|SW]]; [now apply of_request_app|now left|]. right. rewrite requests_app. remember (wbuf (step parse e s)) as w. clear Heqw. subst e. apply in_snoc. now right. }
  split; [exact W'|]. split.
  - intros d H. apply SO in H. destruct H as [H|[H|[H|[H|[H|H]]]]]; try discriminate; [apply of_request_app; auto|]. injection H as ->. exact W'.
  - intros d. assert (OLD : In (ESent d) (log s) -> exists r, of_request (es ++ [e]) r /\ is_prefix d r) by (intros H; destruct (L d H) as (r & A & B); exists r; split; [now apply of_request_app|assumption]).
    clear SO SW W'. revert P OLD.
    destruct (step_kind parse s e) as [e s' N (A & B & C)|r s' A B C|d0 n s' A B C|e s' N (A & B & C & D)|e r d0 s' N A B C Q D|e s' N A B C]; intros P OLD; rewrite ?C, ?D, ?in_snoc; auto; try (intros [H|H]; [auto|discriminate]).
    intros [H|H]; [auto|]. injection H as ->. destruct P as [P _]. exists d0. split; [apply of_request_app; auto|]. exists (skipn n d0). symmetry. apply firstn_skipn.
Qed.
