(** C93: a TCP stream. *)
From Verif Require Import Base BaseLemmas TcpModel TcpSpec TcpProofs.

Lemma history_inv cs oc orc ocl es s : history (fresh cs oc orc ocl) es s -> IW (asked es) s /\ ID s /\ IQ s /\ IO s.
Proof.
  induction 1 as [|es s e s' H (A & B & C & D) P E].
  - split; [|split; [|split]].
    + exists 0%nat. cbn. auto 10.
    + split; cbn; [exact I|]. split; [discriminate|reflexivity].
    + unfold IQ. cbn. split; [lia|]. split; [lia|]. split; [lia|]. split; [discriminate|reflexivity].
    + unfold IO. cbn. lia.
  - pose proof (ID_shut s B) as SH. split; [|split; [|split]].
    + rewrite asked_app. eapply IW_step; eassumption.
    + destruct (ID_step s e B P) as (s2 & E2 & H2); [|congruence]. destruct e as [| | | | | | | | |c| | | | |]; try exact I. destruct c; try exact I.
      destruct A as (a & A1 & A2 & A3 & A4 & A5). cbn in P. intros Q. rewrite Q in A2. cbn in A2. destruct A4 as [A4|[_ A4]]; lia.
    + eapply IQ_step; eassumption.
    + eapply IO_step; eassumption.
Qed.

(** Nothing that can happen to a stream makes it fail, in any state it comes to. Missing: an answer of the resolver after the close
    ([C93_closed_while_resolving_refuted]), a write between the two halves of the connect ([C93_race_refuted]) and some seconds of the clock
    ([C93_clock_refuted]); [possible] leaves them out. *)
Theorem C93_safe_partial : forall cs oc orc ocl es s e, history (fresh cs oc orc ocl) es s -> possible e s -> exists s', step e s = Ok s'.
Proof.
  intros cs oc orc ocl es s e H P. destruct (history_inv _ _ _ _ _ _ H) as (A & B & _). destruct (ID_step s e B P) as (s2 & E2 & H2); [|eauto].
  destruct e as [| | | | | | | | |c| | | | |]; try exact I. destruct c; try exact I.
  destruct A as (a & A1 & A2 & A3 & A4 & A5). cbn in P. intros Q. rewrite Q in A2. cbn in A2. destruct A4 as [A4|[_ A4]]; lia.
Qed.
Print Assumptions C93_safe_partial.

(** The buffers go to the socket in the order in which they were written, each once, one at a time; when the stream is connected and no
    write is under way, all are out. *)
Theorem C93_in_order_partial : forall cs oc orc ocl es s, history (fresh cs oc orc ocl) es s ->
  0 <= writing s <= 1 /\ exists rest, asked es = made (log s) ++ rest /\ (tst s = Connected -> writing s = 0 -> rest = []).
Proof.
  intros cs oc orc ocl es s H. destruct (history_inv _ _ _ _ _ _ H) as ((a & A1 & A2 & A3 & A4 & A5) & _). split; [lia|]. exists (skipn a (queue s)). split; [assumption|].
  intros T W. rewrite T in A5. destruct (queue s) as [|f q]; [now destruct a|]. rewrite A5 in W by discriminate. discriminate.
Qed.
Print Assumptions C93_in_order_partial.

Lemma calls_after l : calls_ok l -> forall l1 c l2, l = l1 ++ CClosed c :: l2 -> Forall (fun e => is_call e = false) l2.
Proof.
  intros H l1. revert l H. induction l1 as [|x l1 IH]; intros l H c l2 ->; [exact H|]. cbn [app] in H. destruct x; cbn [calls_ok] in H; try (eapply IH; [exact H|reflexivity]).
  apply Forall_app in H. destruct H as [_ H]. inversion H. discriminate.
Qed.

(** The owner is told of the connection at most once, of the end at most once, and of nothing after the end. If it does not drop its callbacks,
    it was told of the end when the stream is closed. *)
Theorem C93_calls_partial : forall cs oc orc ocl es s, history (fresh cs oc orc ocl) es s ->
  (opens (log s) <= 1)%nat /\ (forall l1 c l2, log s = l1 ++ CClosed c :: l2 -> Forall (fun e => is_call e = false) l2) /\
  (ocl = true -> ~ In (EClose true) es -> tst s = Disconnected -> exists c, In (CClosed c) (log s)).
Proof.
  intros cs oc orc ocl es s H. destruct (history_inv _ _ _ _ _ _ H) as (_ & (B & _) & _ & D). split; [unfold IO in D; destruct (tst s); lia|]. split; [now apply calls_after|].
  intros -> N T. assert (TD : told s).
  { clear B D T. revert N. induction H as [|es s e s' H IH P E]; intros N; [reflexivity|]. destruct (history_inv _ _ _ _ _ _ H) as (_ & B & _ & D).
    destruct (IO_step s e s' D (ID_shut s B) P E) as [_ K]. apply K; [|apply IH]; intros X; apply N; apply in_or_app; [right; left; congruence|now left]. }
  unfold told in TD. rewrite T in TD. apply existsb_exists in TD. destruct TD as (x & X & Y). destruct x; try discriminate. eauto.
Qed.
Print Assumptions C93_calls_partial.

(** After [close(true)] the owner hears nothing more. *)
Theorem C93_silent_partial : forall cs oc orc ocl es1 es2 s1 s, history (fresh cs oc orc ocl) (es1 ++ [EClose true]) s1 -> history s1 es2 s ->
  filter is_call (log s) = filter is_call (log s1).
Proof.
  intros cs oc orc ocl es1 es2 s1 s H1 H2.
  assert (N : onConnect s1 = false /\ onReceive s1 = false /\ onClose s1 = false).
  { remember (es1 ++ [EClose true]) as es eqn:ES. destruct H1 as [|es s0 e s' _ _ E]; [destruct es1; discriminate|]. apply app_inj_tail in ES. destruct ES as [_ ->]. cbn in E. injection E as <-. auto. }
  assert (SAME : forall x y, onConnect x = false /\ onReceive x = false /\ onClose x = false -> log y = log x -> onConnect y = onConnect x -> onReceive y = onReceive x -> onClose y = onClose x ->
    filter is_call (log y) = filter is_call (log x) /\ onConnect y = false /\ onReceive y = false /\ onClose y = false) by (intros x y (-> & -> & ->) -> -> -> ->; auto).
  set (quiet := fun x y : tcp => onConnect x = false /\ onReceive x = false /\ onClose x = false -> filter is_call (log y) = filter is_call (log x) /\ onConnect y = false /\ onReceive y = false /\ onClose y = false).
  assert (QT : forall x y z, quiet x y -> quiet y z -> quiet x z) by (unfold quiet; intros x y z A B C; destruct (A C) as (A1 & A2); destruct (B A2) as (B1 & B2); split; [congruence|assumption]).
  assert (QS : forall e x, is_call e = false -> quiet x (say e x)) by (intros e x E (A & B & C); cbn [log say onConnect onReceive onClose]; rewrite filter_app; cbn [filter]; rewrite E, app_nil_r; auto).
  assert (QM : forall x y, log y = log x -> onConnect y = onConnect x -> onReceive y = onReceive x -> onClose y = onClose x -> quiet x y) by (intros x y A B C D E; now apply SAME).
  assert (QF : forall code x, quiet x (postFail code x)).
  { intros code x (A & B & C). unfold postFail. destruct (tst x); tc; try rewrite C; tc; auto. }
  assert (QB : forall b g x, quiet x (requestBandwidth b g x)).
  { intros b g x. unfold requestBandwidth. destruct (waitBw x); [now apply QM|]. destruct (_ >=? _); [now apply QM|]. destruct (_ =? 0); now apply QM. }
  assert (QR : forall now g x y, startReceive now g x = Ok y -> quiet x y).
  { intros now g x y. unfold startReceive. destruct (tst x); try (intros E; injection E as <-; now apply QM). pose proof (QB (wantedTransfer x) g x) as R. set (r := requestBandwidth _ _ _) in *.
    destruct (receiving r); [intros E; injection E as <-; assumption|]. destruct (waitBw r); [intros E; injection E as <-; assumption|]. destruct (timer r); [|discriminate]. intros E. injection E as <-.
    eapply QT; [exact R|]. eapply QT; [|apply QS; reflexivity]. now apply QM. }
  assert (QA : forall n now x y, appendData n now x = Ok y -> quiet x y) by (intros n now x y E; apply append_is in E; rewrite E; now apply QM).
  assert (QV : forall a now g x ec y, readAvailableData a now g x = Ok (ec, y) -> quiet x y).
  { intros a now g x ec y. unfold readAvailableData. destruct (negb _); [intros E; injection E as _ <-; now apply QM|]. pose proof (QB (aSize a) g x) as R. set (r := requestBandwidth _ _ _) in *.
    destruct (_ >? 0); [|intros E; injection E as _ <-; assumption]. destruct (_ || _); [intros E; injection E as _ <-; assumption|].
    destruct (appendData _ _ r) as [s2|] eqn:E2; [|discriminate]. cbn [bind]. intros E. injection E as _ <-. eapply QT; [exact R|]. eapply QA; eassumption. }
  assert (QI : forall c x, quiet x (initializeInfo c x)) by (intros c x; unfold initializeInfo; destruct (_ && _); [now apply QM|apply QF]).
  assert (QO : forall cb now g x y, setAsConnected cb now g x = Ok y -> quiet x y).
  { intros cb now g x y. unfold setAsConnected. destruct (_ && _); [|intros E; injection E as <-; apply QF]. set (s2 := match queue x with [] => _ | _ => _ end).
    assert (Q2 : quiet x s2) by (unfold s2; destruct (queue x); [now apply QM|]; eapply QT; [|apply QS; reflexivity]; now apply QM).
    destruct (startReceive now g s2) as [s3|] eqn:E3; [|discriminate]. cbn [bind]. intros E. injection E as <-. apply QR in E3. intros X. pose proof (QT _ _ _ Q2 E3 X) as (Y1 & Y2 & Y3). rewrite Y2. auto. }
  assert (QC : forall c ci cb now g x y, handle_connect c ci cb now g x = Ok y -> quiet x y).
  { intros c ci cb now g x y. unfold handle_connect. destruct (c =? 0); intros E; [|injection E as <-; apply QF]. eapply QT; [apply QI|eapply QO; exact E]. }
  assert (STEP : forall e x y, step e x = Ok y -> quiet x y).
  { intros e x y E. destruct e; cbn [step] in E.
    - injection E as <-. unfold connectPeer. destruct (tst x); try (now apply QM). unfold connectByAddress. eapply QT; [|apply QS; reflexivity]. now apply QM.
    - injection E as <-. now apply QM.
    - injection E as <-. unfold do_write. set (x1 := withWrites _ _ x). assert (Q1 : quiet x x1) by now apply QM. destruct (tst x1); try exact Q1.
      + destruct (address x1); [unfold connectByAddress; eapply QT; [|apply QS; reflexivity]; now apply QM|]. destruct (host x1) eqn:HS; [exact Q1|]. unfold connectByHostname. eapply QT; [|apply QS; reflexivity]. now apply QM.
      + destruct (queue x1) as [|f [|f2 q]]; try exact Q1. eapply QT; [|apply QS; reflexivity]. now apply QM.
    - injection E as <-. destruct immediate; [|now apply QM]. intros (A & B & C). unfold close. tc. auto.
    - injection E as <-. apply QF.
    - injection E as <-. unfold handle_resolve. destruct results; [apply QF|]. destruct (code =? 0); [|apply QF]. eapply QT; [|apply QS; reflexivity]. now apply QM.
    - unfold handle_resolver_connect in E. destruct (_ && _); [|eapply QC; exact E]. destruct (nth_error _ _); [|discriminate]. injection E as <-. eapply QT; [|apply QS; reflexivity]. now apply QM.
    - eapply QC; exact E.
    - unfold handle_accept in E. eapply QT; [|eapply QO; exact E]. eapply QT; [|apply QI]. now apply QM.
    - unfold handle_write in E. destruct (code =? 0); [|injection E as <-; eapply QT; [|apply QF]; now apply QM]. destruct (queue (withWrites _ _ x)) as [|f q]; [discriminate|]. injection E as <-.
      destruct q; [now apply QM|]. eapply QT; [|apply QS; reflexivity]. now apply QM.
    - destruct (receiving x) as [r|]; [|injection E as <-; now apply QM]. unfold handle_receive in E. set (x0 := withReceive _ _ None _ x) in *. assert (Q0 : quiet x x0) by now apply QM.
      assert (G : (if code =? 0 then bind (appendData n now x0) (fun s => bind (if n =? r then readAvailableData a now g1 s else Ok (0, s)) (fun '(ec, s) =>
        if ec =? 0 then startReceive now g2 (if onReceive s then say CReceived s else s) else Ok (postFail ec s))) else Ok (postFail code x0)) = Ok y -> quiet x y).
      { clear E. destruct (code =? 0); [|intros E; injection E as <-; eapply QT; [exact Q0|apply QF]]. destruct (appendData n now x0) as [x1|] eqn:E1; [|discriminate]. cbn [bind]. apply QA in E1.
        destruct (if n =? r then _ else _) as [[ec x2]|] eqn:E2; [|discriminate]. cbn [bind]. assert (Q2 : quiet x1 x2) by (destruct (n =? r); [eapply QV; exact E2|injection E2 as _ <-; now apply QM]).
        pose proof (QT _ _ _ Q0 (QT _ _ _ E1 Q2)) as Q3. destruct (ec =? 0); [|intros E; injection E as <-; eapply QT; [exact Q3|apply QF]]. intros E X. destruct (Q3 X) as (Y1 & Y2 & Y3 & Y4). rewrite Y3 in E. apply QR in E. rewrite <- Y1. apply E. auto. }
      destruct (tst x0); try (apply G; exact E). injection E as <-. assumption.
    - unfold assignBandwidth in E. eapply QT; [|eapply QR; exact E]. now apply QM.
    - injection E as <-. apply QF.
    - injection E as <-. apply QI.
    - eapply QO; exact E. }
  assert (ALL : quiet s1 s).
  { clear N. induction H2 as [|es x e y H2 IH P E]; [now apply QM|]. eapply QT; [exact IH|]. now apply (STEP e). }
  apply ALL in N. apply N.
Qed.
Print Assumptions C93_silent_partial.

(** The stream never reads more than the quota it was given; it has at most one receive under way, not larger than its quota, and none
    while it waits for bandwidth. *)
Theorem C93_quota_partial : forall cs oc orc ocl es s, history (fresh cs oc orc ocl) es s ->
  counter s <= granted s /\ forall r, receiving s = Some r -> 0 < r <= quota s /\ counter s + r <= granted s /\ waitBw s = false.
Proof.
  intros cs oc orc ocl es s H. destruct (history_inv _ _ _ _ _ _ H) as (_ & _ & (A & B & C & D & E) & _). split; [lia|]. intros r R. destruct (D r R). split; [assumption|]. split; [lia|assumption].
Qed.
Print Assumptions C93_quota_partial.

(** Finding: a write between the two halves of a finished connect is given to the socket twice, and when both writes end the queue is popped
    once too often. *)
Theorem C93_race_refuted : forall cs oc orc ocl a d now1 now2 g,
  match run [EPeer a now1; EInfo 0; EWrite d; EOpened 0 now2 g] (fresh cs oc orc ocl) with
  | Ok s => made (log s) = [d; d] /\ writing s = 2 /\ run [EWritten 0; EWritten 0] s = UB
  | UB => False
  end.
Proof. intros cs oc orc ocl a d now1 now2 g. destruct cs, oc, g; vm_compute; auto. Qed.
Print Assumptions C93_race_refuted.

(** Finding: a stream which is closed while its host name is being resolved connects all the same when the answer comes, and then uses
    the timer which is gone. *)
Theorem C93_closed_while_resolving_refuted : forall oc orc ocl c h d a r now g,
  exists s, run [EInit (c :: h); EWrite d; EClose true; EDoClose; EResolve 0 (a :: r)] (fresh false oc orc ocl) = Ok s /\ tst s = Disconnected /\ log s = [OResolve (c :: h); OConnect a] /\
    step (EResolverConnect 0 (a :: r) 1 0 0 now g) s = UB.
Proof.
  intros oc orc ocl c h d a r now g. eexists. split; [reflexivity|]. split; [reflexivity|]. split; [reflexivity|]. cbn [step]. unfold handle_resolver_connect. cbn [Z.eqb negb andb]. reflexivity.
Qed.
Print Assumptions C93_closed_while_resolving_refuted.

(** Finding: of several addresses of a host only the first is tried. *)
Theorem C93_next_address_refuted : forall cs oc orc h c d a b r code ci cb now g, code <> 0 ->
  match run [EInit (c :: h); EWrite d; EResolve 0 (a :: b :: r); EResolverConnect code (a :: b :: r) 1 ci cb now g] (fresh cs oc orc true) with
  | Ok s => tst s = Disconnected /\ log s = [OResolve (c :: h); OConnect a; CClosed code]
  | UB => False
  end.
Proof.
  intros cs oc orc h c d a b r code ci cb now g N. cbn [run step]. unfold handle_resolver_connect. assert (Z1 : zlen (a :: b :: r) <? 1 = false) by (unfold zlen; cbn [length]; apply Z.ltb_ge; lia).
  rewrite Z1, andb_false_r. unfold handle_connect. destruct (Z.eqb_spec code 0); [contradiction|]. cbn. auto.
Qed.
Print Assumptions C93_next_address_refuted.

(** Finding: at seconds which are multiples of 2^29 a receive divides by zero; and only then. *)
Theorem C93_clock_refuted : forall n now s, 0 <= now -> appendData n now s = UB <-> now mod 536870912 = 0.
Proof.
  intros n now s N. split.
  - intros E. destruct (Z.eq_dec (now mod 536870912) 0) as [|M]; [assumption|]. destruct (append_ok n now s N M) as (s' & E' & _). congruence.
  - intros M. unfold appendData. assert (D : u32 (u32 (u32 now - 0) * 1000) = 0).
    { unfold u32. rewrite Z.sub_0_r, Z.mod_mod by lia. rewrite Z.mul_mod_idemp_l by lia. apply Z.mod_divide in M; [|lia]. destruct M as (k & ->). apply Z.mod_divide; [lia|]. exists (k * 125). lia. }
    rewrite D. reflexivity.
Qed.
Print Assumptions C93_clock_refuted.

(** Finding: what is left of the quota after a receive is lost, so a slow stream is granted any amount more than it reads. *)
Theorem C93_quota_lost_refuted : forall k now, 0 <= now -> now mod 536870912 <> 0 ->
  exists es s, history (fresh true true true true) es s /\ counter s = Z.of_nat k /\ granted s = 100 * (Z.of_nat k + 1).
Proof.
  intros k now N M.
  enough (exists es s, history (fresh true true true true) es s /\ counter s = Z.of_nat k /\ granted s = 100 * (Z.of_nat k + 1) /\ tst s = Connected /\ receiving s = Some 100 /\ quota s = 100 /\ speed s = 0 /\ expecting s = 100 /\ channels s = true /\ waitBw s = false /\ timer s <> None)
    by (destruct H as (es & s & H); exists es, s; intuition).
  induction k as [|k IH].
  - eexists. eexists. split; [|split; [|split]].
    + eapply (h_step _ _ _ (EConnect 0 0 0 0 true)); [eapply (h_step _ _ _ (EPeer 5 0)); [apply h_start|exact I|vm_compute; reflexivity]|left; reflexivity|vm_compute; reflexivity].
    + reflexivity.
    + reflexivity.
    + cbn [tst receiving quota speed expecting channels waitBw timer]. intuition discriminate.
  - destruct IH as (es & s & H & A1 & A2 & A3 & A4 & A5 & A6 & A7 & A8 & A9 & A10).
    set (e := EReceive 0 1 {| aCode := 0; aSize := 0; rCode := 0; rSize := 0 |} now true true).
    destruct (append_ok 1 now (withReceive (quota s) (waitBw s) None (granted s) s) N M) as (s1 & E1 & S1).
    assert (SP : speed s1 = 0).
    { unfold appendData in E1. destruct (Z.eqb_spec (u32 (u32 (u32 now - 0) * 1000)) 0) as [|NZ]; [discriminate|]. injection E1 as <-. cbn [speed withCount]. change (u32 1) with 1. apply Z.div_small.
      assert (B : 0 <= u32 (u32 (u32 now - 0) * 1000)) by (unfold u32; apply Z.mod_pos_bound; lia).
      destruct (Z.eq_dec (u32 (u32 (u32 now - 0) * 1000)) 1) as [O|O]; [|lia]. exfalso. unfold u32 in O. rewrite Z.sub_0_r, Z.mod_mod in O by lia. rewrite Z.mul_mod_idemp_l in O by lia.
      pose proof (Z.div_mod (now * 1000) 4294967296 ltac:(lia)). lia. }
    assert (E : step e s = Ok (say (OReceive 100) (withTimer (Some (Some (now + 60))) (withReceive 100 false (Some 100) (granted s + 100) (if onReceive s then say CReceived s1 else s1))))).
    { unfold e. cbn [step]. rewrite A4. unfold handle_receive. change (tst (withReceive (quota s) (waitBw s) None (granted s) s)) with (tst s). rewrite A3. change (0 =? 0) with true. cbv iota. rewrite E1. change (1 =? 100) with false. cbv iota. cbn [bind]. change (0 =? 0) with true. cbv iota.
      assert (OR : onReceive s1 = onReceive s) by (rewrite S1; reflexivity). rewrite OR. unfold startReceive.
      assert (F : forall x, x = s1 \/ x = say CReceived s1 -> tst x = Connected /\ quota x = 0 /\ waitBw x = false /\ receiving x = None /\ expecting x = 100 /\ speed x = 0 /\ channels x = true /\ granted x = granted s /\ timer x = timer s).
      { intros x [-> | ->]; cbn [tst quota waitBw receiving expecting speed channels granted timer say]; rewrite SP; rewrite S1; tc; rewrite ?A3, ?A9, ?A7, ?A8; auto 10. }
      assert (FX : forall x, x = s1 \/ x = say CReceived s1 -> match tst x with Connected => let s0 := requestBandwidth (wantedTransfer x) true x in match receiving s0 with Some _ => Ok s0 | None =>
          if waitBw s0 then Ok s0 else match timer s0 with Some _ => Ok (say (OReceive (quota s0)) (withTimer (Some (Some (now + 60))) (withReceive (quota s0) (waitBw s0) (Some (quota s0)) (granted s0) s0))) | None => UB end end | _ => Ok x end =
          Ok (say (OReceive 100) (withTimer (Some (Some (now + 60))) (withReceive 100 false (Some 100) (granted s + 100) x)))).
      { intros x X. destruct (F x X) as (F1 & F2 & F3 & F4 & F5 & F6 & F7 & F8 & F9). rewrite F1. unfold wantedTransfer. rewrite F5, F6. change (Z.min (Z.max 100 0) 1048576) with 100. unfold requestBandwidth. rewrite F3, F2, F7. cbn [negb andb]. change (0 >=? 100) with false. change (100 - 0) with 100. change (100 =? 0) with false. cbv iota zeta. tc. rewrite F4, F9. change (u32 (0 + 100)) with 100.
        destruct (timer s); [|contradiction]. rewrite F8. reflexivity. }
      destruct (onReceive s); rewrite FX; auto. }
    exists (es ++ [e]). eexists. split; [eapply h_step; [exact H| |exact E]|].
    + unfold e. cbn [possible aSize rSize]. split; [assumption|]. split; [assumption|]. split; [lia|]. split; [lia|]. exists 100. split; [assumption|lia].
    + assert (OR : forall f : tcp -> Z, (forall x, f (say CReceived x) = f x) -> f (if onReceive s then say CReceived s1 else s1) = f s1) by (intros f FF; destruct (onReceive s); auto).
      cbn [counter granted tst receiving quota speed expecting channels waitBw timer say withTimer withReceive]. destruct (onReceive s); cbn [counter granted tst receiving quota speed expecting channels waitBw timer say]; rewrite SP; rewrite S1; tc;
        rewrite A1, A2, A3, A7, A8; (split; [lia|]; split; [lia|]; intuition discriminate).
Qed.
Print Assumptions C93_quota_lost_refuted.

(** Finding: a connected stream which waits for bandwidth is closed when the time allowed for the connect is over. *)
Theorem C93_waiting_closed_refuted : forall oc orc a now1 now2, now1 <= now2 < now1 + 10 ->
  exists s s', history (fresh true oc orc true) [EPeer a now1; EConnect 0 0 0 now2 false] s /\ tst s = Connected /\ waitBw s = true /\
    possible (ETimeout (now1 + 10)) s /\ step (ETimeout (now1 + 10)) s = Ok s' /\ tst s' = Disconnected /\ In (CClosed 0) (log s').
Proof.
  intros oc orc a now1 now2 B.
  assert (H : exists s, history (fresh true oc orc true) [EPeer a now1; EConnect 0 0 0 now2 false] s /\ tst s = Connected /\ waitBw s = true /\ timer s = Some (Some (now1 + 10)) /\ onClose s = true).
  { destruct oc, orc; (eexists; split; [change [EPeer a now1; EConnect 0 0 0 now2 false] with (([] ++ [EPeer a now1]) ++ [EConnect 0 0 0 now2 false]);
      eapply h_step; [eapply h_step; [apply h_start|exact I|cbv -[Z.add]; reflexivity]|left; reflexivity|cbv -[Z.add]; reflexivity]|cbn [tst waitBw timer onClose]; auto]). }
  destruct H as (s & H & T & W & TM & C). exists s. eexists. split; [exact H|]. split; [assumption|]. split; [assumption|]. split; [exists (now1 + 10); split; [assumption|lia]|]. split; [reflexivity|].
  unfold checkTimeout, postFail. rewrite T. tc. rewrite C. tc. split; [reflexivity|]. apply in_or_app. right. now left.
Qed.
Print Assumptions C93_waiting_closed_refuted.

(** A write while the stream connects, one while the first is under way, a receive which fills its quota and reads more, the end. *)
Example C93_meets : exists s, history (fresh true true true true)
  (((((((([] ++ [EPeer 7 1]) ++ [EWrite [1; 2]]) ++ [EConnect 0 0 0 2 true]) ++ [EWrite [3]]) ++ [EWritten 0]) ++
    [EReceive 0 100 {| aCode := 0; aSize := 30; rCode := 0; rSize := 20 |} 3 true false]) ++ [EWritten 0]) ++ [EDoClose]) s /\
  log s = [OConnect 7; OWrite [1; 2]; OReceive 100; COpened; OWrite [3]; CReceived; CClosed 0] /\ counter s = 120 /\ granted s = 130 /\ waitBw s = true.
Proof.
  eexists. split.
  { eapply h_step; [eapply h_step; [eapply h_step; [eapply h_step; [eapply h_step; [eapply h_step; [eapply h_step; [eapply h_step; [apply h_start|exact I|vm_compute; reflexivity]|exact I|vm_compute; reflexivity]|left; reflexivity|vm_compute; reflexivity]|exact I|vm_compute; reflexivity]|reflexivity|vm_compute; reflexivity]| |vm_compute; reflexivity]|reflexivity|vm_compute; reflexivity]|exact I|vm_compute; reflexivity].
  cbn [possible aSize rSize]. split; [lia|]. split; [discriminate|]. split; [lia|]. split; [lia|]. exists 100. split; [reflexivity|lia]. }
  vm_compute. auto.
Qed.

Example C93_clock_meets : 2147483648 mod 536870912 = 0 /\ 1700000000 mod 536870912 <> 0.
Proof. split; [reflexivity|discriminate]. Qed.
