From Verif Require Import Base BaseLemmas TcpModel TcpSpec.

Ltac tc := cbn [tst address host opened queue writing onConnect onReceive onClose quota waitBw receiving timer speed expecting channels counter granted log
  withState withTimer withInfo withWrites noCallbacks withReceive withCount say startWrite connectByHostname connectByAddress] in *.

Lemma made_app l1 l2 : made (l1 ++ l2) = made l1 ++ made l2.
Proof. induction l1 as [|[| | | | | |] l1 IH]; cbn; try assumption; [reflexivity|]. now rewrite IH. Qed.

Lemma asked_app l1 l2 : asked (l1 ++ l2) = asked l1 ++ asked l2.
Proof. induction l1 as [|[] l1 IH]; cbn; try assumption; [reflexivity|]. now rewrite IH. Qed.

(** What is about the writes of a stream. *)
Definition IW (l : list (list Z)) (s : tcp) : Prop :=
  exists a, (a <= 1)%nat /\ (a <= length (queue s))%nat /\ l = made (log s) ++ skipn a (queue s) /\ (writing s = 0 \/ writing s = 1 /\ a = 1%nat) /\
    match tst s with
    | Clear | Connecting => a = 0%nat /\ writing s = 0 /\ made (log s) = []
    | Connected => queue s <> [] -> writing s = 1
    | Disconnected => True
    end.

(** A step which leaves the queue, the writes and the log's writes alone. *)
Lemma IW_same l s s' : IW l s -> queue s' = queue s -> writing s' = writing s -> made (log s') = made (log s) ->
  (tst s' = tst s \/ tst s' = Disconnected \/ (tst s = Clear /\ tst s' = Connecting)) -> IW l s'.
Proof.
  intros (a & A1 & A2 & A3 & A4 & A5) Q W M T. exists a. rewrite Q, W, M. split; [assumption|]. split; [assumption|]. split; [assumption|]. split; [assumption|].
  destruct T as [->|[->|[T ->]]]; [assumption|exact I|]. now rewrite T in A5.
Qed.

Lemma postFail_same code s : queue (postFail code s) = queue s /\ writing (postFail code s) = writing s /\ made (log (postFail code s)) = made (log s) /\ tst (postFail code s) = Disconnected.
Proof.
  unfold postFail. destruct (tst s) eqn:T; tc; destruct (onClose s); tc; rewrite ?made_app; cbn [made]; rewrite ?app_nil_r; auto.
Qed.

Lemma IW_fail l s code : IW l s -> IW l (postFail code s).
Proof. intros H. destruct (postFail_same code s) as (A & B & C & D). apply (IW_same l s); auto. Qed.

Lemma request_same b g s : let s' := requestBandwidth b g s in queue s' = queue s /\ writing s' = writing s /\ log s' = log s /\ tst s' = tst s.
Proof.
  unfold requestBandwidth. destruct (waitBw s); [auto|]. destruct (quota s >=? b); [auto|]. destruct (_ =? 0); tc; auto.
Qed.

Lemma receive_same now g s s' : startReceive now g s = Ok s' -> queue s' = queue s /\ writing s' = writing s /\ made (log s') = made (log s) /\ tst s' = tst s.
Proof.
  unfold startReceive. destruct (tst s) eqn:T; try (intros E; injection E as <-; auto; fail).
  destruct (request_same (wantedTransfer s) g s) as (A & B & C & D). set (r := requestBandwidth _ _ _) in *. destruct (receiving r); [intros E; injection E as <-; rewrite A, B, C, D; auto|].
  destruct (waitBw r); [intros E; injection E as <-; rewrite A, B, C, D; auto|]. destruct (timer r); [|discriminate]. intros E. injection E as <-. tc.
  rewrite A, B, C, D, made_app. cbn [made]. rewrite app_nil_r. auto.
Qed.

Lemma append_same n now s s' : appendData n now s = Ok s' -> queue s' = queue s /\ writing s' = writing s /\ log s' = log s /\ tst s' = tst s.
Proof. unfold appendData. destruct (_ =? 0); [discriminate|]. intros E. injection E as <-. tc. auto. Qed.

Lemma avail_same a now g s ec s' : readAvailableData a now g s = Ok (ec, s') -> queue s' = queue s /\ writing s' = writing s /\ log s' = log s /\ tst s' = tst s.
Proof.
  unfold readAvailableData. destruct (negb _); [intros E; injection E as _ <-; auto|]. destruct (request_same (aSize a) g s) as (A & B & C & D). set (r := requestBandwidth _ _ _) in *.
  destruct (_ >? 0); [|intros E; injection E as _ <-; auto]. destruct (_ || _); [intros E; injection E as _ <-; auto|].
  destruct (appendData _ _ r) as [s2|] eqn:E2; [|discriminate]. cbn [bind]. intros E. injection E as _ <-. apply append_same in E2. intuition congruence.
Qed.

(** When the stream is closed the socket is too. *)
Definition shut (s : tcp) : Prop := tst s = Disconnected -> opened s = false.

Lemma fail_shut code s : shut s -> opened (postFail code s) = false.
Proof. unfold shut, postFail. destruct (tst s) eqn:T; intros H; tc; try destruct (onClose s); tc; auto. Qed.

(** The queue in a state which just became connected. *)
Lemma IW_opened l s ci cb now g s' : IW l s -> tst s <> Connected -> shut s -> setAsConnected cb now g (initializeInfo ci s) = Ok s' -> IW l s'.
Proof.
  intros H T SH E. unfold initializeInfo in E. destruct (opened s && (ci =? 0)) eqn:O.
  - apply andb_prop in O. destruct O as [O _]. unfold setAsConnected in E. cbn [opened withState andb] in E. destruct (cb =? 0).
    + assert (H1 : IW l (match queue s with front :: _ => startWrite front (withState Connected true s) | [] => withState Connected true s end)).
      { destruct H as (a & A1 & A2 & A3 & A4 & A5). assert (A6 : a = 0%nat /\ writing s = 0 /\ made (log s) = []) by (destruct (tst s) eqn:TS; try assumption; [contradiction|rewrite SH in O by assumption; discriminate]).
        destruct A6 as (-> & A6 & A7). destruct (queue s) as [|front q] eqn:Q.
        - exists 0%nat. tc. rewrite Q. split; [lia|]. split; [lia|]. split; [assumption|]. split; [auto|]. now intros X.
        - exists 1%nat. tc. rewrite Q, made_app, A7, A6. cbn [length made skipn]. split; [lia|]. split; [lia|]. rewrite A7 in A3. split; [exact A3|]. split; [right; split; [reflexivity|reflexivity]|reflexivity]. }
      change (queue (withState Connected true s)) with (queue s) in E. set (s1 := match queue s with [] => _ | _ => _ end) in *.
      destruct (startReceive now g s1) as [s2|] eqn:E2; [|discriminate]. cbn [bind] in E. apply receive_same in E2. destruct E2 as (B1 & B2 & B3 & B4).
      injection E as <-. apply (IW_same l s1); try assumption; destruct (onConnect s2); tc; try assumption; [rewrite made_app; cbn [made]; now rewrite app_nil_r|auto|auto].
    + injection E as <-. match goal with |- IW l (postFail ?c ?x) => destruct (postFail_same c x) as (B1 & B2 & B3 & B4) end. apply (IW_same l s); auto.
  - unfold setAsConnected in E. rewrite fail_shut in E by assumption. cbn [andb] in E. injection E as <-. now apply IW_fail, IW_fail.
Qed.

Lemma IW_step l s e s' : IW l s -> shut s -> possible e s -> step e s = Ok s' -> IW (l ++ asked [e]) s'.
Proof.
  intros H SH P E. destruct e; cbn [asked step] in *; rewrite ?app_nil_r.
  - injection E as <-. unfold connectPeer. destruct (tst s) eqn:T; try assumption. apply (IW_same l s); try reflexivity; try assumption; tc; [rewrite made_app; cbn [made]; now rewrite app_nil_r|auto].
  - injection E as <-. apply (IW_same l s); try reflexivity; try assumption; tc; auto.
  - injection E as <-. destruct H as (a & A1 & A2 & A3 & A4 & A5). unfold do_write. tc.
    assert (SK : made (log s) ++ skipn a (queue s) ++ [d] = l ++ [d]) by (rewrite A3; now rewrite <- app_assoc).
    assert (SK2 : skipn a (queue s ++ [d]) = skipn a (queue s) ++ [d]) by (rewrite skipn_app; replace (a - length (queue s))%nat with 0%nat by lia; reflexivity).
    assert (SAME : forall x s2, tst s2 = x -> (x = tst s \/ tst s = Clear /\ x = Connecting) -> x <> Connected -> queue s2 = queue s ++ [d] -> writing s2 = writing s -> made (log s2) = made (log s) -> IW (l ++ [d]) s2).
    { intros x s2 X1 X2 X3 X4 X5 X6. exists a. rewrite X1, X4, X5, X6. split; [assumption|]. split; [rewrite app_length; cbn; lia|]. split; [rewrite SK2; now symmetry|]. split; [assumption|].
      destruct X2 as [->|[X2 ->]]; [destruct (tst s); [assumption|assumption|contradiction|exact I]|]. rewrite X2 in A5. assumption. }
    destruct (tst s) eqn:T.
    + destruct (address s) as [x|]; [apply (SAME Connecting); tc; auto; try discriminate; rewrite made_app; cbn [made]; now rewrite app_nil_r|].
      destruct (host s) as [|c h]; [apply (SAME Clear); tc; auto; discriminate|]. apply (SAME Connecting); tc; auto; try discriminate. rewrite made_app. cbn [made]. now rewrite app_nil_r.
    + apply (SAME Connecting); tc; auto; discriminate.
    + destruct (queue s) as [|front q] eqn:Q.
      * cbn [app]. assert (a = 0%nat) by (cbn in A2; lia). subst a. cbn [skipn] in *. rewrite app_nil_r in A3. exists 1%nat. tc. cbn [app length skipn]. rewrite made_app. cbn [made]. rewrite app_nil_r.
        destruct A4 as [A4|[_ A4]]; [|discriminate]. rewrite A4, T. split; [lia|]. split; [lia|]. split; [now rewrite A3|]. split; [auto|reflexivity].
      * assert (exists x y, (front :: q) ++ [d] = x :: y :: skipn 1 q ++ match q with [] => [] | _ => [d] end) as (x & y & XY) by (destruct q as [|q1 q]; [exists front, d|exists front, q1]; reflexivity).
        rewrite XY. rewrite <- XY. exists a. tc. rewrite T. split; [assumption|]. split; [rewrite app_length; cbn in *; lia|]. split; [now rewrite SK2|]. split; [assumption|]. intros _. apply A5. discriminate.
    + apply (SAME Disconnected); tc; auto; discriminate.
  - injection E as <-. unfold close. destruct immediate; [|assumption]. apply (IW_same l s); try reflexivity; try assumption; tc; auto.
  - injection E as <-. now apply IW_fail.
  - injection E as <-. unfold handle_resolve. destruct results; [now apply IW_fail|]. destruct (code =? 0); [|now apply IW_fail].
    apply (IW_same l s); try reflexivity; try assumption; tc; auto. rewrite made_app. cbn [made]. now rewrite app_nil_r.
  - destruct P as (P & R & ->). unfold handle_resolver_connect in E. assert (Z1 : zlen results <? 1 = false) by (destruct results; [contradiction|unfold zlen; cbn [length]; apply Z.ltb_ge; lia]).
    rewrite Z1, andb_false_r in E. unfold handle_connect in E. destruct (code =? 0); [|injection E as <-; now apply IW_fail]. eapply IW_opened; try eassumption. destruct P; congruence.
  - unfold handle_connect in E. destruct (code =? 0); [|injection E as <-; now apply IW_fail]. eapply IW_opened; try eassumption. cbn in P. destruct P; congruence.
  - cbn [possible] in P. destruct P as (P & _). unfold handle_accept in E. eapply IW_opened; [| | |eassumption].
    + apply (IW_same l s); try reflexivity; try assumption; tc; auto.
    + tc. congruence.
    + intros X. tc. congruence.
  - cbn [possible] in P. unfold handle_write in E. destruct H as (a & A1 & A2 & A3 & A4 & A5). destruct A4 as [A4|[A4 ->]]; [lia|]. destruct (code =? 0) eqn:C.
    + tc. destruct (queue s) as [|front q] eqn:Q; [discriminate|]. injection E as <-. cbn [skipn] in A3. destruct q as [|f2 q]; tc.
      * exists 0%nat. tc. rewrite A4. split; [lia|]. split; [cbn; lia|]. split; [assumption|]. split; [left; reflexivity|]. destruct (tst s); [destruct A5; discriminate|destruct A5; discriminate|now intros X|exact I].
      * exists 1%nat. tc. rewrite made_app, A4. cbn [made length skipn]. split; [lia|]. split; [lia|]. split; [rewrite A3, <- app_assoc; reflexivity|]. split; [right; split; reflexivity|].
        destruct (tst s); [destruct A5; discriminate|destruct A5; discriminate|reflexivity|exact I].
    + injection E as <-. match goal with |- IW l (postFail ?c ?x) => destruct (postFail_same c x) as (B1 & B2 & B3 & B4) end. tc. exists 1%nat. rewrite B1, B2, B3, B4, A4. split; [lia|]. split; [assumption|]. split; [assumption|]. split; [left; reflexivity|exact I].
  - destruct (receiving s) as [r|]; [|injection E as <-; assumption]. unfold handle_receive in E.
    set (s0 := withReceive (quota s) (waitBw s) None (granted s) s) in *. assert (H0 : IW l s0) by (apply (IW_same l s); try reflexivity; try assumption; tc; auto).
    assert (G : (if code =? 0 then bind (appendData n now s0) (fun s => bind (if n =? r then readAvailableData a now g1 s else Ok (0, s)) (fun '(ec, s) =>
      if ec =? 0 then startReceive now g2 (if onReceive s then say CReceived s else s) else Ok (postFail ec s))) else Ok (postFail code s0)) = Ok s' -> IW l s').
    { clear E. destruct (code =? 0); [|intros E; injection E as <-; now apply IW_fail]. destruct (appendData n now s0) as [s1|] eqn:E1; [|discriminate]. cbn [bind].
      destruct (append_same _ _ _ _ E1) as (B1 & B2 & B3 & B4). assert (H1 : IW l s1) by (apply (IW_same l s0); auto; congruence).
      destruct (if n =? r then _ else _) as [[ec s2]|] eqn:E2; [|discriminate]. cbn [bind]. assert (H2 : IW l s2).
      { destruct (n =? r); [|injection E2 as _ <-; assumption]. destruct (avail_same _ _ _ _ _ _ E2) as (C1 & C2 & C3 & C4). apply (IW_same l s1); auto; congruence. }
      destruct (ec =? 0); [|intros E; injection E as <-; now apply IW_fail]. intros E. destruct (receive_same _ _ _ _ E) as (D1 & D2 & D3 & D4). apply (IW_same l s2); try assumption; destruct (onReceive s2); tc; try assumption; auto.
      rewrite D3, made_app. cbn [made]. now rewrite app_nil_r. }
    destruct (tst s0) eqn:T0; try (apply G; exact E). injection E as <-. assumption.
  - unfold assignBandwidth in E. destruct (receive_same _ _ _ _ E) as (D1 & D2 & D3 & D4). tc. apply (IW_same l s); auto.
  - injection E as <-. now apply IW_fail.
  - destruct P.
  - destruct P.
Qed.

(** What is about the callbacks, the timer and the socket. *)
Fixpoint calls_ok (l : list effect) : Prop :=
  match l with [] => True | CClosed _ :: l' => Forall (fun e => is_call e = false) l' | _ :: l' => calls_ok l' end.

Lemma calls_quiet e l : is_call e = false -> calls_ok l -> calls_ok (l ++ [e]).
Proof.
  intros Q. induction l as [|x l IH]; intros H.
  - cbn. now destruct e.
  - destruct x; cbn [app calls_ok] in *; try (now apply IH). apply Forall_app. split; [assumption|]. constructor; [assumption|constructor].
Qed.

Lemma calls_open e l : existsb is_closed l = false -> calls_ok (l ++ [e]).
Proof.
  induction l as [|x l IH]; intros H; [cbn; now destruct e|]. cbn [existsb] in H. apply orb_false_elim in H. destruct H as [H1 H2]. destruct x; cbn [app calls_ok]; try (now apply IH). discriminate.
Qed.

Definition ID (s : tcp) : Prop := calls_ok (log s) /\
  match tst s with
  | Disconnected => opened s = false /\ timer s = None /\ onConnect s = false /\ onReceive s = false /\ onClose s = false
  | _ => timer s <> None /\ existsb is_closed (log s) = false
  end.

Lemma ID_shut s : ID s -> shut s.
Proof. intros (_ & H) T. rewrite T in H. apply H. Qed.

Lemma ID_fail code s : ID s -> ID (postFail code s).
Proof.
  intros (H1 & H2). unfold postFail. assert (G : tst s <> Disconnected -> ID (noCallbacks (if onClose (withTimer None (withState Disconnected false s)) then say (CClosed code) (withTimer None (withState Disconnected false s)) else withTimer None (withState Disconnected false s)))).
  { intros T. assert (X : existsb is_closed (log s) = false) by (destruct (tst s); try contradiction; apply H2). split; tc.
    - destruct (onClose s); tc; [now apply calls_open|assumption].
    - destruct (onClose s); tc; auto. }
  destruct (tst s) eqn:T; try (apply G; discriminate). split; [assumption|]. now rewrite T.
Qed.

Lemma closed_say e l : is_closed e = false -> existsb is_closed (l ++ [e]) = existsb is_closed l.
Proof. intros H. rewrite existsb_app. cbn [existsb]. rewrite H. now rewrite orb_false_r. Qed.

(** Saying something which is no call, or any thing but the close when the stream is not closed. *)
Lemma ID_say e s : ID s -> is_closed e = false -> (is_call e = false \/ tst s <> Disconnected) -> ID (say e s).
Proof.
  intros (H1 & H2) C [Q|Q].
  - split; tc; [now apply calls_quiet|]. destruct (tst s); try assumption; rewrite closed_say by assumption; assumption.
  - assert (X : timer s <> None /\ existsb is_closed (log s) = false) by (destruct (tst s); try contradiction; apply H2). split; tc; [now apply calls_open|].
    destruct (tst s); try contradiction; rewrite closed_say by assumption; assumption.
Qed.

(** Changes of other members. *)
Lemma ID_same s s' : ID s -> log s' = log s -> tst s' = tst s -> (tst s = Disconnected -> opened s' = opened s) -> timer s' = timer s -> (onConnect s' = onConnect s /\ onReceive s' = onReceive s /\ onClose s' = onClose s \/ onConnect s' = false /\ onReceive s' = false /\ onClose s' = false) -> ID s'.
Proof.
  intros (H1 & H2) L T O M C. split; [now rewrite L|]. rewrite T, L, M. destruct (tst s); try assumption. rewrite O by reflexivity. intuition congruence.
Qed.

Lemma ID_state x o s : ID s -> tst s <> Disconnected -> x <> Disconnected -> ID (withState x o s).
Proof.
  intros (H1 & H2) T X. split; tc; [assumption|]. destruct (tst s), x; try contradiction; assumption.
Qed.

Lemma ID_timer t s : ID s -> tst s <> Disconnected -> ID (withTimer (Some t) s).
Proof. intros (H1 & H2) T. split; tc; [assumption|]. destruct (tst s); try contradiction; (split; [discriminate|apply H2]). Qed.

Lemma ID_request b g s : ID s -> ID (requestBandwidth b g s).
Proof.
  intros H. unfold requestBandwidth. destruct (waitBw s); [assumption|]. destruct (quota s >=? b); [assumption|]. destruct (_ =? 0); (eapply ID_same; [eassumption|tc; auto..]).
Qed.

Lemma ID_receive now g s : ID s -> exists s', startReceive now g s = Ok s' /\ ID s' /\ onConnect s' = onConnect s.
Proof.
  intros H. unfold startReceive. destruct (tst s) eqn:T; try (exists s; auto; fail). pose proof (ID_request (wantedTransfer s) g s H) as R. destruct (request_same (wantedTransfer s) g s) as (_ & _ & _ & RT).
  assert (RC : onConnect (requestBandwidth (wantedTransfer s) g s) = onConnect s) by (unfold requestBandwidth; destruct (waitBw s); [reflexivity|]; destruct (quota s >=? _); [reflexivity|]; destruct (_ =? 0); reflexivity).
  set (r := requestBandwidth _ _ _) in *. rewrite T in RT. destruct (receiving r); [exists r; auto|]. destruct (waitBw r); [exists r; auto|].
  destruct (timer r) as [t|] eqn:TM; [|destruct R as (_ & R); rewrite RT in R; destruct R as [R _]; congruence]. eexists. split; [reflexivity|]. split; [|exact RC].
  apply ID_say; [|reflexivity|now left]. apply ID_timer; [|tc; congruence]. eapply ID_same; [exact R|tc; auto..].
Qed.

Lemma ID_opened s ci cb now g : ID s -> exists s', setAsConnected cb now g (initializeInfo ci s) = Ok s' /\ ID s'.
Proof.
  intros H. unfold initializeInfo. destruct (opened s && (ci =? 0)) eqn:O.
  - apply andb_prop in O. destruct O as [O _]. assert (T : tst s <> Disconnected) by (intros T; apply (ID_shut s H) in T; congruence).
    assert (H1 : ID (withState Connected true s)) by (apply ID_state; [assumption|assumption|discriminate]). unfold setAsConnected. change (opened (withState Connected true s)) with true. cbn [andb].
    destruct (cb =? 0); [|eexists; split; [reflexivity|now apply ID_fail]]. set (s1 := match queue _ with [] => _ | _ => _ end).
    assert (H2 : ID s1).
    { unfold s1. tc. destruct (queue s); [assumption|]. unfold startWrite. apply ID_say; [|reflexivity|now left]. eapply ID_same; [exact H1|tc; auto..]. }
    destruct (ID_receive now g s1 H2) as (s2 & E2 & H3 & C3). rewrite E2. cbn [bind]. eexists. split; [reflexivity|]. destruct (onConnect s2) eqn:C; [|assumption].
    apply ID_say; [assumption|reflexivity|]. right. apply receive_same in E2. destruct E2 as (_ & _ & _ & E2). rewrite E2. unfold s1. tc. destruct (queue s); discriminate.
  - unfold setAsConnected. rewrite fail_shut by (now apply ID_shut). cbn [andb]. eexists. split; [reflexivity|]. now apply ID_fail, ID_fail.
Qed.

Lemma append_ok n now s : 0 <= now -> now mod 536870912 <> 0 -> exists s', appendData n now s = Ok s' /\ s' = withCount (speed s') 0 (counter s + n) s.
Proof.
  intros N M. unfold appendData. assert (D : u32 (u32 (u32 now - 0) * 1000) <> 0).
  { unfold u32. rewrite Z.sub_0_r, Z.mod_mod by lia. rewrite Z.mul_mod_idemp_l by lia. intros E. apply M. apply Z.mod_divide in E; [|lia]. apply Z.mod_divide; [lia|].
    change 4294967296 with (536870912 * 8) in E. destruct E as (k & E). assert (now * 125 = k * 536870912) by lia.
    apply (Z.gauss 536870912 125 now); [exists k; lia|reflexivity]. }
  destruct (Z.eqb_spec (u32 (u32 (u32 now - 0) * 1000)) 0); [contradiction|]. eexists. split; [reflexivity|]. tc. unfold withCount. tc. f_equal.
  apply Z.min_r. unfold u32. apply Z.mod_pos_bound. lia.
Qed.

Lemma ID_step s e : ID s -> possible e s -> (match e with EWritten 0 => queue s <> [] | _ => True end) -> exists s', step e s = Ok s' /\ ID s'.
Proof.
  intros H P W. destruct e; cbn [step].
  - eexists. split; [reflexivity|]. unfold connectPeer. destruct (tst s) eqn:T; try assumption. unfold connectByAddress. apply ID_say; [|reflexivity|now left].
    apply ID_state; [|tc; congruence|discriminate]. apply ID_timer; [|tc; congruence]. eapply ID_same; [exact H|tc; auto..].
  - eexists. split; [reflexivity|]. eapply ID_same; [exact H|tc; auto..].
  - eexists. split; [reflexivity|]. unfold do_write. assert (H1 : ID (withWrites (queue s ++ [d]) (writing s) s)) by (eapply ID_same; [exact H|tc; auto..]). set (s1 := withWrites _ _ s) in *.
    assert (T1 : tst s1 = tst s) by reflexivity. destruct (tst s1) eqn:T.
    + destruct (address s1); [unfold connectByAddress; apply ID_say; [apply ID_state; [assumption|congruence|discriminate]|reflexivity|now left]|].
      destruct (host s1) eqn:HS; [assumption|]. unfold connectByHostname. apply ID_say; [apply ID_state; [assumption|congruence|discriminate]|reflexivity|now left].
    + assumption.
    + destruct (queue s1) as [|f [|f2 q]] eqn:Q; try assumption. unfold startWrite. apply ID_say; [|reflexivity|now left]. eapply ID_same; [exact H1|tc; auto..].
    + assumption.
  - eexists. split; [reflexivity|]. unfold close. destruct immediate; [|assumption]. eapply ID_same; [exact H|tc; auto..].
  - eexists. split; [reflexivity|]. now apply ID_fail.
  - eexists. split; [reflexivity|]. unfold handle_resolve. destruct results as [|x r]; [now apply ID_fail|]. destruct (code =? 0) eqn:C; [|now apply ID_fail]. cbn [possible] in P.
    assert (T : tst s = Connecting). { destruct P as [P|(_ & [P|P])]; [assumption| |discriminate]. apply Z.eqb_eq in C. contradiction. }
    apply ID_say; [|reflexivity|now left]. apply ID_state; congruence.
  - destruct P as (P & R & ->). unfold handle_resolver_connect. assert (Z1 : zlen results <? 1 = false) by (destruct results; [contradiction|unfold zlen; cbn [length]; apply Z.ltb_ge; lia]).
    rewrite Z1, andb_false_r. unfold handle_connect. destruct (code =? 0); [now apply ID_opened|]. eexists. split; [reflexivity|]. now apply ID_fail.
  - unfold handle_connect. destruct (code =? 0); [now apply ID_opened|]. eexists. split; [reflexivity|]. now apply ID_fail.
  - unfold handle_accept. apply ID_opened. cbn [possible] in P. eapply ID_same; [exact H|tc; auto..]. destruct P as (P & _). rewrite P. discriminate.
  - unfold handle_write. assert (H1 : forall q w, ID (withWrites q w s)) by (intros; eapply ID_same; [exact H|tc; auto..]). destruct (Z.eqb_spec code 0) as [->|]; [|eexists; split; [reflexivity|now apply ID_fail]].
    change (queue (withWrites (queue s) (writing s - 1) s)) with (queue s). destruct (queue s) as [|f q] eqn:Q; [contradiction|]. eexists. split; [reflexivity|]. destruct q as [|f2 q]; [exact (H1 [] (writing s - 1))|].
    unfold startWrite. apply ID_say; [|reflexivity|now left]. eapply ID_same; [exact H|tc; auto..].
  - cbn [possible] in P. destruct P as (P1 & P2 & P3 & P4 & r & P5 & P6). rewrite P5. unfold handle_receive. set (s0 := withReceive (quota s) (waitBw s) None (granted s) s).
    assert (H0 : ID s0) by (eapply ID_same; [exact H|tc; auto..]).
    assert (G : tst s0 <> Disconnected -> exists s', (if code =? 0 then bind (appendData n now s0) (fun s => bind (if n =? r then readAvailableData a now g1 s else Ok (0, s)) (fun '(ec, s) =>
      if ec =? 0 then startReceive now g2 (if onReceive s then say CReceived s else s) else Ok (postFail ec s))) else Ok (postFail code s0)) = Ok s' /\ ID s').
    { intros T0. destruct (code =? 0); [|eexists; split; [reflexivity|now apply ID_fail]]. destruct (append_ok n now s0 P1 P2) as (s1 & E1 & S1). rewrite E1. cbn [bind].
      assert (H1 : ID s1) by (rewrite S1; eapply ID_same; [exact H0|tc; auto..]). assert (T1 : tst s1 = tst s0) by (rewrite S1; reflexivity).
      assert (X : exists ec s2, (if n =? r then readAvailableData a now g1 s1 else Ok (0, s1)) = Ok (ec, s2) /\ ID s2 /\ tst s2 = tst s0).
      { destruct (n =? r); [|exists 0, s1; auto]. destruct (readAvailableData a now g1 s1) as [[ec s2]|] eqn:E2.
        - exists ec, s2. split; [reflexivity|]. destruct (avail_same _ _ _ _ _ _ E2) as (_ & _ & _ & TT). split; [|congruence]. clear TT. unfold readAvailableData in E2. destruct (negb _); [injection E2 as _ <-; assumption|].
          pose proof (ID_request (aSize a) g1 s1 H1) as R. destruct (_ >? 0); [|injection E2 as _ <-; assumption]. destruct (_ || _); [injection E2 as _ <-; assumption|].
          match type of E2 with bind (appendData ?x ?y ?z) _ = _ => destruct (append_ok x y z P1 P2) as (s3 & E3 & S3) end. rewrite E3 in E2. cbn [bind] in E2. injection E2 as _ <-. rewrite S3.
          eapply ID_same; [exact R|tc; auto..].
        - exfalso. unfold readAvailableData in E2. destruct (negb _); [discriminate|]. destruct (_ >? 0); [|discriminate]. destruct (_ || _); [discriminate|].
          match type of E2 with bind (appendData ?x ?y ?z) _ = _ => destruct (append_ok x y z P1 P2) as (s3 & E3 & S3) end. rewrite E3 in E2. discriminate. }
      destruct X as (ec & s2 & -> & H2 & T2). cbn [bind]. destruct (ec =? 0); [|eexists; split; [reflexivity|now apply ID_fail]].
      destruct (ID_receive now g2 (if onReceive s2 then say CReceived s2 else s2)) as (s3 & -> & H3 & _); [|eauto]. destruct (onReceive s2); [|assumption]. apply ID_say; [assumption|reflexivity|]. right. congruence. }
    destruct (tst s0) eqn:T0; try (apply G; discriminate). eexists. split; [reflexivity|assumption].
  - unfold assignBandwidth. match goal with |- exists s', startReceive ?n ?g ?x = _ /\ _ => destruct (ID_receive n g x) as (s3 & -> & H3 & _); [|eauto] end. eapply ID_same; [exact H|tc; auto..].
  - eexists. split; [reflexivity|]. now apply ID_fail.
  - destruct P.
  - destruct P.
Qed.

(** What is about the bandwidth. *)
Definition IQ (s : tcp) : Prop := 0 <= quota s < 4294967296 /\ counter s + quota s <= granted s /\ 0 < expecting s /\
  (forall r, receiving s = Some r -> 0 < r <= quota s /\ waitBw s = false) /\
  match tst s with Clear | Connecting => receiving s = None | _ => True end.

Lemma IQ_same s s' : IQ s -> quota s' = quota s -> counter s' = counter s -> granted s' = granted s -> expecting s' = expecting s -> receiving s' = receiving s -> waitBw s' = waitBw s ->
  (tst s' = tst s \/ tst s' = Disconnected \/ tst s' = Connected \/ tst s = Clear /\ tst s' = Connecting) -> IQ s'.
Proof.
  intros (A & B & C & D & E) Q1 Q2 Q3 Q4 Q5 Q6 T. unfold IQ. rewrite Q1, Q2, Q3, Q4, Q5, Q6. split; [assumption|]. split; [assumption|]. split; [assumption|]. split; [assumption|].
  destruct T as [->|[->|[->|[T ->]]]]; auto. now rewrite T in E.
Qed.

Lemma IQ_fail code s : IQ s -> IQ (postFail code s).
Proof.
  intros H. unfold postFail. destruct (tst s) eqn:T; try assumption; (apply (IQ_same s); [assumption|destruct (onClose (withTimer None (withState Disconnected false s))); reflexivity..|]); right; left;
    destruct (onClose (withTimer None (withState Disconnected false s))); reflexivity.
Qed.

Lemma IQ_request b g s : IQ s -> receiving s = None -> 0 <= b < 4294967296 -> let s' := requestBandwidth b g s in
  IQ s' /\ receiving s' = None /\ tst s' = tst s /\ (waitBw s' = false -> b <= quota s').
Proof.
  intros (A & B & C & D & E) N BB. unfold requestBandwidth. destruct (waitBw s) eqn:WB.
  - split; [|split; [assumption|split; [reflexivity|congruence]]]. unfold IQ. rewrite WB. auto.
  - destruct (Z.geb_spec (quota s) b) as [G|G].
    + split; [unfold IQ; rewrite ?WB; auto|]. split; [assumption|]. split; [reflexivity|]. lia.
    + destruct (Z.eqb_spec (if channels s && negb g then 0 else b - quota s) 0) as [R|R]; cbv zeta.
      * split; [|split; [exact N|split; [reflexivity|discriminate]]]. unfold IQ. tc. split; [assumption|]. split; [assumption|]. split; [assumption|]. split; [intros r; rewrite N; discriminate|]. destruct (tst s); auto.
      * destruct (channels s && negb g); [contradiction|]. unfold IQ. tc. rewrite !N. unfold u32. rewrite Z.mod_small by lia. split; [|split; [reflexivity|split; [reflexivity|lia]]].
        split; [lia|]. split; [lia|]. split; [assumption|]. split; [discriminate|]. destruct (tst s); auto.
Qed.

Lemma IQ_receive now g s s' : IQ s -> receiving s = None -> startReceive now g s = Ok s' -> IQ s'.
Proof.
  intros H N. unfold startReceive. destruct (tst s) eqn:T; try (intros E; injection E as <-; assumption).
  assert (WT : 0 < wantedTransfer s <= 1048576) by (unfold wantedTransfer; destruct H as (_ & _ & H & _); lia).
  destruct (IQ_request (wantedTransfer s) g s H N ltac:(lia)) as (R1 & R2 & R3 & R4). set (r := requestBandwidth _ _ _) in *. rewrite R2. destruct (waitBw r) eqn:WB; [intros E; injection E as <-; assumption|].
  destruct (timer r); [|discriminate]. intros E. injection E as <-. destruct R1 as (A & B & C & D & E). unfold IQ. tc. split; [assumption|]. split; [assumption|]. split; [assumption|].
  split; [|now rewrite R3, T]. intros x X. injection X as <-. specialize (R4 eq_refl). split; [lia|auto].
Qed.

Lemma append_is n now s s' : appendData n now s = Ok s' -> s' = withCount (speed s') 0 (counter s + n) s.
Proof.
  unfold appendData. destruct (_ =? 0); [discriminate|]. intros E. injection E as <-. unfold withCount. tc. f_equal. apply Z.min_r. unfold u32. apply Z.mod_pos_bound. lia.
Qed.

Lemma IQ_opened s ci cb now g s' : IQ s -> tst s <> Connected -> shut s -> setAsConnected cb now g (initializeInfo ci s) = Ok s' -> IQ s'.
Proof.
  intros H T SH E. unfold initializeInfo in E. destruct (opened s && (ci =? 0)) eqn:O.
  - apply andb_prop in O. destruct O as [O _]. unfold setAsConnected in E. cbn [opened withState andb] in E.
    assert (RN : receiving s = None) by (destruct H as (_ & _ & _ & _ & H); destruct (tst s) eqn:TS; try assumption; [contradiction|rewrite SH in O by assumption; discriminate]).
    destruct (cb =? 0).
    + change (queue (withState Connected true s)) with (queue s) in E. set (s1 := match queue s with [] => _ | _ => _ end) in *.
      assert (H1 : IQ s1 /\ receiving s1 = None).
      { unfold s1. destruct (queue s); (split; [apply (IQ_same s); tc; auto|exact RN]). }
      destruct H1 as (H1 & N1). destruct (startReceive now g s1) as [s2|] eqn:E2; [|discriminate]. cbn [bind] in E. apply IQ_receive in E2; try assumption. injection E as <-.
      destruct (onConnect s2); [|assumption]. apply (IQ_same s2); tc; auto.
    + injection E as <-. apply IQ_fail. apply (IQ_same s); tc; auto.
  - unfold setAsConnected in E. rewrite fail_shut in E by assumption. cbn [andb] in E. injection E as <-. now apply IQ_fail, IQ_fail.
Qed.

Lemma IQ_step s e s' : IQ s -> shut s -> possible e s -> step e s = Ok s' -> IQ s'.
Proof.
  intros H SH P E. destruct e; cbn [step] in *.
  - injection E as <-. unfold connectPeer. destruct (tst s) eqn:T; try assumption. apply (IQ_same s); tc; auto.
  - injection E as <-. apply (IQ_same s); tc; auto.
  - injection E as <-. unfold do_write. tc. destruct (tst s) eqn:T.
    + destruct (address s); [apply (IQ_same s); tc; auto|]. destruct (host s); apply (IQ_same s); tc; auto.
    + apply (IQ_same s); tc; auto.
    + destruct (queue s ++ [d]) as [|f [|f2 q]]; apply (IQ_same s); tc; auto.
    + apply (IQ_same s); tc; auto.
  - injection E as <-. unfold close. destruct immediate; [|assumption]. apply (IQ_same s); tc; auto.
  - injection E as <-. now apply IQ_fail.
  - injection E as <-. unfold handle_resolve. destruct results; [now apply IQ_fail|]. destruct (code =? 0); [|now apply IQ_fail]. apply (IQ_same s); tc; auto.
  - destruct P as (P & R & ->). unfold handle_resolver_connect in E. assert (Z1 : zlen results <? 1 = false) by (destruct results; [contradiction|unfold zlen; cbn [length]; apply Z.ltb_ge; lia]).
    rewrite Z1, andb_false_r in E. unfold handle_connect in E. destruct (code =? 0); [|injection E as <-; now apply IQ_fail]. eapply IQ_opened; try eassumption. destruct P; congruence.
  - unfold handle_connect in E. destruct (code =? 0); [|injection E as <-; now apply IQ_fail]. eapply IQ_opened; try eassumption. cbn in P. destruct P; congruence.
  - cbn [possible] in P. destruct P as (P & _). unfold handle_accept in E. eapply IQ_opened; [| | |eassumption].
    + apply (IQ_same s); tc; auto.
    + tc. congruence.
    + intros X. tc. congruence.
  - unfold handle_write in E. assert (H1 : forall q w, IQ (withWrites q w s)) by (intros; apply (IQ_same s); tc; auto). destruct (code =? 0); [|injection E as <-; now apply IQ_fail].
    tc. destruct (queue s) as [|f q]; [discriminate|]. injection E as <-. destruct q; apply (IQ_same s); tc; auto.
  - cbn [possible] in P. destruct P as (P1 & P2 & P3 & P4 & r & P5 & P6). rewrite P5 in E. unfold handle_receive in E. set (s0 := withReceive (quota s) (waitBw s) None (granted s) s) in *.
    destruct H as (A & B & C & D & F). destruct (D r P5) as [D1 D2].
    assert (H0 : IQ s0) by (unfold IQ, s0; tc; split; [assumption|]; split; [assumption|]; split; [assumption|]; split; [discriminate|destruct (tst s); auto]).
    assert (G : (if code =? 0 then bind (appendData n now s0) (fun s => bind (if n =? r then readAvailableData a now g1 s else Ok (0, s)) (fun '(ec, s) =>
      if ec =? 0 then startReceive now g2 (if onReceive s then say CReceived s else s) else Ok (postFail ec s))) else Ok (postFail code s0)) = Ok s' -> IQ s').
    { clear E. destruct (code =? 0); [|intros E; injection E as <-; now apply IQ_fail]. destruct (appendData n now s0) as [s1|] eqn:E1; [|discriminate]. cbn [bind]. apply append_is in E1.
      assert (H1 : IQ s1 /\ receiving s1 = None) by (rewrite E1; unfold IQ, s0; tc; split; [|reflexivity]; split; [lia|]; split; [lia|]; split; [assumption|]; split; [discriminate|destruct (tst s); auto]).
      destruct H1 as [H1 N1]. destruct (if n =? r then _ else _) as [[ec s2]|] eqn:E2; [|discriminate]. cbn [bind].
      assert (H2 : IQ s2 /\ receiving s2 = None).
      { destruct (n =? r); [|injection E2 as _ <-; auto]. unfold readAvailableData in E2. destruct (negb _); [injection E2 as _ <-; auto|].
        destruct (IQ_request (aSize a) g1 s1 H1 N1 P3) as (R1 & R2 & R3 & R4). set (q := requestBandwidth _ _ _) in *. set (size := if aSize a >? quota q then quota q else aSize a) in *.
        assert (SZ : 0 <= size <= quota q) by (unfold size; destruct R1 as (R1 & _); destruct (Z.gtb_spec (aSize a) (quota q)); lia).
        destruct (size >? 0); [|injection E2 as _ <-; auto]. destruct (_ || _); [injection E2 as _ <-; auto|].
        destruct (appendData _ now q) as [s3|] eqn:E3; [|discriminate]. cbn [bind] in E2. injection E2 as _ <-. apply append_is in E3. rewrite E3. destruct R1 as (X1 & X2 & X3 & X4 & X5).
        split; [|exact R2]. unfold IQ. tc. rewrite R2. split; [lia|]. split; [lia|]. split; [assumption|]. split; [discriminate|destruct (tst q); auto]. }
      destruct H2 as [H2 N2]. destruct (ec =? 0); [|intros E; injection E as <-; now apply IQ_fail]. intros E. eapply IQ_receive; [| |exact E]; destruct (onReceive s2); assumption. }
    destruct (tst s0) eqn:T0; try (apply G; exact E). injection E as <-. assumption.
  - cbn [possible] in P. destruct P as (P1 & P2 & P3). destruct H as (A & B & C & D & F). unfold assignBandwidth in E.
    assert (N : receiving s = None) by (destruct (receiving s) as [r|]; [|reflexivity]; destruct (D r eq_refl); congruence).
    eapply IQ_receive; [| |exact E]; [|exact N]. unfold IQ. tc. rewrite N. unfold u32. rewrite Z.mod_small by lia. split; [lia|]. split; [lia|]. split; [assumption|]. split; [discriminate|destruct (tst s); auto].
  - injection E as <-. now apply IQ_fail.
  - destruct P.
  - destruct P.
Qed.

(** How often the owner was told of the connection, and that it is told of the end. *)
Definition opens (l : list effect) : nat := length (filter is_opened l).

Lemma opens_app l1 l2 : opens (l1 ++ l2) = (opens l1 + opens l2)%nat.
Proof. unfold opens. now rewrite filter_app, app_length. Qed.

Definition IO (s : tcp) : Prop := (opens (log s) <= match tst s with Clear | Connecting => 0 | _ => 1 end)%nat.

(** What a part of a step leaves: the number of openings, the callback of the close as long as the stream is not closed, and the close if it closes. *)
Definition told (s : tcp) : Prop := if match tst s with Disconnected => true | _ => false end then existsb is_closed (log s) = true else onClose s = true.

Definition kept (s s' : tcp) : Prop := opens (log s') = opens (log s) /\ (told s -> told s') /\ (tst s' = tst s \/ tst s' = Disconnected).

Lemma kept_refl s : kept s s. Proof. unfold kept. auto. Qed.
Lemma kept_trans a b c : kept a b -> kept b c -> kept a c.
Proof. intros (A1 & A2 & A3) (B1 & B2 & B3). unfold kept. split; [congruence|]. split; [auto|]. destruct B3 as [B3|B3]; [|auto]. rewrite B3. assumption. Qed.

Lemma kept_fail code s : kept s (postFail code s).
Proof.
  unfold kept. destruct (postFail_same code s) as (_ & _ & _ & T). unfold told. rewrite T. split; [|split; [|auto]].
  - unfold postFail. destruct (tst s); tc; destruct (onClose s); tc; rewrite ?opens_app; cbn; lia.
  - unfold postFail. destruct (tst s) eqn:TS; tc; intros H; rewrite ?H; tc; rewrite ?existsb_app; cbn [existsb is_closed]; rewrite ?orb_true_r; auto.
Qed.

Lemma kept_say e s : is_opened e = false -> kept s (say e s).
Proof.
  intros H. unfold kept, told. tc. rewrite opens_app. assert (opens [e] = 0%nat) by (unfold opens; cbn [filter]; now rewrite H). split; [lia|]. split; [|auto].
  destruct (tst s); auto. rewrite existsb_app. intros ->. reflexivity.
Qed.

Lemma kept_same s s' : log s' = log s -> tst s' = tst s -> onClose s' = onClose s -> kept s s'.
Proof. intros L T C. unfold kept, told. rewrite L, T, C. auto. Qed.

Lemma kept_request b g s : kept s (requestBandwidth b g s).
Proof. unfold requestBandwidth. destruct (waitBw s); [apply kept_refl|]. destruct (_ >=? _); [apply kept_refl|]. destruct (_ =? 0); now apply kept_same. Qed.

Lemma kept_receive now g s s' : startReceive now g s = Ok s' -> kept s s'.
Proof.
  unfold startReceive. destruct (tst s); try (intros E; injection E as <-; apply kept_refl). pose proof (kept_request (wantedTransfer s) g s) as R. set (r := requestBandwidth _ _ _) in *.
  destruct (receiving r); [intros E; injection E as <-; assumption|]. destruct (waitBw r); [intros E; injection E as <-; assumption|]. destruct (timer r); [|discriminate]. intros E. injection E as <-.
  eapply kept_trans; [exact R|]. eapply kept_trans; [|apply kept_say; reflexivity]. now apply kept_same.
Qed.

Lemma kept_append n now s s' : appendData n now s = Ok s' -> kept s s'.
Proof. intros E. apply append_is in E. rewrite E. now apply kept_same. Qed.

Lemma kept_avail a now g s ec s' : readAvailableData a now g s = Ok (ec, s') -> kept s s'.
Proof.
  unfold readAvailableData. destruct (negb _); [intros E; injection E as _ <-; apply kept_refl|]. pose proof (kept_request (aSize a) g s) as R. set (r := requestBandwidth _ _ _) in *.
  destruct (_ >? 0); [|intros E; injection E as _ <-; assumption]. destruct (_ || _); [intros E; injection E as _ <-; assumption|].
  destruct (appendData _ _ r) as [s2|] eqn:E2; [|discriminate]. cbn [bind]. intros E. injection E as _ <-. eapply kept_trans; [exact R|]. eapply kept_append; eassumption.
Qed.

Lemma IO_kept s s' : kept s s' -> IO s -> IO s'.
Proof. intros (A & _ & [B|B]) H; unfold IO in *; rewrite A, B; [assumption|]. destruct (tst s); lia. Qed.

Lemma IO_opened s ci cb now g s' : IO s -> tst s <> Connected -> shut s -> setAsConnected cb now g (initializeInfo ci s) = Ok s' -> IO s' /\ (told s -> told s').
Proof.
  intros H T SH E. unfold initializeInfo in E. destruct (opened s && (ci =? 0)) eqn:O.
  - apply andb_prop in O. destruct O as [O _]. unfold setAsConnected in E. cbn [opened withState andb] in E.
    assert (NT : tst s = Clear \/ tst s = Connecting) by (destruct (tst s) eqn:TS; auto; [contradiction|rewrite SH in O by assumption; discriminate]).
    assert (H0 : opens (log s) = 0%nat) by (unfold IO in H; destruct NT as [NT|NT]; rewrite NT in H; lia).
    assert (TD : told s -> told (withState Connected true s)) by (unfold told; tc; destruct NT as [-> | ->]; auto).
    destruct (cb =? 0).
    + change (queue (withState Connected true s)) with (queue s) in E. set (s1 := match queue s with [] => _ | _ => _ end) in *.
      assert (K1 : kept (withState Connected true s) s1).
      { unfold s1. destruct (queue s); [apply kept_refl|]. eapply kept_trans; [|apply kept_say; reflexivity]. now apply kept_same. }
      assert (T1 : tst s1 = Connected) by (unfold s1; destruct (queue s); reflexivity).
      destruct (startReceive now g s1) as [s2|] eqn:E2; [|discriminate]. cbn [bind] in E. destruct (receive_same _ _ _ _ E2) as (_ & _ & _ & T2). apply kept_receive in E2. pose proof (kept_trans _ _ _ K1 E2) as (K & KT & _). injection E as <-. tc.
      split.
      * unfold IO. destruct (onConnect s2); tc; rewrite ?opens_app, T2, T1, K, H0; cbn; lia.
      * intros X. apply TD, KT in X. destruct (onConnect s2); [|assumption]. unfold told in *. tc. rewrite T2, T1 in *. exact X.
    + injection E as <-. match goal with |- IO (postFail ?c ?x) /\ _ => pose proof (kept_fail c x) as (K & KT & _); destruct (postFail_same c x) as (_ & _ & _ & PT) end. split; [|auto].
      unfold IO. rewrite K, PT. tc. lia.
  - unfold setAsConnected in E. rewrite fail_shut in E by assumption. cbn [andb] in E. injection E as <-. match goal with |- IO (postFail ?c (postFail ?d ?x)) /\ _ => pose proof (kept_trans _ _ _ (kept_fail d x) (kept_fail c (postFail d x))) as K end.
    split; [eapply IO_kept; eassumption|apply K].
Qed.

Lemma IO_step s e s' : IO s -> shut s -> possible e s -> step e s = Ok s' -> IO s' /\ (e <> EClose true -> told s -> told s').
Proof.
  intros H SH P E. assert (GO : kept s s' -> IO s' /\ (e <> EClose true -> told s -> told s')) by (intros K; split; [now apply (IO_kept s)|intros _; apply K]).
  assert (CN : forall x o, tst s = Clear -> kept (withState x o s) s' -> x = Connecting -> IO s' /\ (e <> EClose true -> told s -> told s')).
  { intros x o TC (K1 & K2 & K3) ->. split.
    - unfold IO in *. rewrite K1. tc. rewrite TC in H. destruct K3 as [K3|K3]; rewrite K3; lia.
    - intros _ X. apply K2. unfold told in *. tc. now rewrite TC in X. }
  destruct e; cbn [step] in *.
  - injection E as <-. unfold connectPeer in *. destruct (tst s) eqn:T; try (apply GO, kept_refl). apply (CN Connecting true eq_refl); [|reflexivity]. unfold connectByAddress. eapply kept_trans; [|apply kept_say; reflexivity]. now apply kept_same.
  - injection E as <-. apply GO. now apply kept_same.
  - injection E as <-. unfold do_write in *. change (tst (withWrites (queue s ++ [d]) (writing s) s)) with (tst s) in *. destruct (tst s) eqn:T.
    + change (address (withWrites (queue s ++ [d]) (writing s) s)) with (address s) in *. change (host (withWrites (queue s ++ [d]) (writing s) s)) with (host s) in *. destruct (address s).
      * apply (CN Connecting true eq_refl); [|reflexivity]. unfold connectByAddress. eapply kept_trans; [|apply kept_say; reflexivity]. now apply kept_same.
      * destruct (host s) eqn:HS; [apply GO; now apply kept_same|]. apply (CN Connecting (opened s) eq_refl); [|reflexivity]. unfold connectByHostname. eapply kept_trans; [|apply kept_say; reflexivity]. now apply kept_same.
    + apply GO. now apply kept_same.
    + apply GO. destruct (queue (withWrites (queue s ++ [d]) (writing s) s)) as [|f [|f2 q]]; try (now apply kept_same). eapply kept_trans; [|apply kept_say; reflexivity]. now apply kept_same.
    + apply GO. now apply kept_same.
  - injection E as <-. unfold close. destruct immediate; [|apply GO, kept_refl]. split; [|intros X; now contradiction X]. exact H.
  - injection E as <-. apply GO, kept_fail.
  - injection E as <-. apply GO. unfold handle_resolve. destruct results; [apply kept_fail|]. destruct (code =? 0); [|apply kept_fail]. eapply kept_trans; [|apply kept_say; reflexivity]. now apply kept_same.
  - destruct P as (P & R & ->). unfold handle_resolver_connect in E. assert (Z1 : zlen results <? 1 = false) by (destruct results; [contradiction|unfold zlen; cbn [length]; apply Z.ltb_ge; lia]).
    rewrite Z1, andb_false_r in E. unfold handle_connect in E. destruct (code =? 0); [|injection E as <-; apply GO, kept_fail]. apply IO_opened in E; try assumption; [intuition|]. destruct P; congruence.
  - unfold handle_connect in E. destruct (code =? 0); [|injection E as <-; apply GO, kept_fail]. apply IO_opened in E; try assumption; [intuition|]. cbn in P. destruct P; congruence.
  - cbn [possible] in P. destruct P as (P & _). unfold handle_accept in E. apply IO_opened in E; [|exact H|tc; congruence|intros X; tc; congruence]. destruct E as [E1 E2]. split; [assumption|]. intros _ X. apply E2. unfold told in *. tc. exact X.
  - unfold handle_write in E. destruct (code =? 0).
    + change (queue (withWrites (queue s) (writing s - 1) s)) with (queue s) in E. destruct (queue s) as [|f q]; [discriminate|]. injection E as <-. apply GO. destruct q; [now apply kept_same|]. eapply kept_trans; [|apply kept_say; reflexivity]. now apply kept_same.
    + injection E as <-. apply GO. eapply kept_trans; [|apply kept_fail]. now apply kept_same.
  - destruct (receiving s) as [r|]; [|injection E as <-; apply GO, kept_refl]. apply GO. unfold handle_receive in E. set (s0 := withReceive (quota s) (waitBw s) None (granted s) s) in *. assert (K0 : kept s s0) by now apply kept_same.
    assert (G : (if code =? 0 then bind (appendData n now s0) (fun s => bind (if n =? r then readAvailableData a now g1 s else Ok (0, s)) (fun '(ec, s) =>
      if ec =? 0 then startReceive now g2 (if onReceive s then say CReceived s else s) else Ok (postFail ec s))) else Ok (postFail code s0)) = Ok s' -> kept s s').
    { clear E. destruct (code =? 0); [|intros E; injection E as <-; eapply kept_trans; [exact K0|apply kept_fail]]. destruct (appendData n now s0) as [s1|] eqn:E1; [|discriminate]. cbn [bind]. apply kept_append in E1.
      destruct (if n =? r then _ else _) as [[ec s2]|] eqn:E2; [|discriminate]. cbn [bind]. assert (K2 : kept s1 s2) by (destruct (n =? r); [eapply kept_avail; eassumption|injection E2 as _ <-; apply kept_refl]).
      pose proof (kept_trans _ _ _ K0 (kept_trans _ _ _ E1 K2)) as K3. destruct (ec =? 0); [|intros E; injection E as <-; eapply kept_trans; [exact K3|apply kept_fail]]. intros E. apply kept_receive in E. eapply kept_trans; [exact K3|].
      eapply kept_trans; [|exact E]. destruct (onReceive s2); [now apply kept_say|apply kept_refl]. }
    destruct (tst s0); try (apply G; exact E). injection E as <-. assumption.
  - apply GO. unfold assignBandwidth in E. apply kept_receive in E. eapply kept_trans; [|exact E]. now apply kept_same.
  - injection E as <-. apply GO, kept_fail.
  - destruct P.
  - destruct P.
Qed.
