(** C97: announces over HTTP. *)
From Verif Require Import Base BaseLemmas HttpModel HttpSpec HttpCommModel HttpCommSpec HttpCommProofs.

(** Each announce is answered at most once. *)
Theorem C97_calls : forall parse es s, history parse init es s -> (calls (log s) <= length (requests es))%nat.
Proof.
  intros parse es s H. enough (IC es s) as I by (unfold IC in I; lia). induction H as [|es s e H IH P]; [unfold IC; cbn; lia|now apply IC_step].
Qed.
Print Assumptions C97_calls.

(** The state shown: announced when the last call was a result, alive or offline when it was a failure, offline only when there was no result ever. *)
Theorem C97_state : forall parse es s, history parse init es s ->
  match ts s with
  | TInitialized => last_call None (log s) = None
  | TOffline => last_call None (log s) = Some false /\ results (log s) = O
  | TAlive => last_call None (log s) = Some false
  | TAnnounced => last_call None (log s) = Some true
  | TAnnouncing => True
  end.
Proof.
  intros parse es s H. enough (IT s) as (_ & I) by (destruct (ts s); auto; apply I). induction H as [|es s e H IH P]; [unfold IT; cbn; auto|now apply IT_step].
Qed.
Print Assumptions C97_state.

(** What is sent was asked for, and no oftener than that. *)
Theorem C97_sent : forall parse es s d, history parse init es s -> (times d (sent (log s)) <= times d (requests es))%nat.
Proof.
  intros parse es s d H. enough (IS es s) as I by (specialize (I d); lia). induction H as [|es s e H IH P]; [intros x; cbn; lia|now apply IS_step].
Qed.
Print Assumptions C97_sent.

Lemma history_IV parse es s : history parse init es s -> IV s.
Proof. induction 1 as [|es s e H IH P]; [split; cbn; auto|now apply IV_step]. Qed.

(** While an announce is under way on a stream that is not closed: when the stream ends or brings a bad response the owner is told of a failure,
    and the next announce makes a stream of its own. *)
Theorem C97_failure_told : forall parse es s i x e, history parse init es s -> cur s = Some i -> nth_error (streams s) i = Some x -> st x <> SDisconnected -> ts s = TAnnouncing ->
  e = EEnd i \/ (exists d, e = EData i d /\ parse (rbuf x ++ d) = PBad) ->
  log (step parse e s) = log s ++ [EFail] /\ ts (step parse e s) = (if (results (log s) =? 0)%nat then TOffline else TAlive) /\
  forall req, cur (step parse (EAnnounce req) (step parse e s)) = Some (length (streams s)).
Proof.
  intros parse es s i x e H C X D T E. pose proof (history_IV _ _ _ H) as (_ & V). rewrite C in V. destruct V as (x' & X' & V). rewrite X in X'. injection X' as <-. destruct V as [V|V]; [contradiction|].
  assert (L : last s = negb (results (log s) =? 0)%nat). { enough (IT s) as I by apply I. clear - H. induction H as [|es s e H IH P]; [unfold IT; cbn; auto|now apply IT_step]. }
  assert (G : log (step parse e s) = log s ++ [EFail] /\ ts (step parse e s) = (if last s then TAlive else TOffline) /\ cur (step parse e s) = None /\ length (streams (step parse e s)) = length (streams s)).
  { destruct (fail_frame s) as [F1 F2]. destruct (fail_kind s) as [(_ & N)|(_ & A & _ & B)]; [contradiction|].
    destruct E as [->|(d & -> & P)]; cbn [step]; unfold on; rewrite X.
    - unfold postFail. rewrite V. unfold onTcpClosed. rewrite T. destruct (st x); try contradiction; pj; rewrite A, B, F1, F2, upd_length; auto.
    - unfold received. rewrite V. unfold onTcpReceived. rewrite T, P. pj. rewrite A, B, F1, F2, upd_length. auto. }
  destruct G as (G1 & G2 & G3 & G4). split; [exact G1|]. split; [rewrite G2, L; destruct (_ =? _)%nat; reflexivity|].
  intros req. remember (step parse e s) as s2. cbn [step]. unfold announce. cbv zeta. rewrite G3. pj. rewrite nth_error_app2, Nat.sub_diag by lia. cbn [nth_error]. pj. now rewrite G4.
Qed.
Print Assumptions C97_failure_told.

Lemma history_nil parse s0 es s : history parse s0 es s -> es = [] -> s = s0.
Proof. intros H E. destruct H; [reflexivity|]. apply app_eq_nil in E. destruct E; discriminate. Qed.

Lemma history_snoc parse s0 es e s : history parse s0 (es ++ [e]) s -> exists s1, history parse s0 es s1 /\ possible e s1 /\ s = step parse e s1.
Proof.
  intros H. remember (es ++ [e]) as l eqn:E. destruct H as [|es' s e' H P].
  - destruct es; discriminate.
  - apply app_inj_tail in E. destruct E as [-> ->]. eauto.
Qed.

(** A response is given to the owner once it is whole, however it is cut into parts. Missing: parts of which the reader says that they are bad
    ([C97_first_bytes_refuted]) or says nothing (C45). *)
Theorem C97_answer_partial : forall parse s i x cs c n r s', nth_error (streams s) i = Some x -> cbs x = true -> rbuf x = [] -> ts s = TAnnouncing ->
  history parse s (map (EData i) (cs ++ [c])) s' -> (forall a b, a <> [] -> b <> [] -> concat cs ++ c = a ++ b -> parse a = PMore) -> parse (concat cs ++ c) = PDone n r ->
  log s' = log s ++ [EResult r] /\ ts s' = TAnnounced.
Proof.
  intros parse s i x cs c n r s' X CX RX T H M P.
  assert (G : forall l l2 s1, cs = l ++ l2 -> history parse s (map (EData i) l) s1 -> exists x1, nth_error (streams s1) i = Some x1 /\ cbs x1 = true /\ rbuf x1 = concat l /\ ts s1 = TAnnouncing /\ log s1 = log s).
  { induction l as [|d l IH] using rev_ind; intros l2 s1 E H1.
    - rewrite (history_nil _ _ _ _ H1 eq_refl). exists x. auto.
    - rewrite map_app in H1. cbn [map] in H1. apply history_snoc in H1. destruct H1 as (s2 & H1 & PO & ->). rewrite <- app_assoc in E. destruct (IH (d :: l2) s2 E H1) as (y & Y1 & Y2 & Y3 & Y4 & Y5).
      cbn [possible] in PO. destruct PO as (y' & _ & _ & ND).
      cbn [step]. unfold on. rewrite Y1. unfold received. rewrite Y2. unfold onTcpReceived. rewrite Y4, Y3. rewrite (M (concat l ++ d) (concat l2 ++ c)).
      + pj. eexists. split; [eapply nth_error_upd_same; exact Y1|]. pj. rewrite concat_app. cbn [concat skipn]. rewrite app_nil_r. auto.
      + intros Z. apply app_eq_nil in Z. tauto.
      + intros Z. apply app_eq_nil in Z. destruct Z as [_ ->]. rewrite map_app in H. cbn [map] in H. apply history_snoc in H. destruct H as (s3 & _ & (z & _ & _ & N) & _). congruence.
      + rewrite E, concat_app. cbn [app concat]. now rewrite <- !app_assoc. }
  rewrite map_app in H. cbn [map] in H. apply history_snoc in H. destruct H as (s1 & H & _ & ->). destruct (G cs [] s1) as (y & Y1 & Y2 & Y3 & Y4 & Y5); [now rewrite app_nil_r|assumption|].
  cbn [step]. unfold on. rewrite Y1. unfold received. rewrite Y2. unfold onTcpReceived. rewrite Y4, Y3, P. pj. now rewrite Y5.
Qed.
Print Assumptions C97_answer_partial.

(** Finding: a first part of fewer than four bytes is taken for a bad response: the announce fails, and the connection stays open and is forgotten. *)
Theorem C97_first_bytes_refuted : forall fuel m s i x d, nth_error (streams s) i = Some x -> cbs x = true -> rbuf x = [] -> ts s = TAnnouncing -> (length d < 4)%nat ->
  let s' := step (parseResponse fuel m) (EData i d) s in
  log s' = log s ++ [EFail] /\ cur s' = None /\ exists y, nth_error (streams s') i = Some y /\ st y = st x /\ cbs y = true.
Proof.
  intros fuel m s i x d X CX RX T L. cbv zeta. assert (P : parseResponse fuel m d = PBad).
  { unfold parseResponse, readAnnounceResponse, readHttp. assert (E : zlen d <? 4 = true) by (unfold zlen; apply Z.ltb_lt; lia). rewrite E. reflexivity. }
  cbn [step]. unfold on. rewrite X. unfold received. rewrite CX. unfold onTcpReceived. rewrite T, RX. cbn [app]. rewrite P. pj. destruct (fail_frame s) as [F1 F2]. destruct (fail_kind s) as [(_ & N)|(_ & A & _ & B)]; [contradiction|].
  rewrite B, F1, F2. repeat split; auto. eexists. split; [eapply nth_error_upd_same; exact X|]. auto.
Qed.
Print Assumptions C97_first_bytes_refuted.

Definition closed (x : stream) : Prop := st x = SDisconnected /\ cbs x = false.
Definition dead (s : comm) : Prop := Forall closed (streams s) /\ exists i, cur s = Some i /\ (i < length (streams s))%nat.

Lemma dead_step parse s e : dead s -> possible e s -> no_stop e -> dead (step parse e s) /\ log (step parse e s) = log s.
Proof.
  intros (F & i & C & L) P N. assert (FX : forall j x, nth_error (streams s) j = Some x -> closed x) by (intros j x X; rewrite Forall_forall in F; apply F; eapply nth_error_In; eassumption).
  destruct e as [req| |j|j|j|j d|j]; cbn [possible] in P; cbn [step]; unfold on; try (destruct P as (x & X & P); pose proof (FX j x X) as (S & B); rewrite X).
  - unfold announce. cbv zeta. rewrite C. pj. rewrite C. destruct (nth_error (streams s) i) as [x|] eqn:X; [|apply nth_error_None in X; lia]. split; [|reflexivity]. split; pj; [apply Forall_upd; [exact F|exact (FX i x X)]|exists i; rewrite upd_length; auto].
  - now destruct N.
  - unfold runTask. destruct (posted x) as [|[c|] l]; [contradiction| |].
    + split; [|reflexivity]. split; pj; [apply Forall_upd; [exact F|split; pj; [now rewrite S|exact B]]|exists i; rewrite upd_length; auto].
    + unfold postFail. pj. rewrite S. split; [|reflexivity]. split; pj; [apply Forall_upd; [exact F|split; pj; auto]|exists i; rewrite upd_length; auto].
  - congruence.
  - destruct P. congruence.
  - destruct P. congruence.
  - destruct P; congruence.
Qed.

(** Finding: after an announce that is answered, and whose connection the tracker then closes as the request asks it to, no announce of the object
    is sent and none is told of. *)
Theorem C97_never_again_refuted : forall parse req d n r, d <> [] -> parse d = PDone n r ->
  exists s, history parse init [EAnnounce req; ERun 0; EOpen 0; EWritten 0; EData 0 d; EEnd 0] s /\ log s = [ESent req; EResult r] /\
    forall es s', Forall no_stop es -> history parse s es s' -> log s' = log s.
Proof.
  intros parse req d n r D P.
  assert (H : history parse init [EAnnounce req; ERun 0; EOpen 0; EWritten 0; EData 0 d; EEnd 0]
    {| streams := [{| st := SDisconnected; cbs := false; posted := []; queue := []; rbuf := skipn n d |}]; cur := Some O; ts := TAnnounced; last := true; log := [ESent req; EResult r] |}).
  { change [EAnnounce req; ERun 0; EOpen 0; EWritten 0; EData 0 d; EEnd 0] with (([EAnnounce req; ERun 0; EOpen 0; EWritten 0] ++ [EData 0 d]) ++ [EEnd 0]).
    assert (H1 : history parse init [EAnnounce req; ERun 0; EOpen 0; EWritten 0] {| streams := [{| st := SConnected; cbs := true; posted := []; queue := []; rbuf := [] |}]; cur := Some O; ts := TAnnouncing; last := false; log := [ESent req] |}).
    { change [?a; ?b; ?c; ?d] with (((([] ++ [a]) ++ [b]) ++ [c]) ++ [d]). apply (h_step _ _ _ {| streams := [{| st := SConnected; cbs := true; posted := []; queue := [req]; rbuf := [] |}]; cur := Some O; ts := TAnnouncing; last := false; log := [] |} (EWritten 0)).
      - apply (h_step _ _ _ {| streams := [{| st := SConnecting; cbs := true; posted := []; queue := [req]; rbuf := [] |}]; cur := Some O; ts := TAnnouncing; last := false; log := [] |} (EOpen 0)).
        + apply (h_step _ _ _ {| streams := [{| st := SClear; cbs := true; posted := [KWrite req]; queue := []; rbuf := [] |}]; cur := Some O; ts := TAnnouncing; last := false; log := [] |} (ERun 0)).
          * apply (h_step _ _ _ init (EAnnounce req)); [apply h_start|exact I].
          * eexists. split; [reflexivity|discriminate].
        + eexists. split; [reflexivity|reflexivity].
      - eexists. split; [reflexivity|]. split; [reflexivity|discriminate]. }
    match goal with |- history _ _ _ ?f => assert (E : f = step parse (EEnd 0) {| streams := [{| st := SConnected; cbs := true; posted := []; queue := []; rbuf := skipn n d |}]; cur := Some O; ts := TAnnounced; last := true; log := [ESent req; EResult r] |}) by reflexivity; rewrite E end.
    apply h_step; [|eexists; split; [reflexivity|now right]].
    match goal with |- history _ _ (_ ++ [EData 0 d]) ?f => assert (E2 : f = step parse (EData 0 d) {| streams := [{| st := SConnected; cbs := true; posted := []; queue := []; rbuf := [] |}]; cur := Some O; ts := TAnnouncing; last := false; log := [ESent req] |}) end.
    { cbn [step on streams nth_error]. unfold received. cbn [cbs rbuf app]. unfold onTcpReceived. cbn [ts]. rewrite P. reflexivity. }
    rewrite E2. apply h_step; [exact H1|]. eexists. split; [reflexivity|]. split; [reflexivity|exact D]. }
  eexists. split; [exact H|]. split; [reflexivity|]. clear H. intros es s' F H.
  match type of H with history _ ?s0 _ _ => assert (D0 : dead s0) by (split; [repeat constructor|exists O; cbn; auto]); remember s0 as s eqn:E; clear E end.
  enough (G : dead s' /\ log s' = log s) by apply G. induction H as [|es s1 e H IH PO]; [auto|]. apply Forall_app in F. destruct F as [F1 F2]. inversion F2 as [|e0 l0 N _]; subst. destruct (IH F1) as (G1 & G2).
  destruct (dead_step parse s1 e G1 PO N) as [G3 G4]. split; [exact G3|congruence].
Qed.
Print Assumptions C97_never_again_refuted.

(** After the first announce got a bad response, and the second is under way: its stream is number 1, and number 0 is still open. *)
Lemma two_streams parse req1 req2 d : d <> [] -> parse d = PBad ->
  history parse init [EAnnounce req1; ERun 0; EOpen 0; EWritten 0; EData 0 d; EAnnounce req2; ERun 1]
    {| streams := [{| st := SConnected; cbs := true; posted := []; queue := []; rbuf := [] |}; {| st := SConnecting; cbs := true; posted := []; queue := [req2]; rbuf := [] |}];
       cur := Some 1%nat; ts := TAnnouncing; last := false; log := [ESent req1; EFail] |}.
Proof.
  intros D P. change [EAnnounce req1; ERun 0; EOpen 0; EWritten 0; EData 0 d; EAnnounce req2; ERun 1] with ((([EAnnounce req1; ERun 0; EOpen 0; EWritten 0] ++ [EData 0 d]) ++ [EAnnounce req2]) ++ [ERun 1]).
  assert (H1 : history parse init [EAnnounce req1; ERun 0; EOpen 0; EWritten 0] {| streams := [{| st := SConnected; cbs := true; posted := []; queue := []; rbuf := [] |}]; cur := Some O; ts := TAnnouncing; last := false; log := [ESent req1] |}).
  { change [?a; ?b; ?c; ?d] with (((([] ++ [a]) ++ [b]) ++ [c]) ++ [d]). apply (h_step _ _ _ {| streams := [{| st := SConnected; cbs := true; posted := []; queue := [req1]; rbuf := [] |}]; cur := Some O; ts := TAnnouncing; last := false; log := [] |} (EWritten 0)).
    - apply (h_step _ _ _ {| streams := [{| st := SConnecting; cbs := true; posted := []; queue := [req1]; rbuf := [] |}]; cur := Some O; ts := TAnnouncing; last := false; log := [] |} (EOpen 0)).
      + apply (h_step _ _ _ {| streams := [{| st := SClear; cbs := true; posted := [KWrite req1]; queue := []; rbuf := [] |}]; cur := Some O; ts := TAnnouncing; last := false; log := [] |} (ERun 0)).
        * apply (h_step _ _ _ init (EAnnounce req1)); [apply h_start|exact I].
        * eexists. split; [reflexivity|discriminate].
      + eexists. split; [reflexivity|reflexivity].
    - eexists. split; [reflexivity|]. split; [reflexivity|discriminate]. }
  apply (h_step _ _ _ {| streams := [{| st := SConnected; cbs := true; posted := []; queue := []; rbuf := [] |}; {| st := SClear; cbs := true; posted := [KWrite req2]; queue := []; rbuf := [] |}];
       cur := Some 1%nat; ts := TAnnouncing; last := false; log := [ESent req1; EFail] |} (ERun 1)); [|eexists; split; [reflexivity|discriminate]].
  apply (h_step _ _ _ {| streams := [{| st := SConnected; cbs := true; posted := []; queue := []; rbuf := [] |}]; cur := None; ts := TOffline; last := false; log := [ESent req1; EFail] |} (EAnnounce req2)); [|exact I].
  match goal with |- history _ _ _ ?f => assert (E2 : f = step parse (EData 0 d) {| streams := [{| st := SConnected; cbs := true; posted := []; queue := []; rbuf := [] |}]; cur := Some O; ts := TAnnouncing; last := false; log := [ESent req1] |}) end.
  { cbn [step on streams nth_error]. unfold received. cbn [cbs rbuf app]. unfold onTcpReceived. cbn [ts]. rewrite P. cbn. now rewrite skipn_all. }
  rewrite E2. apply h_step; [exact H1|]. eexists. split; [reflexivity|]. split; [reflexivity|exact D].
Qed.

(** Finding: after a bad response the connection stays open; when it ends, the next announce fails, although its own connection is open. *)
Theorem C97_old_end_refuted : forall parse req1 req2 d, d <> [] -> parse d = PBad ->
  exists s, history parse init [EAnnounce req1; ERun 0; EOpen 0; EWritten 0; EData 0 d; EAnnounce req2; ERun 1; EOpen 1; EEnd 0] s /\
    log s = [ESent req1; EFail; EFail] /\ cur s = None /\ exists x, nth_error (streams s) 1 = Some x /\ st x = SConnected /\ queue x = [req2].
Proof.
  intros parse req1 req2 d D P. eexists. split.
  - change [EAnnounce req1; ERun 0; EOpen 0; EWritten 0; EData 0 d; EAnnounce req2; ERun 1; EOpen 1; EEnd 0] with (([EAnnounce req1; ERun 0; EOpen 0; EWritten 0; EData 0 d; EAnnounce req2; ERun 1] ++ [EOpen 1]) ++ [EEnd 0]).
    eapply h_step; [eapply h_step; [exact (two_streams parse req1 req2 d D P)|]|]; eexists; (split; [reflexivity|cbn; auto]).
  - split; [reflexivity|]. split; [reflexivity|]. eexists. split; [reflexivity|]. auto.
Qed.
Print Assumptions C97_old_end_refuted.

(** Finding: what the old connection brings answers the next announce, before that is sent. *)
Theorem C97_old_answer_refuted : forall parse req1 req2 d d2 n r, d <> [] -> parse d = PBad -> d2 <> [] -> parse d2 = PDone n r ->
  exists s, history parse init [EAnnounce req1; ERun 0; EOpen 0; EWritten 0; EData 0 d; EAnnounce req2; ERun 1; EData 0 d2] s /\
    log s = [ESent req1; EFail; EResult r] /\ ts s = TAnnounced.
Proof.
  intros parse req1 req2 d d2 n r D P D2 P2. eexists. split.
  - change [EAnnounce req1; ERun 0; EOpen 0; EWritten 0; EData 0 d; EAnnounce req2; ERun 1; EData 0 d2] with ([EAnnounce req1; ERun 0; EOpen 0; EWritten 0; EData 0 d; EAnnounce req2; ERun 1] ++ [EData 0 d2]).
    eapply h_step; [exact (two_streams parse req1 req2 d D P)|]. eexists. split; [reflexivity|]. split; [reflexivity|exact D2].
  - cbn [step on streams nth_error]. unfold received. cbn [cbs rbuf app]. unfold onTcpReceived. cbn [ts]. rewrite P2. auto.
Qed.
Print Assumptions C97_old_answer_refuted.

(** Finding: the owner is told of a failure after it stopped the tracker. *)
Theorem C97_stopped_told_refuted : forall parse req1 req2 d, d <> [] -> parse d = PBad ->
  exists s s', history parse init [EAnnounce req1; ERun 0; EOpen 0; EWritten 0; EData 0 d; EAnnounce req2; ERun 1; EStop] s /\
    possible (EEnd 0) s /\ s' = step parse (EEnd 0) s /\ log s' = log s ++ [EFail].
Proof.
  intros parse req1 req2 d D P. do 2 eexists. split.
  - change [EAnnounce req1; ERun 0; EOpen 0; EWritten 0; EData 0 d; EAnnounce req2; ERun 1; EStop] with ([EAnnounce req1; ERun 0; EOpen 0; EWritten 0; EData 0 d; EAnnounce req2; ERun 1] ++ [EStop]).
    eapply h_step; [exact (two_streams parse req1 req2 d D P)|exact I].
  - split; [eexists; split; [reflexivity|cbn; auto]|]. split; [reflexivity|]. reflexivity.
Qed.
Print Assumptions C97_stopped_told_refuted.

Lemma history_IG parse es s : (forall d, parse d <> PBad) -> history parse init es s -> IV s /\ IG s.
Proof. intros NB. induction 1 as [|es s e H [IH1 IH2] P]; [split; [split; cbn; auto|intros [|i] x; discriminate]|]. split; [now apply IV_step|now apply IG_step]. Qed.

(** The owner is called only for what the stream in use does. Missing: after a bad response ([C97_old_end_refuted], [C97_old_answer_refuted]). *)
Theorem C97_own_partial : forall parse es s e, (forall d, parse d <> PBad) -> history parse init es s -> calls (log (step parse e s)) <> calls (log s) ->
  exists i, stream_of e = Some i /\ cur s = Some i.
Proof.
  intros parse es s e NB H. destruct (history_IG _ _ _ NB H) as [_ G].
  destruct (step_kind parse s e) as [e s' N (A & B & C)|r s' A B C|i d s' A B C|i s' T A B C|e s' i x N SE NX CX (A & B & C & D)|i x r n d d' s' NX CX A B C DD P D|e s' N A B C]; rewrite ?C; try congruence.
  - rewrite calls_app. cbn [calls]. lia.
  - intros _. exists i. split; [exact SE|]. eapply G; eassumption.
  - intros _. exists i. split; [reflexivity|]. eapply G; eassumption.
  - rewrite calls_app. cbn [calls]. lia.
Qed.
Print Assumptions C97_own_partial.

(** After the tracker is stopped the owner is not called until it announces again. Missing: after a bad response ([C97_stopped_told_refuted]). *)
Theorem C97_stopped_partial : forall parse es1 s1 es2 s2, (forall d, parse d <> PBad) -> history parse init es1 s1 -> history parse (step parse EStop s1) es2 s2 -> Forall no_announce es2 ->
  calls (log s2) = calls (log s1).
Proof.
  intros parse es1 s1 es2 s2 NB H1 H2 F. destruct (history_IG _ _ _ NB H1) as [V G].
  assert (V0 : IV (step parse EStop s1)) by now apply IV_step. assert (G0 : IG (step parse EStop s1)) by now apply IG_step.
  assert (C0 : cur (step parse EStop s1) = None) by (cbn [step]; unfold deinit; destruct (cur s1) eqn:E; [reflexivity|exact E]).
  assert (L0 : log (step parse EStop s1) = log s1) by (cbn [step]; unfold deinit; destruct (cur s1) as [i|]; [destruct (nth_error (streams s1) i)|]; reflexivity).
  rewrite <- L0. clear L0 V G H1. remember (step parse EStop s1) as s eqn:E. clear E.
  enough (K : IV s2 /\ IG s2 /\ cur s2 = None /\ calls (log s2) = calls (log s)) by apply K.
  induction H2 as [|es s3 e H IH P]; [auto|]. apply Forall_app in F. destruct F as [F1 F2]. inversion F2 as [|e0 l0 N _]; subst. destruct (IH F1) as (K1 & K2 & K3 & K4).
  split; [now apply IV_step|]. split; [now apply IG_step|].
  assert (NC : forall i x, nth_error (streams s3) i = Some x -> cbs x = false) by (intros i x X; destruct (cbs x) eqn:CX; [pose proof (K2 i x X CX); congruence|reflexivity]).
  split.
  - destruct e as [req| |i|i|i|i d|i]; [now destruct (N req)| | | | | |]; cbn [step]; unfold on; try (destruct (nth_error (streams s3) i) as [x|] eqn:X; [|exact K3]; pose proof (NC i x X) as CX).
    + unfold deinit. now rewrite K3.
    + unfold runTask, postFail. destruct (posted x) as [|[d|] l]; [exact K3|exact K3|]. pj. rewrite CX. destruct (st x); exact K3.
    + unfold opened. rewrite CX. destruct (st x); exact K3.
    + unfold written. destruct (queue x); exact K3.
    + unfold received. rewrite CX. exact K3.
    + unfold postFail. rewrite CX. destruct (st x); exact K3.
  - rewrite <- K4. destruct (step_kind parse s3 e) as [e s' N1 (A & B & C)|r s' A B C|i d s' A B C|i s' T A B C|e s' i x N1 SE NX CX (A & B & C & D)|i x r n d d' s' NX CX A B C DD Q D|e s' N1 A B C]; rewrite ?C; try reflexivity.
    + rewrite calls_app. cbn [calls]. lia.
    + pose proof (NC i x NX). congruence.
    + pose proof (NC i x NX). congruence.
    + rewrite calls_app. cbn [calls]. lia.
Qed.
Print Assumptions C97_stopped_partial.

Lemma run_posted parse i : forall l s x, nth_error (streams s) i = Some x -> posted x = l -> (In KClose l \/ st x = SDisconnected) ->
  exists x', nth_error (streams (fold_left (fun s e => step parse e s) (repeat (ERun i) (length l)) s)) i = Some x' /\ st x' = SDisconnected /\ posted x' = [].
Proof.
  assert (PUT : forall y s, (i < length (streams s))%nat -> nth_error (streams (put i y s)) i = Some y) by (intros y s L; cbn [put streams]; apply nth_error_Some in L; destruct (nth_error (streams s) i) as [x|] eqn:X; [eapply nth_error_upd_same; exact X|contradiction]).
  induction l as [|k l IH]; intros s x X P C; cbn [length repeat fold_left].
  - destruct C as [[]|C]. exists x. auto.
  - assert (L : (i < length (streams s))%nat) by (apply nth_error_Some; congruence). cbn [step]. unfold on, runTask. rewrite X, P. destruct k as [d|].
    + apply (IH _ (doWrite d (unpost x))); [now apply PUT|cbn; now rewrite P|]. destruct C as [[C|C]|C]; [discriminate|now left|right; cbn; now rewrite C].
    + unfold postFail. cbn [unpost st posted cbs queue rbuf]. destruct (st x) eqn:S.
      4: apply (IH _ (unpost x)); [now apply PUT|cbn; now rewrite P|right; exact S].
      all: apply (IH _ {| st := SDisconnected; cbs := false; posted := posted (unpost x); queue := queue (unpost x); rbuf := rbuf (unpost x) |}); [apply PUT; destruct (cbs x); unfold onTcpClosed, fail; repeat match goal with |- context [match ?y with _ => _ end] => destruct y end; cbn [put streams say withTs withCur]; rewrite upd_length; exact L|cbn; now rewrite P|now right].
Qed.

(** Stopping closes the stream in use: when all that was posted to it has run, it is closed and nothing more is posted. *)
Theorem C97_stop_closes : forall parse s i x, cur s = Some i -> nth_error (streams s) i = Some x ->
  exists k x', nth_error (streams (fold_left (fun s e => step parse e s) (repeat (ERun i) k) (step parse EStop s))) i = Some x' /\ st x' = SDisconnected /\ posted x' = [] /\ cur (step parse EStop s) = None.
Proof.
  intros parse s i x C X. assert (L : (i < length (streams s))%nat) by (apply nth_error_Some; congruence).
  assert (X2 : nth_error (streams (step parse EStop s)) i = Some (closeNow x)) by (cbn [step]; unfold deinit; rewrite C, X; cbn [withCur put streams]; eapply nth_error_upd_same; exact X).
  destruct (run_posted parse i (posted (closeNow x)) _ _ X2 eq_refl) as (x' & A & B & D).
  - unfold closeNow. cbn [st]. destruct (st x) eqn:S; cbn [post posted st]; auto; left; apply in_or_app; right; now left.
  - exists (length (posted (closeNow x))), x'. repeat split; auto. cbn [step]. unfold deinit. rewrite C. reflexivity.
Qed.
Print Assumptions C97_stop_closes.

(** With the reader of HttpModel.v: "HTTP/1.1 200 OK", Content-Length 2, "de" is a response, its first 38 bytes are not yet one, "404" is bad. *)
Definition exResponse : list Z := [72;84;84;80;47;49;46;49;32;50;48;48;32;79;75;13;10;67;111;110;116;101;110;116;45;76;101;110;103;116;104;58;32;50;13;10;13;10;100;101].
Definition exParse : list Z -> parsed := parseResponse 1000 (repeat 0 64).
Example C97_meets : exParse exResponse = PDone 40 {| ainterval := 300; aseeds := 0; aleeches := 0; apeers := [] |} /\ exParse (firstn 39 exResponse) = PMore /\ exParse [52; 48; 52; 32] = PBad /\
  exists s, history exParse init [EAnnounce [71]; ERun 0; EOpen 0; EWritten 0; EData 0 (firstn 39 exResponse); EData 0 (skipn 39 exResponse); EAnnounce [72]; ERun 0; EWritten 0; EEnd 0] s /\
    log s = [ESent [71]; EResult {| ainterval := 300; aseeds := 0; aleeches := 0; apeers := [] |}; ESent [72]; EFail] /\ ts s = TAlive /\ cur s = None.
Proof.
  split; [vm_compute; reflexivity|]. split; [vm_compute; reflexivity|]. split; [vm_compute; reflexivity|]. eexists. split.
  - change [?a; ?b; ?c; ?d; ?e; ?f; ?g; ?h; ?i; ?j] with (((((((((([] ++ [a]) ++ [b]) ++ [c]) ++ [d]) ++ [e]) ++ [f]) ++ [g]) ++ [h]) ++ [i]) ++ [j]).
    repeat apply h_step. 1: apply h_start. all: vm_compute; first [exact I|eexists; split; [reflexivity|]; first [now left|now right|repeat split; discriminate]|idtac].
  - vm_compute. auto.
Qed.

(** A reader that finds no response bad, for [C97_own_partial] and [C97_stopped_partial]. *)
Definition mildParse (d : list Z) : parsed := match exParse d with PBad => PMore | p => p end.
Example C97_mild : (forall d, mildParse d <> PBad) /\ mildParse exResponse = exParse exResponse.
Proof. split; [intros d; unfold mildParse; destruct (exParse d); discriminate|vm_compute; reflexivity]. Qed.
