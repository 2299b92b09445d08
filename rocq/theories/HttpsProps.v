(** C96: announces over HTTPS. *)
From Verif Require Import Base BaseLemmas HttpModel HttpSpec HttpsModel HttpsSpec HttpsProofs.

(** Each announce is answered at most once. *)
Theorem C96_calls : forall parse es s, history parse init es s -> (calls (log s) <= length (requests es))%nat.
Proof.
  intros parse es s H. enough (IC es s) as I by (unfold IC in I; lia). induction H as [|es s e H IH P]; [unfold IC; cbn; lia|now apply IC_step].
Qed.
Print Assumptions C96_calls.

(** The state shown: announced when the last call was a result, alive when it was a failure after an earlier result, offline when there was none. *)
Theorem C96_state : forall parse es s, history parse init es s ->
  match ts s with
  | TInitialized => last_call None (log s) = None
  | TOffline => last_call None (log s) = Some false /\ results (log s) = O
  | TAlive => last_call None (log s) = Some false /\ (0 < results (log s))%nat
  | TAnnounced => last_call None (log s) = Some true
  | TAnnouncing => True
  end.
Proof.
  intros parse es s H. enough (IT s) as (_ & I) by exact I. induction H as [|es s e H IH P]; [unfold IT; cbn; auto|now apply IT_step].
Qed.
Print Assumptions C96_state.

(** Only beginnings of requests are sent. *)
Theorem C96_sent : forall parse es s d, history parse init es s -> In (ESent d) (log s) -> d = [] \/ exists r, In r (requests es) /\ is_prefix d r.
Proof.
  intros parse es s d H I. assert (J : IS es s). { clear I. induction H as [|es s e H IH P]; [unfold IS; cbn; repeat split; intros; try contradiction; now left|now apply IS_step]. }
  destruct J as (_ & _ & L). destruct (L d I) as (r & [->|R] & (c & E)); [|right; exists r; split; [assumption|now exists c]].
  left. symmetry in E. apply app_eq_nil in E. tauto.
Qed.
Print Assumptions C96_sent.

Lemma history_app parse s0 es1 s1 : history parse s0 es1 s1 -> forall es2 s2, history parse s1 es2 s2 -> history parse s0 (es1 ++ es2) s2.
Proof. intros H1 es2 s2. induction 1 as [|es s e H IH P]; [now rewrite app_nil_r|]. rewrite app_assoc. now apply h_step. Qed.

Lemma history_nil parse s0 es s : history parse s0 es s -> es = [] -> s = s0.
Proof. intros H E. destruct H; [reflexivity|]. apply app_eq_nil in E. destruct E; discriminate. Qed.

Lemma history_snoc parse s0 es e s : history parse s0 (es ++ [e]) s -> exists s1, history parse s0 es s1 /\ possible e s1 /\ s = step parse e s1.
Proof.
  intros H. remember (es ++ [e]) as l eqn:E. destruct H as [|es' s e' H P].
  - destruct es; discriminate.
  - apply app_inj_tail in E. destruct E as [-> ->]. eauto.
Qed.

Definition reads (cs : list (list Z)) : list event := map (fun c => ERead (Some c)) cs.

(** A read is awaited for the announce that is under way. *)
Definition awaiting (s : https) : Prop := ops s = [ORead] /\ cb s = true /\ ts s = TAnnouncing /\ rbuf s = [] /\ conn s = true /\ st s = SConnected.

Lemma full_reads parse s cs s' : awaiting s -> history parse s (reads cs) s' -> Forall (fun c => length c = 512%nat) cs ->
  ops s' = [ORead] /\ cb s' = true /\ ts s' = TAnnouncing /\ rbuf s' = concat cs /\ conn s' = true /\ st s' = SConnected /\ log s' = log s /\ last s' = last s.
Proof.
  intros (A1 & A2 & A3 & A4 & A5 & A6). revert s'. induction cs as [|c cs IH] using rev_ind; intros s' H F.
  - rewrite (history_nil _ _ _ _ H eq_refl). repeat split; auto.
  - unfold reads in H. rewrite map_app in H. cbn [map] in H. apply history_snoc in H. destruct H as (s1 & H & P & ->). apply Forall_app in F. destruct F as [F1 F2]. inversion F2 as [|c0 l0 L0 _]; subst.
    destruct (IH s1 H F1) as (B1 & B2 & B3 & B4 & B5 & B6 & B7 & B8). cbn [step]. unfold handleReceive, readSize. rewrite L0, Nat.eqb_refl. pj. rewrite B1, B4, concat_app. cbn [without op_eqb concat]. rewrite app_nil_r. repeat split; auto.
Qed.

(** A response of which every read but the last brings 512 bytes, and the last fewer, is given to the owner. Missing: other reads
    ([C96_full_reads_refuted], [C96_parts_refuted]). *)
Theorem C96_answer_partial : forall parse s cs l r s', awaiting s -> history parse s (reads (cs ++ [l])) s' -> Forall (fun c => length c = 512%nat) cs -> (length l < 512)%nat ->
  parse (concat cs ++ l) = PDone r -> log s' = log s ++ [EResult r] /\ ts s' = TAnnounced.
Proof.
  intros parse s cs l r s' A H F L P. unfold reads in H. rewrite map_app in H. cbn [map] in H. apply history_snoc in H. destruct H as (s1 & H & Q & ->).
  destruct (full_reads _ _ _ _ A H F) as (B1 & B2 & B3 & B4 & B5 & B6 & B7 & B8). cbn [possible] in Q. destruct Q as [_ Q]. destruct (Q l eq_refl) as [_ Q1].
  cbn [step]. unfold handleReceive, readSize. destruct (Nat.eqb_spec (length l) 512); [lia|]. cbv zeta. pj. rewrite B4. destruct (concat cs ++ l) as [|x y] eqn:E.
  - apply app_eq_nil in E. destruct E as [_ ->]. cbn in Q1. lia.
  - rewrite B2. cbn [onResponse]. unfold onTcpReceived. pj. rewrite B3, P. pj. rewrite B7. auto.
Qed.
Print Assumptions C96_answer_partial.

(** Finding: a response whose length is a multiple of 512, read in full reads, is lost when the tracker then closes: the owner is told of a failure. *)
Theorem C96_full_reads_refuted : forall parse s cs s', awaiting s -> history parse s (reads cs ++ [ERead None]) s' -> Forall (fun c => length c = 512%nat) cs ->
  log s' = log s ++ [EFail] /\ rbuf s' = concat cs.
Proof.
  intros parse s cs s' A H F. apply history_snoc in H. destruct H as (s1 & H & Q & ->). destruct (full_reads _ _ _ _ A H F) as (B1 & B2 & B3 & B4 & B5 & B6 & B7 & B8).
  cbn [step handleReceive]. unfold postFail. pj. rewrite B6, B2. cbn [onResponse]. unfold fail. pj. rewrite B3. pj. now rewrite B7.
Qed.
Print Assumptions C96_full_reads_refuted.

(** Nothing is under way. *)
Lemma idle_history parse s es s' : ops s = [] -> history parse s es s' -> Forall no_announce es -> ops s' = [] /\ log s' = log s /\ ts s' = ts s.
Proof.
  intros O H. induction H as [|es s1 e H IH P]; intros F; [auto|]. apply Forall_app in F. destruct F as [F1 F2]. inversion F2 as [|e0 l0 N _]; subst. destruct (IH F1) as (A & B & C).
  destruct e as [req| |o ok|d r|r]; cbn [possible] in P; rewrite ?A in P; cbn [In] in P; [now destruct (N req)| |tauto|tauto|tauto]. cbn [step]. unfold stop. pj. auto.
Qed.

(** Finding: when the first read brings only a part of the response, fewer than 512 bytes, no more is read, and the owner is never called. *)
Theorem C96_parts_refuted : forall parse s d es s', awaiting s -> (0 < length d < 512)%nat -> parse d = PMore -> Forall no_announce es -> history parse (step parse (ERead (Some d)) s) es s' ->
  log s' = log s /\ ts s' = TAnnouncing.
Proof.
  intros parse s d es s' (A1 & A2 & A3 & A4 & A5 & A6) L P F H.
  assert (E : step parse (ERead (Some d)) s = withRead [] (withRead d (ended ORead s))).
  { cbn [step]. unfold handleReceive, readSize. destruct (Nat.eqb_spec (length d) 512); [lia|]. cbv zeta. pj. rewrite A4. cbn [app]. destruct d as [|x y]; [cbn in L; lia|]. rewrite A2. cbn [onResponse]. unfold onTcpReceived. pj. rewrite A3, P. reflexivity. }
  destruct (idle_history _ _ _ _ (ltac:(rewrite E; pj; rewrite A1; reflexivity) : ops (step parse (ERead (Some d)) s) = []) H F) as (_ & B & C). rewrite B, C, E. pj. auto.
Qed.
Print Assumptions C96_parts_refuted.

(** The socket stays connected although the stream counts as disconnected. *)
Definition dead (s : https) : Prop := conn s = true /\ st s <> SConnected /\ forall o, In o (ops s) -> o = OConnect \/ o = OResolve.

Lemma dead_step parse s e : dead s -> possible e s -> no_stop e -> dead (step parse e s) /\ results (log (step parse e s)) = results (log s).
Proof.
  intros (C & T & O) P N.
  assert (PF : forall s0, conn s0 = true -> log s0 = log s -> (forall o, In o (ops s0) -> o = OConnect \/ o = OResolve) -> dead (postFail parse s0) /\ results (log (postFail parse s0)) = results (log s)).
  { intros s0 C0 L0 O0. destruct (postFail_frame parse s0) as (A1 & _ & _ & _ & A2 & A3). split; [unfold dead; rewrite A1, A2, A3; repeat split; auto; discriminate|].
    destruct (postFail_kind parse s0) as [(_ & _ & ->)|(_ & _ & _ & ->)]; [now rewrite L0|]. rewrite results_app, L0. cbn [results]. lia. }
  assert (OE : forall o0 o, In o (without o0 (ops s)) -> o = OConnect \/ o = OResolve) by (intros o0 o H; apply O; eapply in_without; eauto).
  destruct e as [req| |o ok|d r|r]; cbn [possible] in P; cbn [step].
  - unfold announce, doWrite. pj. destruct (st s) eqn:TT; [|split; [unfold dead; pj; rewrite TT; auto|reflexivity]|congruence]. pj. split; [|reflexivity]. unfold dead. pj. split; [auto|]. split; [discriminate|].
    intros o. rewrite in_snoc. intros [H|H]; auto. subst o. destruct (known s); auto.
  - now destruct N.
  - destruct P as (I & PC & _). destruct (O o I) as [-> | ->].
    + unfold handleConnect. destruct ok; [specialize (PC eq_refl eq_refl); congruence|]. apply PF; pj; auto. apply OE.
    + unfold handleResolve. destruct ok; [|apply PF; pj; auto; apply OE]. split; [|reflexivity]. unfold dead. pj. repeat split; auto. intros o. rewrite in_snoc. intros [H|H]; [now apply OE in H|auto].
  - destruct P as [I _]. destruct (O _ I); discriminate.
  - destruct P as [I _]. destruct (O _ I); discriminate.
Qed.

(** Finding: once an operation of a connection fails, the socket is not closed, so that no later announce of the object has a result. *)
Theorem C96_never_again_refuted : forall parse s e es s', conn s = true -> (exists o, ops s = [o]) -> possible e s -> e = EEnd OHandshake false \/ (exists d, e = EWritten d None) \/ e = ERead None ->
  history parse (step parse e s) es s' -> Forall no_stop es -> results (log s') = results (log s).
Proof.
  intros parse s e es s' C (o & O) P E H F.
  assert (D : exists o', step parse e s = postFail parse (ended o' s) /\ o = o').
  { destruct E as [->|[(d & ->)| ->]]; cbn [possible] in P; destruct P as [I _]; rewrite O in I; destruct I as [I|[]]; eexists; (split; [reflexivity|exact I]). }
  destruct D as (o' & D & ->). assert (X : without o' (ops s) = []) by (rewrite O; cbn [without]; destruct o'; cbn [op_eqb]; rewrite ?list_eqb_refl; reflexivity).
  destruct (postFail_frame parse (ended o' s)) as (A1 & _ & _ & _ & A2 & A3). pj. rewrite X in A2. rewrite D in H.
  assert (R : results (log (postFail parse (ended o' s))) = results (log s)).
  { destruct (postFail_kind parse (ended o' s)) as [(_ & _ & ->)|(_ & _ & _ & ->)]; [reflexivity|]. rewrite results_app. cbn [results]. pj. lia. }
  assert (DE : dead (postFail parse (ended o' s))) by (unfold dead; rewrite A1, A2, A3; repeat split; auto; [discriminate|intros ? []]). rewrite <- R. clear R D A1 A2 A3 X.
  enough (G : dead s' /\ results (log s') = results (log (postFail parse (ended o' s)))) by (destruct G; assumption).
  induction H as [|es s1 e1 H IH P1]; [auto|]. apply Forall_app in F. destruct F as [F1 F2]. inversion F2 as [|e0 l0 N _]; subst. destruct (IH F1) as (G1 & G2). destruct (dead_step parse s1 e1 G1 P1 N) as [G3 G4]. split; [assumption|congruence].
Qed.
Print Assumptions C96_never_again_refuted.

(** Finding: of a request that is written only in part the rest is not sent. *)
Theorem C96_short_write_refuted : forall parse s d n es s', ops s = [OWrite d] -> (n < length d)%nat -> history parse (step parse (EWritten d (Some n)) s) es s' -> Forall no_announce es ->
  exists l, log s' = log s ++ [ESent (firstn n d)] ++ l /\ forall x, ~ In (ESent x) l.
Proof.
  intros parse s d n es s' O L H F.
  enough (G : (forall o, In o (ops s') -> o = ORead) /\ exists l, log s' = log s ++ [ESent (firstn n d)] ++ l /\ forall x, ~ In (ESent x) l) by (destruct G; assumption).
  induction H as [|es s1 e H IH P].
  - cbn [step handleWrite]. pj. rewrite O. cbn [without op_eqb]. rewrite list_eqb_refl. cbn [app]. split; [intros o [<-|[]]; reflexivity|]. exists []. split; [reflexivity|intros ? []].
  - apply Forall_app in F. destruct F as [F1 F2]. inversion F2 as [|e0 l0 N _]; subst. destruct (IH F1) as (G1 & l & G2 & G3). clear IH. split.
    + destruct e as [req| |o ok|d1 r|r]; cbn [possible] in P.
      * now destruct (N req).
      * exact G1.
      * destruct P as (I & _ & _ & NR & _). apply G1 in I. congruence.
      * destruct P as [I _]. apply G1 in I. discriminate.
      * intros o I. cbn [step] in I. unfold handleReceive in I. destruct r as [c|].
        -- cbv zeta in I. pj. destruct (_ =? _)%nat; [pj; apply in_snoc in I; destruct I as [I|I]; [apply in_without in I; auto|exact I]|].
           destruct (rbuf s1 ++ c) as [|x y]; [pj; apply in_without in I; auto|]. destruct (cb s1); [|pj; apply in_without in I; auto]. cbn [onResponse] in I. unfold onTcpReceived in I. pj.
           destruct (ts s1); pj; try (apply in_without in I; auto; fail). destruct (parse (x :: y)); pj; try (apply in_without in I; auto; fail).
           revert I. match goal with |- context [fail ?s0] => destruct (fail_frame s0) as (_ & _ & _ & _ & _ & _ & E) end. rewrite E. pj. intros I. apply in_without in I; auto.
        -- revert I. destruct (postFail_frame parse (ended ORead s1)) as (_ & _ & _ & _ & -> & _). pj. intros I. apply in_without in I; auto.
    + assert (G : exists l1, log (step parse e s1) = log s1 ++ l1 /\ forall x, ~ In (ESent x) l1).
      { revert P. destruct (step_kind parse s1 e) as [e s2 N1 (A & B & C)|r s2 A B C|d1 n1 s2 A B C|e s2 N1 (A & B & C & D)|e r d1 s2 N1 A B C Q D|e s2 N1 A B C]; intros P.
        - exists []. rewrite app_nil_r. split; [assumption|intros ? []].
        - now destruct (N r).
        - destruct P as [I _]. apply G1 in I. discriminate.
        - exists [EFail]. split; [assumption|intros ? [X|[]]; discriminate].
        - exists [EResult r]. split; [assumption|intros ? [X|[]]; discriminate].
        - exists [ELost]. split; [assumption|intros ? [X|[]]; discriminate]. }
      destruct G as (l1 & E1 & E2). exists (l ++ l1). rewrite E1, G2, <- !app_assoc. split; [reflexivity|]. intros x. rewrite in_app_iff. intros [X|X]; [eapply G3|eapply E2]; eauto.
Qed.
Print Assumptions C96_short_write_refuted.

(** Finding: a stop while the name is resolved does not keep the stream from connecting. *)
Theorem C96_stopped_connects_refuted : forall parse req, exists s, history parse init [EAnnounce req; EStop; EEnd OResolve true; EEnd OConnect true; EEnd OHandshake true] s /\ conn s = true /\ st s = SConnected /\ ops s = [OWrite []].
Proof.
  intros parse req. eexists. split.
  - change [?a; ?b; ?c; ?d; ?e] with ((((([] ++ [a]) ++ [b]) ++ [c]) ++ [d]) ++ [e]). apply h_step; [apply h_step; [apply h_step; [apply h_step; [apply h_step; [apply h_start|]|]|]|]|]; cbn; intuition discriminate.
  - cbn. auto.
Qed.
Print Assumptions C96_stopped_connects_refuted.

(** A tracker whose address is known is not resolved again, also not after a stop. *)
Theorem C96_known : forall parse s es s', known s = true -> ~ In OResolve (ops s) -> history parse s es s' -> known s' = true /\ ~ In OResolve (ops s').
Proof.
  intros parse s es s' K O H. induction H as [|es s1 e H (IH1 & IH2) P]; [auto|].
  assert (W : forall o, ~ In OResolve (without o (ops s1))) by (intros o I; apply in_without in I; contradiction).
  assert (PF : forall o s0, ops s0 = without o (ops s1) -> known s0 = known s1 -> known (postFail parse s0) = true /\ ~ In OResolve (ops (postFail parse s0))).
  { intros o s0 E F. destruct (postFail_frame parse s0) as (_ & A & _ & _ & B & _). rewrite A, B, E, F. auto. }
  assert (SN : forall o l, ~ In OResolve l -> o <> OResolve -> ~ In OResolve (l ++ [o])) by (intros o l A B; rewrite in_snoc; intros [C|C]; [contradiction|congruence]).
  assert (DW : forall s0, known s0 = true -> ~ In OResolve (ops s0) -> known (doWrite s0) = true /\ ~ In OResolve (ops (doWrite s0))).
  { intros s0 A B. unfold doWrite. destruct (st s0); pj; rewrite ?A; split; auto; apply SN; auto; discriminate. }
  destruct e as [req| |o ok|d r|r]; cbn [step].
  - apply DW; pj; auto.
  - unfold stop. pj. auto.
  - destruct o; try (split; assumption); destruct P as [P _].
    + contradiction.
    + unfold handleConnect. destruct ok; [|eapply PF; reflexivity]. pj. split; [reflexivity|]. apply SN; [apply W|discriminate].
    + unfold handleHandshake. destruct ok; [|eapply PF; reflexivity]. apply DW; pj; auto.
  - unfold handleWrite. destruct r as [n|]; [|eapply PF; reflexivity]. pj. split; [exact IH1|]. apply SN; [apply W|discriminate].
  - unfold handleReceive. destruct r as [c|]; [|eapply PF; reflexivity]. cbv zeta. pj. destruct (_ =? _)%nat; [pj; split; [exact IH1|apply SN; [apply W|discriminate]]|].
    destruct (rbuf s1 ++ c) as [|x y]; [pj; auto|]. destruct (cb s1); [|pj; auto]. cbn [onResponse]. unfold onTcpReceived. pj. destruct (ts s1); pj; auto. destruct (parse (x :: y)); pj; auto.
    match goal with |- context [fail ?s0] => destruct (fail_frame s0) as (_ & _ & A & _ & _ & _ & B) end. rewrite A, B. pj. auto.
Qed.
Print Assumptions C96_known.

(** Finding: the port of the tracker is not used. *)
Theorem C96_port_refuted : forall host p1 p2, target host p1 = target host p2.
Proof. reflexivity. Qed.
Print Assumptions C96_port_refuted.

(** An announce with the parser of HttpModel.v: resolved, connected, written, and the response "HTTP/1.1 200 OK", Content-Length 2, "de" in one read. *)
Definition exResponse : list Z := [72;84;84;80;47;49;46;49;32;50;48;48;32;79;75;13;10;67;111;110;116;101;110;116;45;76;101;110;103;116;104;58;32;50;13;10;13;10;100;101].
Definition exParse : list Z -> parsed := parseResponse 1000 (repeat 0 64).
Example C96_meets : exists s1 s2 s3, history exParse init [EAnnounce [71; 69; 84]; EEnd OResolve true; EEnd OConnect true; EEnd OHandshake true; EWritten [71; 69; 84] (Some 3%nat)] s1 /\ awaiting s1 /\
  history exParse s1 [ERead (Some exResponse)] s2 /\ log s2 = [ESent [71; 69; 84]; EResult {| ainterval := 300; aseeds := 0; aleeches := 0; apeers := [] |}] /\
  (exParse (firstn 39 exResponse) = PMore /\ possible (ERead (Some (firstn 39 exResponse))) s1) /\
  history exParse s2 [EAnnounce [71]; EWritten [71] None; EAnnounce [71]; EEnd OConnect false] s3 /\ ts s3 = TAlive /\ calls (log s3) = 3%nat.
Proof.
  do 3 eexists. split; [|split; [|split; [|split; [|split; [|split; [|split]]]]]].
  - change [?a; ?b; ?c; ?d; ?e] with ((((([] ++ [a]) ++ [b]) ++ [c]) ++ [d]) ++ [e]). apply h_step; [apply h_step; [apply h_step; [apply h_step; [apply h_step; [apply h_start|]|]|]|]|]; cbn; try (intuition discriminate).
    split; [auto|]. intros n E. injection E as <-. split; [reflexivity|split; [lia|intros _; lia]].
  - vm_compute. auto 10.
  - change [?a] with ([] ++ [a]). apply h_step; [apply h_start|]. cbn. split; [auto|]. intros d E. injection E as <-. split; [reflexivity|]. cbn. lia.
  - vm_compute. reflexivity.
  - split; [vm_compute; reflexivity|]. cbn. split; [auto|]. intros d E. injection E as <-. split; [reflexivity|]. cbn. lia.
  - change [?a; ?b; ?c; ?d] with (((([] ++ [a]) ++ [b]) ++ [c]) ++ [d]). apply h_step; [apply h_step; [apply h_step; [apply h_step; [apply h_start|]|]|]|]; vm_compute; intuition discriminate.
  - vm_compute. reflexivity.
  - vm_compute. reflexivity.
Qed.
