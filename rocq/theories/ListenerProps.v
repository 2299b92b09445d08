(** C101: peers that connect to us *)
From Verif Require Import Base BaseLemmas ListenerModel ListenerSpec ListenerProofs.
From Coq Require Import Lia List.
Import ListNotations.

Section Any.
(** Any encryption handshake *)
Variable H : Type.
Variable peNew : H.
Variable peRead : H -> list Z -> H * nat * list Z.
Variable peDone : H -> option (list Z * list Z).
Variable peBad : H -> bool.
Variable peCipher : H -> bool.
Notation listener := (ListenerModel.listener H).
Notation find := (ListenerModel.find H).
Notation lPending := (ListenerModel.lPending H).
Notation lStreams := (ListenerModel.lStreams H).
Notation lOut := (ListenerModel.lOut H).
Notation lNext := (ListenerModel.lNext H).
Notation step := (ListenerModel.step H peNew peRead peDone peBad peCipher).
Notation run := (ListenerModel.run H peNew peRead peDone peBad peCipher).
Notation new := (newListener H).

(** Whatever peers send and in whatever order, no stream is handed to a torrent twice, and one that still waits was not handed over. *)
Theorem C101_once : forall es s, run es new = Ok s -> forall id, (timesHanded id (lOut s) <= 1)%nat /\
  (find id (lPending s) <> None -> timesHanded id (lOut s) = 0%nat /\ calls id (lStreams s) = Some ByListener).
Proof.
  intros es s E id. pose proof (run_Inv H peNew peRead peDone peBad peCipher es new s (Inv_new H) E) as (A & B & C & D). split; [apply B|]. intros F. destruct (A id F). now split.
Qed.

(** What a torrent is handed: data the stream received that begins with the greeting of a peer, whole, for the hash in it, unencrypted or with the
    ciphers of a handshake; or the first message and the hash of a finished encryption handshake, and its ciphers. *)
Theorem C101_handed : forall es s, run es new = Ok s -> forall id e hash data, In (OHanded id e hash data) (lOut s) -> exists d a, In (EData id d a) es /\
  ((greets d hash /\ data = d) \/ (startsAsHandshake d = false /\ exists h, peDone (fst (fst (peRead h d))) = Some (hash, data) /\ e = peCipher (fst (fst (peRead h d))))).
Proof.
  intros es s E id e hash data X. destruct (run_From H peNew peRead peDone peBad peCipher es new s E _ X) as [[]|(d & a & F1 & F2)]. exists d, a. split; [exact F1|].
  destruct F2 as [(S1 & S2 & -> & ->)|F2]; [|now right]. left. split; [now apply starts_greets|reflexivity].
Qed.

(** A peer that waits and sends its whole greeting is handed to the owner with the hash it named, unencrypted, no longer waits, and the owner's refusal
    closes the stream. *)
Theorem C101_greeting : forall s id data hash a, find id (lPending s) = Some None -> calls id (lStreams s) = Some ByListener -> greets data hash ->
  exists s', step (EData id data a) s = Ok s' /\ find id (lPending s') = None /\
  match a with
  | Refuses => lOut s' = lOut s ++ [OHanded id false hash data; OClose id; OUsed id 0]
  | Takes 0%nat => calls id (lStreams s') = Some ByOwner /\ lOut s' = lOut s ++ [OHanded id false hash data; OClose id; OUsed id 0]
  | Takes n => calls id (lStreams s') = Some ByOwner /\ lOut s' = lOut s ++ [OHanded id false hash data; OUsed id n]
  end.
Proof.
  intros s id data hash a F Cl G. destruct (greets_starts data hash G) as (G1 & G2 & G3). cbn [ListenerModel.step]. rewrite Cl. unfold ListenerModel.readStreamData. 
  destruct (Nat.ltb_spec (length data) 20); [lia|]. rewrite G1, G3. cbn [bind]. unfold ListenerModel.startPeer. rewrite F.
  destruct a as [|[|n]]; cbn [Nat.eqb bind fst snd]; (eexists; split; [reflexivity|]); cbn [emit setPending setStreams ListenerModel.lPending ListenerModel.lStreams ListenerModel.lOut];
  rewrite find_erase, Nat.eqb_refl, ?calls_give, ?Nat.eqb_refl, ?Cl; (split; [reflexivity|]); rewrite <- ?app_assoc; repeat split.
Qed.

(** Fewer than 20 bytes: nothing is decided, the bytes are kept. *)
Theorem C101_short : forall s id data a, (length data < 20)%nat -> calls id (lStreams s) = Some ByListener ->
  exists s', step (EData id data a) s = Ok s' /\ lPending s' = lPending s /\ lStreams s' = lStreams s /\ lOut s' = lOut s ++ [OUsed id 0].
Proof.
  intros s id data a L Cl. cbn [ListenerModel.step]. rewrite Cl. unfold ListenerModel.readStreamData. apply Nat.ltb_lt in L. rewrite L. cbn [bind fst snd]. eexists. split; [reflexivity|]. repeat split.
Qed.

(** The claim "a peer is handed to the torrent it greets however its greeting is cut into segments" is false: when a first segment ends anywhere
    behind the name of the protocol and before the end, memory that was never set is compared with the hashes. *)
Theorem C101_split_refuted : forall s id data hash k a, calls id (lStreams s) = Some ByListener -> greets data hash -> (20 <= k < 68)%nat ->
  step (EData id (firstn k data) a) s = UB.
Proof.
  intros s id data hash k a Cl G K. destruct (greets_starts data hash G) as (G1 & G2 & _). cbn [ListenerModel.step]. rewrite Cl. unfold ListenerModel.readStreamData.
  assert (L : length (firstn k data) = k) by (rewrite firstn_length; lia). assert (G4 : startsAsHandshake (firstn k data) = true).
  { unfold startsAsHandshake in *. rewrite L, firstn_firstn, Nat.min_l by lia. apply andb_true_iff in G1 as (_ & G1). rewrite G1. apply andb_true_iff. split; [apply Nat.leb_le; lia|reflexivity]. }
  rewrite L, G4. destruct (Nat.ltb_spec k 20); [lia|]. unfold handshakeInfo. rewrite L. destruct (Nat.ltb_spec k 68); [reflexivity|lia].
Qed.

(** When a peer does not greet, what the encryption handshake answers is sent; when it fails the stream is closed, while it is neither done nor failed
    the peer waits on, and when it is done the peer is handed over with its hash, its first message and its ciphers. *)
Theorem C101_encrypted : forall s id data a h0 h1 n response, calls id (lStreams s) = Some ByListener -> (20 <= length data)%nat -> startsAsHandshake data = false ->
  find id (lPending s) = Some h0 -> peRead (match h0 with Some h => h | None => peNew end) data = (h1, n, response) ->
  let sent := match response with [] => [] | _ => [OWrote id response] end in
  exists s', step (EData id data a) s = Ok s' /\
  match peDone h1 with
  | Some (hash, message) => find id (lPending s') = None /\ lOut s' = lOut s ++ sent ++ [OHanded id (peCipher h1) hash message; OUsed id n]
  | None => find id (lPending s') = Some (Some h1) /\ lOut s' = lOut s ++ sent ++ (if peBad h1 then [OClose id] else []) ++ [OUsed id n]
  end.
Proof.
  intros s id data a h0 h1 n resp Cl L SH F PR sent. cbn [ListenerModel.step]. rewrite Cl. unfold ListenerModel.readStreamData, getPeHandshake. destruct (Nat.ltb_spec (length data) 20); [lia|]. rewrite SH, F.
  assert (G : match h0 with None => Some peNew | Some h => Some h end = Some (match h0 with Some h => h | None => peNew end)) by now destruct h0. rewrite G, PR. cbn [bind fst snd].
  set (s2 := match resp with [] => _ | _ => _ end). assert (P2 : find id (lPending s2) = Some (Some h1)).
  { assert (P : find id (keep H id h1 (lPending s)) = Some (Some h1)) by (rewrite find_keep, Nat.eqb_refl, F; reflexivity). unfold s2. destruct resp; exact P. }
  assert (O2 : lOut s2 = lOut s ++ sent) by (unfold s2, sent; destruct resp; cbn; [now rewrite app_nil_r|reflexivity]).
  eexists. split; [reflexivity|]. destruct (peDone h1) as [(hash, m)|].
  - unfold ListenerModel.startPeer. rewrite P2. destruct a; cbn [snd emit setPending setStreams ListenerModel.lPending ListenerModel.lOut]; rewrite find_erase, Nat.eqb_refl, O2, <- !app_assoc; now split.
  - destruct (peBad h1); cbn [snd emit setPending setStreams ListenerModel.lPending ListenerModel.lOut]; rewrite O2, <- ?app_assoc; now split.
Qed.

(** A stream that neither waits nor was given to a torrent nor was told to close: no data that is not a greeting is ever done with, answered or closes it. *)
Theorem C101_ignored : forall s id, calls id (lStreams s) = Some ByListener -> find id (lPending s) = None -> forall data a, startsAsHandshake data = false ->
  exists s', step (EData id data a) s = Ok s' /\ lPending s' = lPending s /\ lStreams s' = lStreams s /\ lOut s' = lOut s ++ [OUsed id 0].
Proof.
  intros s id Cl F data a SH. cbn [ListenerModel.step]. rewrite Cl, read_gone, SH by exact F. destruct (length data <? 20)%nat; cbn [bind fst snd]; eexists; (split; [reflexivity|]); repeat split.
Qed.

(** As long as the owner refuses no encrypted peer, every stream that is still this object's waits or was told to close. *)
Theorem C101_fate_partial : forall es s, Forall refusesPlain es -> run es new = Ok s -> forall id, calls id (lStreams s) = Some ByListener ->
  find id (lPending s) <> None \/ In (OClose id) (lOut s).
Proof.
  intros es s Q E.
  assert (K : Inv H s /\ forall id, calls id (lStreams s) = Some ByListener -> find id (lPending s) <> None \/ In (OClose id) (lOut s)); [|apply K].
  apply (run_ind H peNew peRead peDone peBad peCipher (fun s => Inv H s /\ forall id, calls id (lStreams s) = Some ByListener -> find id (lPending s) <> None \/ In (OClose id) (lOut s)) refusesPlain) with es new; [|exact Q|split; [apply Inv_new|intros id X; discriminate X]|exact E].
  clear. intros e s s' Q (Iv & P) E. split; [exact (Inv_step H peNew peRead peDone peBad peCipher e s s' Iv E)|]. pose proof (fun id => P id) as P0.
  assert (SP : forall t, (forall id, calls id (lStreams t) = Some ByListener -> find id (lPending t) <> None \/ In (OClose id) (lOut t)) -> forall id, calls id (lStreams (stop H t)) = Some ByListener -> find id (lPending (stop H t)) <> None \/ In (OClose id) (lOut (stop H t))).
  { clear. intros t P id. unfold stop. cbn [setPending emit setStreams setListen ListenerModel.lPending ListenerModel.lStreams ListenerModel.lOut]. rewrite calls_nobody.
    destruct (calls id (lStreams t)) as [w|] eqn:Cl; [|discriminate]. destruct (existsb _ _) eqn:X; [discriminate|]. intros W. injection W as ->. destruct (P id Cl) as [F|F]; [|right; apply in_or_app; now left].
    exfalso. apply find_in in F. enough (existsb (Nat.eqb id) (map fst (lPending t)) = true) by congruence. apply existsb_exists. exists id. split; [exact F|apply Nat.eqb_refl]. }
  assert (AP : forall r, forall id, calls id (lStreams (accept H r s)) = Some ByListener -> find id (lPending (accept H r s)) <> None \/ In (OClose id) (lOut (accept H r s))).
  { intros r id. unfold accept. destruct r; cbn [setPending emit setStreams setListen ListenerModel.lPending ListenerModel.lStreams ListenerModel.lOut calls ListenerModel.find];
    destruct (Nat.eqb_spec (lNext s) id) as [<-|N]; try discriminate; intros X; try (left; discriminate); destruct (P id X) as [Y|Y]; try (now left); right; try exact Y; apply in_or_app; now left. }
  destruct e as [ok| |ok|on| |id data a|id]; cbn [ListenerModel.step] in E.
  - injection E as <-. unfold start, createTcpListener. destruct (lTcp H s); [exact (SP s P)|exact P].
  - injection E as <-. exact (SP s P).
  - injection E as <-. exact P.
  - injection E as <-. destruct (lTcp H s); [apply AP|exact P].
  - injection E as <-. destruct (lUtp H s); [exact (AP false)|exact P].
  - destruct (calls id (lStreams s)) as [[| |]|] eqn:Cl; try (injection E as <-; exact P). unfold ListenerModel.readStreamData in E. intros j.
    assert (PC : forall (t : listener), lPending t = lPending s -> lStreams t = lStreams s -> (forall o, In o (lOut s) -> In o (lOut t)) -> calls j (lStreams t) = Some ByListener -> find j (lPending t) <> None \/ In (OClose j) (lOut t)).
    { intros t T1 T2 T3. rewrite T1, T2. intros X. destruct (P j X) as [Y|Y]; [now left|]. right. now apply T3. }
    destruct (length data <? 20)%nat; [cbn [bind] in E; injection E as <-; apply PC; cbn; try reflexivity; intros o O; apply in_or_app; now left|].
    destruct (startsAsHandshake data) eqn:SH.
    + destruct (handshakeInfo data) as [hash|]; cbn [bind] in E; [|discriminate]. unfold ListenerModel.startPeer in E. destruct (find id (lPending s)) as [h|] eqn:F.
      * destruct a as [|n].
        -- cbn [Nat.eqb bind fst snd] in E. injection E as <-. cbn [emit setPending setStreams ListenerModel.lPending ListenerModel.lStreams ListenerModel.lOut]. rewrite find_erase. rewrite !in_app_iff. cbn [In].
           intros X. destruct (Nat.eqb_spec id j) as [<-|N]; [right; tauto|]. destruct (P j X) as [Y|Y]; [now left|]. right. tauto.
        -- cbn [bind fst snd] in E. injection E as <-.
           assert (X : calls j (give id ByOwner (lStreams s)) = Some ByListener -> find j (erase H id (lPending s)) <> None \/ In (OClose j) (lOut s)).
           { rewrite calls_give, find_erase. destruct (Nat.eqb_spec id j) as [<-|N]; [rewrite Cl; discriminate|]. apply P. }
           destruct (n =? 0)%nat; cbn [emit setPending setStreams ListenerModel.lPending ListenerModel.lStreams ListenerModel.lOut]; rewrite !in_app_iff; intros Y; destruct (X Y); tauto.
      * cbn [Nat.eqb bind fst snd] in E. injection E as <-. apply PC; cbn; try reflexivity. intros o O. rewrite !in_app_iff. tauto.
    + destruct (getPeHandshake H peNew id s) as [h|] eqn:G; [|cbn [bind] in E; injection E as <-; apply PC; cbn; try reflexivity; intros o O; apply in_or_app; now left]. destruct (peRead h data) as ((h1, sz), resp). cbn [bind fst snd] in E. injection E as <-.
      set (s2 := match resp with [] => _ | _ => _ end). assert (S2 : lPending s2 = keep H id h1 (lPending s) /\ lStreams s2 = lStreams s /\ (forall o, In o (lOut s) -> In o (lOut s2))).
      { unfold s2. destruct resp; cbn; repeat split; auto. intros o O. apply in_or_app. now left. }
      clearbody s2. destruct S2 as (A1 & A2 & A3). assert (Fp : find id (lPending s) <> None) by (unfold getPeHandshake in G; destruct (find id (lPending s)); congruence).
      assert (KK : forall j, find j (keep H id h1 (lPending s)) <> None <-> find j (lPending s) <> None) by (intros i; rewrite find_keep; destruct (id =? i)%nat; [|reflexivity]; destruct (find i (lPending s)); split; congruence).
      destruct (peDone h1) as [(hash, m)|].
      * unfold ListenerModel.startPeer. rewrite A1. rewrite find_keep, Nat.eqb_refl. destruct (find id (lPending s)) as [g|] eqn:F; [|congruence]. destruct a as [|n]; [cbn [refusesPlain] in Q; congruence|].
        cbn [snd emit setPending setStreams ListenerModel.lPending ListenerModel.lStreams ListenerModel.lOut]. rewrite A2, calls_give, find_erase, !in_app_iff. destruct (Nat.eqb_spec id j) as [<-|N]; [rewrite Cl; discriminate|].
        rewrite KK. intros X. destruct (P j X) as [Y|Y]; [now left|]. right. left. left. now apply A3.
      * assert (X : calls j (lStreams s) = Some ByListener -> find j (lPending s2) <> None \/ In (OClose j) (lOut s2)) by (rewrite A1, KK; intros X; destruct (P j X) as [Y|Y]; [now left|right; now apply A3]).
        rewrite <- A2 in X. destruct (peBad h1); cbn [emit ListenerModel.lPending ListenerModel.lStreams ListenerModel.lOut]; rewrite !in_app_iff; intros Y; destruct (X Y); tauto.
  - intros j. assert (X : calls j (filter (fun p => negb (fst p =? id)%nat) (lStreams s)) = Some ByListener -> id <> j /\ (find j (lPending s) <> None \/ In (OClose j) (lOut s))).
    { rewrite calls_filter. destruct (Nat.eqb_spec id j) as [|N]; [discriminate|]. intros X. split; [exact N|]. now apply P. }
    destruct (calls id (lStreams s)) as [[| |]|]; injection E as <-; cbn [removePeer setPending setStreams ListenerModel.lPending ListenerModel.lStreams ListenerModel.lOut]; rewrite ?find_erase; intros Y; destruct (X Y) as (N & W); try exact W.
    destruct (Nat.eqb_spec id j); [congruence|exact W].
Qed.

(** Stopping closes every stream that waits, none of them calls back, and until a port is opened again no stream is handed over or accepted. *)
Theorem C101_stop_partial : forall es0 es s s', run es0 new = Ok s -> Forall staysStopped es -> run (EStop :: es) s = Ok s' ->
  (forall id, find id (lPending s) <> None -> In (OClose id) (lOut s') /\ calls id (lStreams s') <> Some ByListener) /\
  lPending s' = [] /\ lNext s' = lNext s /\ forall id, timesHanded id (lOut s') = timesHanded id (lOut s).
Proof.
  intros es0 es s s' E0 Q E. cbn [ListenerModel.run ListenerModel.step bind] in E.
  pose (P := fun t : listener => lTcp H t = false /\ lUtp H t = false /\ lPending t = [] /\ lNext t = lNext s /\ (forall id, timesHanded id (lOut t) = timesHanded id (lOut s)) /\
    (forall id, find id (lPending s) <> None -> In (OClose id) (lOut t) /\ calls id (lStreams t) <> Some ByListener)).
  assert (K : P s'); [|destruct K as (_ & _ & K1 & K2 & K3 & K4); auto].
  apply (run_ind H peNew peRead peDone peBad peCipher P staysStopped) with es (stop H s); [|exact Q| |exact E].
  - clear E Q es s'. intros e t t' Q (T1 & T2 & T3 & T4 & T5 & T6) E. destruct e as [ok| |ok|on| |id data a|id]; cbn [staysStopped] in Q; try (now destruct Q); cbn [ListenerModel.step] in E.
    + injection E as <-. unfold stop. rewrite T3. unfold P. cbn [map fst setPending emit setStreams setListen ListenerModel.lTcp ListenerModel.lUtp ListenerModel.lPending ListenerModel.lStreams ListenerModel.lOut ListenerModel.lNext]. rewrite app_nil_r.
      repeat split; auto; try (now apply T6). rewrite calls_nobody. cbn [existsb]. destruct (T6 id H0) as (_ & T7). intros X. apply T7. destruct (calls id (lStreams t)); exact X.
    + rewrite T1 in E. injection E as <-. repeat split; auto; now apply T6.
    + rewrite T2 in E. injection E as <-. repeat split; auto; now apply T6.
    + destruct (calls id (lStreams t)) as [[| |]|] eqn:Cl; try (injection E as <-; repeat split; auto; now apply T6). rewrite read_gone in E by now rewrite T3.
      assert (Y : exists o, (forall i, timesHanded i o = 0%nat) /\ t' = emit H o t).
      { destruct (length data <? 20)%nat; [injection E as <-; exists [OUsed id 0]; split; reflexivity|]. destruct (startsAsHandshake data); [|injection E as <-; exists [OUsed id 0]; split; reflexivity].
        destruct (handshakeInfo data); cbn [bind fst snd] in E; [|discriminate]. injection E as <-. exists [OClose id; OUsed id 0]. split; [reflexivity|]. unfold emit. cbn. now rewrite <- app_assoc. }
      destruct Y as (o & Y1 & ->). unfold P. cbn [emit ListenerModel.lTcp ListenerModel.lUtp ListenerModel.lPending ListenerModel.lStreams ListenerModel.lOut ListenerModel.lNext].
      repeat split; auto; intros; try (now apply T6); [rewrite times_app, Y1, Nat.add_0_r; apply T5|apply in_or_app; left; now apply T6].
    + assert (Y : forall t1, lTcp H t1 = lTcp H t -> lUtp H t1 = lUtp H t -> lPending t1 = [] -> lNext t1 = lNext t -> lOut t1 = lOut t -> lStreams t1 = filter (fun p => negb (fst p =? id)%nat) (lStreams t) -> P t1).
      { intros t1 V1 V2 V3 V4 V5 V6. unfold P. rewrite V1, V2, V3, V4, V5, V6. repeat split; auto; try (now apply T6). rewrite calls_filter. destruct (id =? id0)%nat; [discriminate|]. now apply T6. }
      destruct (calls id (lStreams t)) as [[| |]|]; injection E as <-; apply Y; cbn; try reflexivity; try exact T3. rewrite T3. reflexivity.
  - unfold P, stop. cbn [setPending emit setStreams setListen ListenerModel.lTcp ListenerModel.lUtp ListenerModel.lPending ListenerModel.lStreams ListenerModel.lOut ListenerModel.lNext].
    repeat split; intros.
    + rewrite times_app, times_close. apply Nat.add_0_r.
    + apply in_or_app. right. apply in_map. now apply find_in in H0.
    + rewrite calls_nobody. apply find_in in H0. assert (X : existsb (Nat.eqb id) (map fst (lPending s)) = true) by (apply existsb_exists; exists id; split; [exact H0|apply Nat.eqb_refl]). rewrite X. destruct (calls id (lStreams s)); discriminate.
Qed.

(** A TCP stream that comes while TCP from outside is off is told to close, and it is never handed over. *)
Theorem C101_tcp_off : forall es0 es s s', run es0 new = Ok s -> lTcp H s = true -> run (ETcp false :: es) s = Ok s' ->
  In (OClose (lNext s)) (lOut s') /\ timesHanded (lNext s) (lOut s') = 0%nat /\ find (lNext s) (lPending s') = None.
Proof.
  intros es0 es s s' E0 T E. pose proof (run_Inv H peNew peRead peDone peBad peCipher es0 new s (Inv_new H) E0) as I0. cbn [ListenerModel.run ListenerModel.step bind negb] in E. rewrite T in E.
  pose (n := lNext s). pose (P := fun t : listener => Inv H t /\ (n < lNext t)%nat /\ (calls n (lStreams t) = None \/ calls n (lStreams t) = Some ByNobody) /\ timesHanded n (lOut t) = 0%nat /\ In (OClose n) (lOut t)).
  assert (K : P s').
  { apply (run_ind H peNew peRead peDone peBad peCipher P (fun _ => True)) with es (accept H true s); [|apply Forall_forall; auto| |exact E].
    - intros e t t' _ (T1 & T2 & T3 & T4 & T5) E1. split; [exact (Inv_step H peNew peRead peDone peBad peCipher e t t' T1 E1)|].
      assert (NL : calls n (lStreams t) <> Some ByListener) by (destruct T3; congruence).
      assert (Out : forall o, In o (lOut t) -> In o (lOut t')).
      { destruct e as [ok| |ok|on| |id data a|id]; cbn [ListenerModel.step] in E1.
        - injection E1 as <-. unfold start, createTcpListener. destruct (lTcp H t); cbn; intros; try apply in_or_app; auto.
        - injection E1 as <-. cbn. intros. apply in_or_app. now left.
        - injection E1 as <-. auto.
        - injection E1 as <-. destruct (lTcp H t); [|auto]. unfold accept. destruct (negb on); cbn; intros; try apply in_or_app; auto.
        - injection E1 as <-. destruct (lUtp H t); auto.
        - destruct (calls id (lStreams t)) as [[| |]|]; try (injection E1 as <-; auto; fail). destruct (ListenerModel.readStreamData _ _ _ _ _ _ _ _ _ _) as [(z, t2)|] eqn:R; cbn [bind fst snd] in E1; [|discriminate]. injection E1 as <-.
          intros o O. cbn [emit ListenerModel.lOut]. apply in_or_app. left. revert R. unfold ListenerModel.readStreamData. destruct (length data <? 20)%nat; [intros R; injection R as <- <-; exact O|]. 
          assert (SO : forall d h u, In o (lOut u) -> In o (lOut (snd (ListenerModel.startPeer H peCipher id d h a u)))) by (intros d h u U; destruct (start_out H peCipher id d h a u) as [->|(g & _ & ->)]; [exact U|apply in_or_app; now left]).
          destruct (startsAsHandshake data).
          + destruct (handshakeInfo data) as [hash|]; cbn [bind]; [|discriminate]. pose proof (SO data hash t O) as SO1. destruct (ListenerModel.startPeer H peCipher id data hash a t) as (sz, t3). cbn [snd] in SO1. intros R. injection R as <- <-. destruct (sz =? 0)%nat; [cbn; apply in_or_app; now left|exact SO1].
          + destruct (getPeHandshake H peNew id t) as [h|]; [|intros R; injection R as <- <-; exact O]. destruct (peRead h data) as ((h1, sz), resp). intros R. injection R as <- <-.
            set (t3 := match resp with [] => _ | _ => _ end). assert (O3 : In o (lOut t3)) by (unfold t3; destruct resp; cbn; [exact O|apply in_or_app; now left]).
            destruct (peDone h1) as [(hash, m)|]; [now apply SO|]. destruct (peBad h1); [cbn; apply in_or_app; now left|exact O3].
        - destruct (calls id (lStreams t)) as [[| |]|]; injection E1 as <-; auto. }
      assert (Rest : (n < lNext t')%nat /\ (calls n (lStreams t') = None \/ calls n (lStreams t') = Some ByNobody) /\ timesHanded n (lOut t') = 0%nat); [|destruct Rest as (R1 & R2 & R3); auto 6].
      assert (SP : forall u : listener, (n < lNext u)%nat /\ (calls n (lStreams u) = None \/ calls n (lStreams u) = Some ByNobody) /\ timesHanded n (lOut u) = 0%nat -> (n < lNext (stop H u))%nat /\ (calls n (lStreams (stop H u)) = None \/ calls n (lStreams (stop H u)) = Some ByNobody) /\ timesHanded n (lOut (stop H u)) = 0%nat).
      { intros u (U1 & U2 & U3). unfold stop. cbn [setPending emit setStreams setListen ListenerModel.lPending ListenerModel.lStreams ListenerModel.lOut ListenerModel.lNext]. rewrite times_app, times_close, Nat.add_0_r, calls_nobody. repeat split; auto.
        destruct U2 as [->| ->]; [now left|]. right. now destruct (existsb _ _). }
      destruct e as [ok| |ok|on| |id data a|id]; cbn [ListenerModel.step] in E1.
      + injection E1 as <-. unfold start, createTcpListener. destruct (lTcp H t); [apply (SP t); auto|cbn; auto].
      + injection E1 as <-. apply SP. auto.
      + injection E1 as <-. cbn. auto.
      + injection E1 as <-. destruct (lTcp H t); [|auto]. unfold accept. destruct (negb on); cbn [setPending emit setStreams ListenerModel.lPending ListenerModel.lStreams ListenerModel.lOut ListenerModel.lNext calls]; rewrite ?times_app; change (timesHanded n [OClose (lNext t)]) with 0%nat; (destruct (Nat.eqb_spec (lNext t) n); [lia|]); rewrite ?Nat.add_0_r; auto.
      + injection E1 as <-. destruct (lUtp H t); [|auto]. unfold accept. cbn [setPending emit setStreams ListenerModel.lPending ListenerModel.lStreams ListenerModel.lOut ListenerModel.lNext calls]; (destruct (Nat.eqb_spec (lNext t) n); [lia|]); auto.
      + destruct (calls id (lStreams t)) as [[| |]|] eqn:Cl; try (injection E1 as <-; auto; fail). assert (N : id <> n) by congruence. destruct (ListenerModel.readStreamData _ _ _ _ _ _ _ _ _ _) as [(z, t2)|] eqn:R; cbn [bind fst snd] in E1; [|discriminate]. injection E1 as <-.
        cbn [emit ListenerModel.lStreams ListenerModel.lOut ListenerModel.lNext]. rewrite times_app. change (timesHanded n [OUsed id z]) with 0%nat. rewrite Nat.add_0_r.
        assert (SO : forall d h u, (n < lNext u)%nat /\ (calls n (lStreams u) = None \/ calls n (lStreams u) = Some ByNobody) /\ timesHanded n (lOut u) = 0%nat -> (n < lNext (snd (ListenerModel.startPeer H peCipher id d h a u)))%nat /\ (calls n (lStreams (snd (ListenerModel.startPeer H peCipher id d h a u))) = None \/ calls n (lStreams (snd (ListenerModel.startPeer H peCipher id d h a u))) = Some ByNobody) /\ timesHanded n (lOut (snd (ListenerModel.startPeer H peCipher id d h a u))) = 0%nat).
        { intros d h u (U1 & U2 & U3). unfold ListenerModel.startPeer. destruct (find id (lPending u)) as [g|]; [|auto]. destruct a; cbn [snd setPending emit setStreams ListenerModel.lPending ListenerModel.lStreams ListenerModel.lOut ListenerModel.lNext]; rewrite times_app, U3, ?calls_give; unfold timesHanded; cbn [filter isHanded]; (destruct (Nat.eqb_spec id n); [congruence|]); auto. }
        assert (SE : forall o u, timesHanded n o = 0%nat -> (n < lNext u)%nat /\ (calls n (lStreams u) = None \/ calls n (lStreams u) = Some ByNobody) /\ timesHanded n (lOut u) = 0%nat -> (n < lNext (emit H o u))%nat /\ (calls n (lStreams (emit H o u)) = None \/ calls n (lStreams (emit H o u)) = Some ByNobody) /\ timesHanded n (lOut (emit H o u)) = 0%nat).
        { intros o u O (U1 & U2 & U3). cbn [emit ListenerModel.lNext ListenerModel.lStreams ListenerModel.lOut]. rewrite times_app, U3, O. auto. }
        revert R. unfold ListenerModel.readStreamData. destruct (length data <? 20)%nat; [intros R; injection R as <- <-; auto|]. destruct (startsAsHandshake data).
        * destruct (handshakeInfo data) as [hash|]; cbn [bind]; [|discriminate]. pose proof (SO data hash t (conj T2 (conj T3 T4))) as SO1. destruct (ListenerModel.startPeer H peCipher id data hash a t) as (sz, t3). cbn [snd] in SO1. intros R. injection R as <- <-. destruct (sz =? 0)%nat; [now apply SE|exact SO1].
        * destruct (getPeHandshake H peNew id t) as [h|]; [|intros R; injection R as <- <-; auto]. destruct (peRead h data) as ((h1, sz), resp). intros R. injection R as <- <-.
          set (t3 := match resp with [] => _ | _ => _ end). assert (O3 : (n < lNext t3)%nat /\ (calls n (lStreams t3) = None \/ calls n (lStreams t3) = Some ByNobody) /\ timesHanded n (lOut t3) = 0%nat) by (unfold t3; destruct resp; [|apply SE; [reflexivity|]]; cbn; auto).
          destruct (peDone h1) as [(hash, m)|]; [now apply SO|]. destruct (peBad h1); [now apply SE|exact O3].
      + assert (X : calls n (filter (fun p => negb (fst p =? id)%nat) (lStreams t)) = None \/ calls n (filter (fun p => negb (fst p =? id)%nat) (lStreams t)) = Some ByNobody) by (rewrite calls_filter; destruct (id =? n)%nat; auto).
        destruct (calls id (lStreams t)) as [[| |]|]; injection E1 as <-; cbn; auto.
    - split; [now apply Inv_accept|]. unfold accept. cbn [setPending emit setStreams ListenerModel.lPending ListenerModel.lStreams ListenerModel.lOut ListenerModel.lNext calls]. fold n. rewrite Nat.eqb_refl, times_app. destruct I0 as (_ & _ & _ & D). destruct (D n (le_n _)) as (D1 & D2).
      rewrite D2. repeat split; auto. apply in_or_app. right. now left. }
  destruct K as ((A & _) & K2 & K3 & K4 & K5). fold n. repeat split; auto. destruct (find n (lPending s')) eqn:F; [|reflexivity]. exfalso. assert (F' : find n (lPending s') <> None) by congruence. apply A in F' as (F' & _). destruct K3; congruence.
Qed.

End Any.
Print Assumptions C101_once.
Print Assumptions C101_handed.
Print Assumptions C101_greeting.
Print Assumptions C101_short.
Print Assumptions C101_split_refuted.
Print Assumptions C101_encrypted.
Print Assumptions C101_ignored.
Print Assumptions C101_fate_partial.
Print Assumptions C101_stop_partial.
Print Assumptions C101_tcp_off.

(** A handshake for the cases below: the first data is answered with [1; 2] and all used, the second finishes it for a torrent of hash [hash1] with
    the first message [3], but data that begins with 0 fails. *)
Definition toyRead (h : nat) (d : list Z) : nat * nat * list Z :=
  match h, d with O, 0 :: _ => (9%nat, length d, []) | O, _ => (1%nat, length d, [1; 2]) | _, _ => (2%nat, length d, [4]) end.
Definition hash1 : list Z := repeat 7 20.
Definition toyDone (h : nat) : option (list Z * list Z) := match h with 2%nat => Some (hash1, [3]) | _ => None end.
Definition toyBad (h : nat) : bool := (h =? 9)%nat.
Definition toyCipher (h : nat) : bool := (h =? 2)%nat.
Notation toyRun := (run nat 0%nat toyRead toyDone toyBad toyCipher).
Definition noise (b : Z) : list Z := repeat b 96.
Definition hello : list Z := (19 :: protocolName) ++ repeat 0 8 ++ hash1 ++ repeat 5 20.

(** The claim "a stream that is accepted waits, is given to a torrent or is closed" is false: a peer whose encryption handshake is done and whom the
    owner refuses is none of those; nothing this object does will ever close it unless it sends a plain greeting. *)
Theorem C101_fate_refuted : exists es s, toyRun es (newListener nat) = Ok s /\ calls 0 (lStreams nat s) = Some ByListener /\ ListenerModel.find nat 0 (lPending nat s) = None /\
  ~ In (OClose 0) (lOut nat s) /\ In (OHanded 0 true hash1 [3]) (lOut nat s) /\
  (forall es' s', Forall (fun e => match e with EData _ d _ => startsAsHandshake d = false | EClosed _ => False | _ => True end) es' -> toyRun es' s = Ok s' ->
     calls 0 (lStreams nat s') = Some ByListener /\ ~ In (OClose 0) (lOut nat s') /\ ListenerModel.find nat 0 (lPending nat s') = None).
Proof.
  exists [EStart true; EUtp; EData 0 (noise 1) Refuses; EData 0 (noise 2) Refuses]. eexists. split; [vm_compute; reflexivity|]. split; [reflexivity|]. split; [reflexivity|].
  split; [intros X; cbn in X; repeat (destruct X as [X|X]; [discriminate X|]); destruct X|]. split; [cbn; tauto|].
  match goal with |- forall es' s', _ -> toyRun es' ?s = Ok s' -> _ => set (s0 := s) end.
  pose (P := fun t : listener nat => (0 < lNext nat t)%nat /\ calls 0 (lStreams nat t) = Some ByListener /\ ~ In (OClose 0) (lOut nat t) /\ ListenerModel.find nat 0 (lPending nat t) = None).
  intros es' s' Q E. assert (K : P s'); [|destruct K as (_ & K1 & K2 & K3); auto].
  apply (run_ind nat 0%nat toyRead toyDone toyBad toyCipher P (fun e => match e with EData _ d _ => startsAsHandshake d = false | EClosed _ => False | _ => True end)) with es' s0; [|exact Q| |exact E].
  - clear. intros e t t' Q (T0 & T1 & T2 & T3) E. 
    assert (NP : existsb (Nat.eqb 0) (map fst (lPending nat t)) = false).
    { destruct (existsb _ _) eqn:X; [|reflexivity]. apply existsb_exists in X as (j & X1 & X2). apply Nat.eqb_eq in X2. subst j. apply find_in in X1. congruence. }
    assert (SP : forall a b, P (setListen nat a b (stop nat t))).
    { intros a b. unfold P, stop. cbn [setPending emit setStreams setListen lPending lStreams lOut lNext]. rewrite calls_nobody, T1, NP. repeat split; auto. intros X. apply in_app_or in X as [X|X]; [now apply T2|].
      apply in_map_iff in X as (j & X1 & X2). injection X1 as ->. apply find_in in X2. congruence. }
    assert (AP : forall r, P (accept nat r t)).
    { intros r. unfold P, accept. destruct r; cbn [setPending emit setStreams setListen lPending lStreams lOut lNext calls ListenerModel.find]; (destruct (Nat.eqb_spec (lNext nat t) 0); [lia|]); repeat split; auto; try lia. intros X. apply in_app_or in X as [X|[X|[]]]; [now apply T2|]. injection X as X. lia. }
    destruct e as [ok| |ok|on| |id data a|id]; cbn [step] in E; try (now destruct Q).
    + injection E as <-. unfold start, createTcpListener. destruct (lTcp nat t); [exact (SP ok true)|unfold P; cbn; auto].
    + injection E as <-. exact (SP false false).
    + injection E as <-. unfold P. cbn. auto.
    + injection E as <-. destruct (lTcp nat t); [apply AP|unfold P; auto].
    + injection E as <-. destruct (lUtp nat t); [exact (AP false)|unfold P; auto].
    + destruct (calls id (lStreams nat t)) as [[| |]|] eqn:Cl; try (injection E as <-; unfold P; auto; fail).
      unfold readStreamData in E. rewrite Q in E. destruct (length data <? 20)%nat.
      { cbn [bind fst snd] in E. injection E as <-. unfold P. cbn [emit lPending lStreams lOut lNext]. repeat split; auto. intros X. apply in_app_or in X as [X|[X|[]]]; [now apply T2|discriminate]. }
      unfold getPeHandshake in E. destruct (ListenerModel.find nat id (lPending nat t)) as [g|] eqn:F.
      * assert (N : id <> 0%nat) by congruence. assert (G : exists h, match g with None => Some 0%nat | Some h => Some h end = Some h) by (destruct g; eauto). destruct G as (h & G). rewrite G in E.
        destruct (toyRead h data) as ((h1, sz), resp). cbn [bind fst snd] in E. injection E as <-.
        set (t2 := match resp with [] => _ | _ => _ end). assert (P2 : P t2).
        { unfold t2. destruct resp; unfold P; cbn [emit setPending lPending lStreams lOut lNext]; rewrite find_keep, T3; (destruct (Nat.eqb_spec id 0); [congruence|]); repeat split; auto. intros X. apply in_app_or in X as [X|[X|[]]]; [now apply T2|discriminate]. }
        assert (PE : forall o u, o <> OClose 0 -> P u -> P (emit nat [o] u)).
        { intros o u O (U0 & U1 & U2 & U3). unfold P. cbn [emit lPending lStreams lOut lNext]. repeat split; auto. intros X. apply in_app_or in X as [X|[X|[]]]; [now apply U2|congruence]. }
        apply PE; [discriminate|]. destruct (toyDone h1) as [(hash, m)|]; [|destruct (toyBad h1); [apply PE; [congruence|exact P2]|exact P2]].
        destruct P2 as (U0 & U1 & U2 & U3). unfold startPeer. destruct (ListenerModel.find nat id (lPending nat t2)); [|unfold P; auto].
        destruct a; unfold P; cbn [snd emit setPending setStreams lPending lStreams lOut lNext]; rewrite ?find_erase, ?calls_give, ?U1, ?U3; (destruct (Nat.eqb_spec id 0); [congruence|]); repeat split; auto; intros X; apply in_app_or in X as [X|[X|[]]]; [now apply U2|discriminate|now apply U2|discriminate].
      * cbn [bind fst snd] in E. injection E as <-. unfold P. cbn [emit lPending lStreams lOut lNext]. repeat split; auto. intros X. apply in_app_or in X as [X|[X|[]]]; [now apply T2|discriminate].
  - unfold P, s0. cbn. repeat split; auto. intros X. repeat (destruct X as [X|X]; [discriminate X|]). destruct X.
Qed.
Print Assumptions C101_fate_refuted.

(** The claim "when it is stopped no peer is accepted" is false: a change of the port opens a listener again, since the callback of the settings stays. *)
Theorem C101_stop_refuted : exists s, toyRun [EStart true; EStop; EPort true; ETcp true; EData 0 hello (Takes 68)] (newListener nat) = Ok s /\ In (OHanded 0 false hash1 hello) (lOut nat s).
Proof. eexists. split; [vm_compute; reflexivity|]. vm_compute. tauto. Qed.
Print Assumptions C101_stop_refuted.

(** The hypotheses are met: the greeting above, a plain peer taken, a peer that waits over several segments, an encrypted one, one that fails, one refused. *)
Example C101_meets_greets : greets hello hash1.
Proof. exists (repeat 0 8), (repeat 5 20), []. repeat split. Qed.
Example C101_meets_plain : exists s, toyRun [EStart true; ETcp true; ETcp true; EData 1 hello (Takes 68); EData 0 [19; 66] Refuses] (newListener nat) = Ok s /\
  lOut nat s = [OHanded 1 false hash1 hello; OUsed 1 68; OUsed 0 0] /\ calls 1 (lStreams nat s) = Some ByOwner /\ ListenerModel.find nat 0 (lPending nat s) = Some None /\
  ListenerModel.find nat 1 (lPending nat s) = None.
Proof. eexists. split; [vm_compute; reflexivity|]. vm_compute. repeat split. Qed.
Example C101_meets_split : exists s, toyRun [EStart true; ETcp true; EData 0 [19; 66] Refuses; EData 0 hello (Takes 68)] (newListener nat) = Ok s /\
  lOut nat s = [OUsed 0 0; OHanded 0 false hash1 hello; OUsed 0 68] /\ toyRun [EStart true; ETcp true; EData 0 (firstn 20 hello) (Takes 68)] (newListener nat) = UB.
Proof. eexists. split; [vm_compute; reflexivity|]. vm_compute. repeat split. Qed.
Example C101_meets_encrypted : exists s, toyRun [EStart false; EUtp; EUtp; EData 0 (noise 1) Refuses; EData 1 (noise 0) Refuses; EClosed 1; EData 0 (noise 9) (Takes 1)] (newListener nat) = Ok s /\
  lOut nat s = [OWrote 0 [1; 2]; OUsed 0 96; OClose 1; OUsed 1 96; OWrote 0 [4]; OHanded 0 true hash1 [3]; OUsed 0 96] /\ lPending nat s = [] /\ lStreams nat s = [(0%nat, ByOwner)].
Proof. eexists. split; [vm_compute; reflexivity|]. vm_compute. repeat split. Qed.
Example C101_meets_stop : exists s, toyRun [EStart true; ETcp true; EUtp; EData 0 (noise 1) Refuses; EStop; ETcp true; EData 0 hello (Takes 68)] (newListener nat) = Ok s /\
  lOut nat s = [OWrote 0 [1; 2]; OUsed 0 96; OClose 1; OClose 0] /\ lNext nat s = 2%nat.
Proof. eexists. split; [vm_compute; reflexivity|]. vm_compute. repeat split. Qed.
Example C101_meets_off : exists s, toyRun [EStart true; ETcp false; EData 0 hello (Takes 68)] (newListener nat) = Ok s /\ lOut nat s = [OClose 0] /\ lTcp nat s = true.
Proof. eexists. split; [vm_compute; reflexivity|]. vm_compute. repeat split. Qed.
