From Verif Require Import Base BaseLemmas PacketModel PacketSpec PacketProofs PeerMsgModel PeerMsgSpec PeerMsgProofs
  PeerStateModel PeerStateSpec.

Definition event_of (h : happening) : commEvent :=
  match h with
  | Opened => EvOpened
  | Incoming => EvIncoming
  | FromPeer m => EvMessage (understood m)
  | WeInterested b => EvSetInterested b
  | WeChoke b => EvSetChoke b
  | Closed => EvClose
  end.

Lemma step_peer e s h :
  peerChoking (fst (commStep e s (event_of h))) = choking_from (peerChoking s) (from_peer [h]) /\
  peerInterested (fst (commStep e s (event_of h))) =
    match h with FromPeer Interested => false | FromPeer NotInterested => true | _ => peerInterested s end.
Proof.
  destruct h as [| |m|b|b|]; try (split; reflexivity).
  - destruct m as [| | | | |i|bf|i b l|i b d|i b l|po|x d|r hh p]; try (split; reflexivity);
      cbn [event_of commStep from_peer choking_from]; unfold handleMessage; cbn [understood mid mfields].
    + change (idExtended =? idBitfield) with false. change (idExtended =? idHave) with false.
      change (idExtended =? idUnchoke) with false. change (idExtended =? idChoke) with false.
      change (idExtended =? idNotInterested) with false. change (idExtended =? idInterested) with false.
      change (idExtended =? idExtended) with true. cbv iota.
      destruct x; try (split; reflexivity). destruct (ext s); split; reflexivity.
    + change (idHandshake =? idBitfield) with false. change (idHandshake =? idHave) with false.
      change (idHandshake =? idUnchoke) with false. change (idHandshake =? idChoke) with false.
      change (idHandshake =? idNotInterested) with false. change (idHandshake =? idInterested) with false.
      change (idHandshake =? idExtended) with false. change (idHandshake =? idHandshake) with true. cbv iota.
      destruct (act s) eqn:A; try (split; reflexivity);
      cbn [setAction PeerStateModel.ext sendHandshake]; destruct (supportsExtensions r), (ext s); split; reflexivity.
  - unfold event_of, commStep, setInterested. destruct (isEstablished s); cbn [negb]; [|split; reflexivity].
    destruct (Bool.eqb (amInterested s) b); split; reflexivity.
  - unfold event_of, commStep, setChoke. destruct (isEstablished s); cbn [negb]; [|split; reflexivity].
    destruct (Bool.eqb (amChoking s) b); split; reflexivity.
Qed.

Lemma choking_from_app c a b : choking_from c (a ++ b) = choking_from (choking_from c a) b.
Proof. revert c. induction a as [|m a IH]; intros c; [reflexivity|]. destruct m; cbn [app choking_from]; apply IH. Qed.
Lemma interested_from_app c a b : interested_from c (a ++ b) = interested_from (interested_from c a) b.
Proof. revert c. induction a as [|m a IH]; intros c; [reflexivity|]. destruct m; cbn [app interested_from]; apply IH. Qed.

Lemma commRun_cons e s ev evs : fst (commRun e s (ev :: evs)) = fst (commRun e (fst (commStep e s ev)) evs)
  /\ snd (commRun e s (ev :: evs)) = snd (commStep e s ev) ++ snd (commRun e (fst (commStep e s ev)) evs).
Proof. cbn [commRun]. destruct (commStep e s ev) as [s1 w1]. cbn [fst snd]. destruct (commRun e s1 evs). auto. Qed.

Lemma run_choking e hs : forall s,
  peerChoking (fst (commRun e s (map event_of hs))) = choking_from (peerChoking s) (from_peer hs).
Proof.
  induction hs as [|h hs IH]; intros s; [reflexivity|]. cbn [map]. rewrite (proj1 (commRun_cons _ _ _ _)), IH.
  rewrite (proj1 (step_peer e s h)).
  destruct h as [| |m|b|b|]; cbn [from_peer choking_from]; try reflexivity. destruct m; reflexivity.
Qed.

(** The last interest message of the peer, if any. *)
Fixpoint last_interest (l : option bool) (ms : list message) : option bool :=
  match ms with
  | [] => l
  | Interested :: ms' => last_interest (Some true) ms'
  | NotInterested :: ms' => last_interest (Some false) ms'
  | _ :: ms' => last_interest l ms'
  end.

Definition inverted (l : option bool) : bool := match l with None => false | Some b => negb b end.

Lemma run_interested e hs : forall s l, peerInterested s = inverted l ->
  peerInterested (fst (commRun e s (map event_of hs))) = inverted (last_interest l (from_peer hs)).
Proof.
  induction hs as [|h hs IH]; intros s l E; [exact E|]. cbn [map]. rewrite (proj1 (commRun_cons _ _ _ _)).
  pose proof (proj2 (step_peer e s h)) as S.
  destruct h as [| |m|b|b|]; cbn [from_peer last_interest]; try (apply IH; rewrite S; exact E).
  destruct m; cbn [last_interest]; apply IH; rewrite S; first [exact E|reflexivity].
Qed.

(** ** What we tell the peer *)

Definition env_ok (e : commEnv) : Prop :=
  bytes_ok (ourHash e) /\ bytes_ok (ourId e) /\ length (ourHash e) = 20%nat /\ length (ourId e) = 20%nat /\
  bytes_ok (extPayload e) /\ zlen (extPayload e) < 65530 /\ extPayload e <> [] /\ 0 <= udpPort e < 65536.

Definition told (w : list (list Z)) (ms : list message) : Prop :=
  w = map encode ms /\ Forall message_ok ms.

Lemma told_app a b ma mb : told a ma -> told b mb -> told (a ++ b) (ma ++ mb).
Proof. intros [-> A] [-> B]. split; [now rewrite map_app|]. apply Forall_app; auto. Qed.

Lemma told_nil : told [] []. Proof. split; [reflexivity|constructor]. Qed.

Definition neutral (ms : list message) : Prop := forall c i,
  choking_from c ms = c /\ interested_from i ms = i.

Lemma handshake_told e : env_ok e -> exists ms, told [createHandshake (dhtEnabled e) (ourHash e) (ourId e)] ms /\ neutral ms.
Proof.
  intros (A & B & C & D & _). rewrite create_handshake by assumption.
  eexists [_]. split; [split; [reflexivity|]|intros; split; reflexivity].
  constructor; [|constructor]. split.
  - cbn [fields_ok]. repeat split; auto. repeat (constructor; [unfold is_byte; try destruct (dhtEnabled e); lia|]). constructor.
  - unfold small. cbn [encode]. rewrite zlen_cons, !zlen_app. unfold zlen. rewrite C, D. reflexivity.
Qed.

Lemma ext_told e : env_ok e -> exists ms, told [createExtended 0 (extPayload e)] ms /\ neutral ms.
Proof.
  intros (A & B & C & D & E & F & G & _). rewrite create_extended by (unfold is_byte; lia).
  eexists [_]. split; [split; [reflexivity|]|intros; split; reflexivity].
  constructor; [|constructor]. split.
  - cbn [fields_ok]. repeat split; auto; lia.
  - unfold small. cbn [encode]. unfold framed. rewrite zlen_app, zlen_be, !zlen_cons. lia.
Qed.

Lemma port_told e : env_ok e -> exists ms, told [createPort (udpPort e)] ms /\ neutral ms.
Proof.
  intros H. rewrite create_port. eexists [_]. split; [split; [reflexivity|]|intros; split; reflexivity].
  constructor; [|constructor]. split; [apply H|]. unfold small. cbn [encode]. unfold framed.
  rewrite zlen_app, zlen_be, !zlen_cons, zlen_be. lia.
Qed.

Definition tells (s s' : peerState) (w : list (list Z)) : Prop :=
  exists ms, told w ms /\ amChoking s' = choking_from (amChoking s) ms /\ amInterested s' = interested_from (amInterested s) ms.

Lemma neutral_app a b : neutral a -> neutral b -> neutral (a ++ b).
Proof. intros A B c i. rewrite choking_from_app, interested_from_app. rewrite (proj1 (A c i)), (proj2 (A c i)). apply B. Qed.
Lemma neutral_nil : neutral []. Proof. intros c i; split; reflexivity. Qed.

Lemma tells_neutral s s' w ms : told w ms -> neutral ms -> amChoking s' = amChoking s -> amInterested s' = amInterested s ->
  tells s s' w.
Proof.
  intros T N A B. exists ms. rewrite A, B. destruct (N (amChoking s) (amInterested s)) as [-> ->]. auto.
Qed.

Lemma state_told m id : message_ok m -> encode m = createStateMessage id -> told [createStateMessage id] [m].
Proof. intros H <-. split; [reflexivity|constructor; [assumption|constructor]]. Qed.

Lemma handle_tells e s p : env_ok e -> tells s (fst (handleMessage e s p)) (snd (handleMessage e s p)).
Proof.
  intros He. destruct (handshake_told e He) as (h & Th & Nh). destruct (ext_told e He) as (x & Tx & Nx).
  destruct (port_told e He) as (po & Tp & Np).
  assert (Q : forall s', amChoking s' = amChoking s -> amInterested s' = amInterested s -> tells s s' []).
  { intros. eapply tells_neutral; eauto using told_nil, neutral_nil. }
  unfold handleMessage.
  repeat match goal with |- context [if mid p =? ?b then _ else _] => destruct (mid p =? b) end;
    try (apply Q; reflexivity).
  - destruct (mfields p) as [| | | | | |n d|]; try (apply Q; reflexivity).
    destruct n; try (apply Q; reflexivity).
    destruct (PeerStateModel.ext s); cbn [sendExtendedHandshake fst snd];
      try (apply Q; reflexivity). eapply tells_neutral; eauto.
  - destruct (act s); try (apply Q; reflexivity); cbn [sendHandshake].
    + destruct (mfields p); cbn [fst snd]; try (eapply tells_neutral; eauto; fail).
      destruct (supportsExtensions _); cbn [PeerStateModel.ext setAction];
      [destruct (PeerStateModel.ext s)|]; cbn [sendExtendedHandshake fst snd];
      destruct (supportsDht _ && _);
      (eapply tells_neutral; [| |reflexivity|reflexivity];
        [repeat (apply told_app; eauto using told_nil)|repeat (apply neutral_app; eauto using neutral_nil)]);
      eauto using told_nil, neutral_nil.
    + destruct (mfields p); cbn [fst snd]; try (apply Q; reflexivity).
      destruct (supportsExtensions _); cbn [PeerStateModel.ext setAction];
      [destruct (PeerStateModel.ext s)|]; cbn [sendExtendedHandshake fst snd];
      destruct (supportsDht _ && _);
      (eapply tells_neutral; [| |reflexivity|reflexivity];
        [repeat (apply told_app; eauto using told_nil)|repeat (apply neutral_app; eauto using neutral_nil)]);
      eauto using told_nil, neutral_nil.
Qed.

Lemma step_tells e s h : env_ok e -> tells s (fst (commStep e s (event_of h))) (snd (commStep e s (event_of h))).
Proof.
  intros He.
  assert (Q : forall s', amChoking s' = amChoking s -> amInterested s' = amInterested s -> tells s s' []).
  { intros. eapply tells_neutral; eauto using told_nil, neutral_nil. }
  destruct h as [| |m|b|b|]; cbn [event_of commStep].
  - destruct (handshake_told e He) as (h & Th & Nh). cbn [sendHandshake fst snd]. eapply tells_neutral; eauto.
  - apply Q; reflexivity.
  - now apply handle_tells.
  - unfold setInterested. destruct (isEstablished s); cbn [negb]; [|apply Q; reflexivity].
    destruct (Bool.eqb_spec (amInterested s) b) as [E|E]; [apply Q; reflexivity|]. cbn [fst snd].
    exists [if b then Interested else NotInterested]. split; [|split].
    + apply state_told; [destruct b; split; [exact I|reflexivity|exact I|reflexivity]|].
      destruct b; reflexivity.
    + destruct b; reflexivity.
    + destruct b; reflexivity.
  - unfold setChoke. destruct (isEstablished s); cbn [negb]; [|apply Q; reflexivity].
    destruct (Bool.eqb_spec (amChoking s) b) as [E|E]; [apply Q; reflexivity|]. cbn [fst snd].
    exists [if b then Choke else Unchoke]. split; [|split].
    + apply state_told; [destruct b; split; [exact I|reflexivity|exact I|reflexivity]|].
      destruct b; reflexivity.
    + destruct b; reflexivity.
    + destruct b; reflexivity.
  - apply Q; reflexivity.
Qed.

Lemma tells_trans s1 s2 s3 a b : tells s1 s2 a -> tells s2 s3 b -> tells s1 s3 (a ++ b).
Proof.
  intros (ma & Ta & A1 & A2) (mb & Tb & B1 & B2). exists (ma ++ mb). split; [now apply told_app|].
  rewrite choking_from_app, interested_from_app, B1, B2, A1, A2. auto.
Qed.

Lemma run_tells e hs : env_ok e -> forall s, tells s (fst (commRun e s (map event_of hs))) (snd (commRun e s (map event_of hs))).
Proof.
  intros He. induction hs as [|h hs IH]; intros s.
  - eapply tells_neutral; eauto using told_nil, neutral_nil.
  - cbn [map]. rewrite (proj1 (commRun_cons _ _ _ _)), (proj2 (commRun_cons _ _ _ _)).
    eapply tells_trans; [apply step_tells; assumption|apply IH].
Qed.

Lemma tells_peer e hs s c : env_ok e -> amChoking s = true -> amInterested s = false ->
  commRun e s (map event_of hs) = c ->
  exists ms, snd c = map encode ms /\ Forall message_ok ms /\
    amChoking (fst c) = choking ms /\ amInterested (fst c) = interested ms.
Proof.
  intros He C I <-. destruct (run_tells e hs He s) as (ms & [T1 T2] & A & B). exists ms.
  rewrite C in A. rewrite I in B. auto.
Qed.

Lemma last_interest_some ms : forall b, last_interest (Some b) ms = Some (interested_from b ms).
Proof. induction ms as [|m ms IH]; intros b; [reflexivity|]. destruct m; cbn [last_interest interested_from]; apply IH. Qed.

Lemma last_interest_from ms : forall i l, last_interest None ms = Some l -> interested_from i ms = l.
Proof.
  induction ms as [|m ms IH]; intros i l E; [discriminate E|].
  destruct m; cbn [last_interest interested_from] in *; try (apply IH; exact E);
    rewrite last_interest_some in E; congruence.
Qed.

Lemma interest_inverted e hs l : last_interest None (from_peer hs) = Some l ->
  interested (from_peer hs) = l /\
  peerInterested (fst (commRun e freshPeerState (map event_of hs))) = negb l.
Proof.
  intros E. split.
  - now apply last_interest_from.
  - rewrite (run_interested e hs freshPeerState None eq_refl), E. reflexivity.
Qed.

Lemma env_ok_example :
  env_ok {| dhtEnabled := true; ourHash := repeat 1 20; ourId := repeat 2 20; udpPort := 6881; extPayload := [100;101] |}.
Proof.
  unfold env_ok. cbn [ourHash ourId extPayload udpPort].
  repeat split; try lia; try discriminate; try reflexivity; repeat constructor; lia.
Qed.
