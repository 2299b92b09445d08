(** C95: the stream to a peer. *)
From Verif Require Import Base BaseLemmas PeerStreamModel PeerStreamSpec PeerStreamProofs.

Lemma start_inv c hp : let s := open c (newStream hp) in IT 0 s /\ IS [] s /\ IC s /\ IR s /\ IQ s /\ remote s = false.
Proof.
  assert (H : open c (newStream hp) = openStream Utp (newStream hp) \/ open c (newStream hp) = openStream Tcp (newStream hp) \/ open c (newStream hp) = withFlags false false false false false false true (newStream hp)).
  { unfold open. destruct (utpOut c && _); auto. destruct (tcpOut c && _); auto. }
  cbv zeta. destruct H as [H|[H|H]]; rewrite H.
  1,2: (split; [exists 0; cbn; repeat split; auto; discriminate|]; split; [split; [left; cbn; auto|split; [cbn; intuition discriminate|split; [reflexivity|split; [discriminate|discriminate]]]]|];
    split; [split; reflexivity|]; split; [split; [reflexivity|split; [reflexivity|split; [reflexivity|split; [cbn; intuition discriminate|intros [|]; cbn; lia]]]]|];
    split; [|reflexivity]; split; [reflexivity|]; split; [cbn; intuition discriminate|]; split; [discriminate|]; split; [cbn; congruence|]; split; [discriminate|]; split; [cbn; lia|cbn; intuition discriminate]).
  split; [exists 0; cbn; repeat split; auto; discriminate|]. split; [split; [left; cbn; auto|split; [cbn; intuition discriminate|split; [reflexivity|split; [discriminate|cbn; auto]]]]|].
  split; [split; reflexivity|]. split; [split; [reflexivity|split; [reflexivity|split; [reflexivity|split; [cbn; intuition discriminate|intros [|]; cbn; lia]]]]|].
  split; [|reflexivity]. split; [reflexivity|]. split; [cbn; intuition discriminate|]. split; [discriminate|]. split; [cbn; congruence|]. split; [discriminate|]. split; [cbn; lia|cbn; intuition discriminate].
Qed.

Lemma history_inv c hp es s : history (open c (newStream hp)) es s -> IT 0 s /\ IS es s /\ IC s /\ remote s = false.
Proof.
  induction 1 as [|es s e H (A & B & C & D) P]; [destruct (start_inv c hp) as (A & B & C & _ & _ & D); auto|].
  destruct (IS_step es s e D A B P) as [B' D']. split; [now apply IT_step|]. split; [assumption|]. split; [now apply IC_step|assumption].
Qed.

(** The owner is told that the connection is open at most once, before it is given data, and of the end at most once, with nothing after it: for
    connections that go out and for those that came in. *)
Theorem C95_told : forall es s, (forall c hp, history (open c (newStream hp)) es s -> exists q, told 0 (log s) = Some q) /\
  (forall k e, history (fromStream k e) es s -> exists q, told 1 (log s) = Some q).
Proof.
  intros es s. split; intros c hp H.
  - destruct (history_inv _ _ _ _ H) as ((q & A & _) & _). eauto.
  - enough (IT 1 s) as (q & A & _) by eauto. induction H as [|es s e H IH P]; [|now apply IT_step].
    exists 1. destruct c; cbn; repeat split; auto; discriminate.
Qed.
Print Assumptions C95_told.

(** What is sent of the owner's data is what it wrote, in order; only the first message may be sent a second time. *)
Theorem C95_sent : forall c hp es s, history (open c (newStream hp)) es s ->
  sent (log s) = asked es \/ exists d r, asked es = d :: r /\ sent (log s) = d :: d :: r.
Proof. intros c hp es s H. destruct (history_inv _ _ _ _ H) as (_ & ([[A _]|[_ A]] & _) & _); auto. Qed.
Print Assumptions C95_sent.

(** Until a connection was open, TCP and uTP are each tried at most once. Missing: afterwards ([C95_again_and_again_refuted]). *)
Theorem C95_tries_partial : forall c hp es s k, history (open c (newStream hp)) es s -> connected s = false -> (connects k (log s) <= 1)%nat.
Proof. intros c hp es s k H CO. destruct (history_inv _ _ _ _ H) as (_ & _ & IC0 & _). destruct (IC0 CO) as [A B]. destruct k; [rewrite A; destruct (tcpTried s)|rewrite B; destruct (utpTried s)]; lia. Qed.
Print Assumptions C95_tries_partial.

(** Under the setting Refuse nothing of an encryption handshake is sent, nothing is encrypted and no connection is made a second time. *)
Theorem C95_refuse : forall c hp es s, history (open c (newStream hp)) es s -> Forall (with_enc Refuse) es ->
  (forall e p, In (OSend e p) (log s) -> e = false /\ exists d, p = PData d) /\ forall k, (connects k (log s) <= 1)%nat.
Proof.
  intros c hp es s H F. enough (IR s) as (_ & _ & _ & A & B) by auto. induction H as [|es s e H IH P]; [apply (start_inv c hp)|].
  apply Forall_app in F. destruct F as [F1 F2]. inversion F2; subst. destruct (history_inv _ _ _ _ H) as (A & _ & C & D). apply IR_step; auto.
Qed.
Print Assumptions C95_refuse.

(** Under the setting Require no data of the owner goes out unencrypted. Missing: a peer that chooses plain text in the encryption handshake
    ([C95_plain_text_refuted]), and connections that came in, which this class does not check. *)
Theorem C95_require_partial : forall c hp es s, history (open c (newStream hp)) es s -> Forall (with_enc Require) es -> Forall not_plain es ->
  forall d, ~ In (OSend false (PData d)) (log s).
Proof.
  intros c hp es s H F NP. enough (IQ s) as (_ & _ & _ & _ & _ & _ & A) by auto. induction H as [|es s e H IH P]; [apply (start_inv c hp)|].
  apply Forall_app in F. destruct F as [F1 F2]. inversion F2; subst. apply Forall_app in NP. destruct NP as [N1 N2]. inversion N2; subst.
  destruct (history_inv _ _ _ _ H) as (A & B & C & D). eapply IQ_step; eauto.
Qed.
Print Assumptions C95_require_partial.

(** After the owner closed the stream no connection is begun, and the end of the one there is, is told. *)
Theorem C95_closed : forall s, manual s = true ->
  (forall es s', history s es s' -> manual s' = true /\ forall k, connects k (log s') = connects k (log s)) /\
  (forall c code, In (CClosed code) (log (step (EClosed c code) s))).
Proof.
  intros s M. split.
  - induction 1 as [|es s1 e H [IH1 IH2] P]; [auto|]. enough (G : manual (step e s1) = true /\ forall k, connects k (log (step e s1)) = connects k (log s1)) by (destruct G as [G1 G2]; split; [assumption|intros; rewrite G2; apply IH2]).
    destruct e as [c d| |c|c code|n r|]; cbn [step].
    + destruct (write_frame c d s1) as (_ & _ & _ & A & B). rewrite A. auto.
    + unfold close, closeStream. pj. destruct (cur s1); pj; split; auto. intros. now rewrite connects_say.
    + destruct (opened_frame c s1) as (_ & A & B). rewrite A. auto.
    + destruct (closed_cases c code s1) as [(k & R & M0 & _)|[(R & M0 & _)|(i & I & E)]]; try congruence. rewrite E. pj. split; [assumption|]. intros. now rewrite connects_say.
    + destruct (data_frame n r s1) as (_ & _ & _ & A & B). rewrite A. auto.
    + pj. split; [assumption|]. intros. now rewrite connects_say.
  - intros c code. cbn [step]. destruct (closed_cases c code s) as [(k & R & M0 & _)|[(R & M0 & _)|(i & I & E)]]; try congruence. rewrite E. pj. apply in_snoc. now right.
Qed.
Print Assumptions C95_closed.

(** A message without answer is sent again in the other way, over one more connection of the same kind: encrypted after a connection which brought
    nothing, plain after an encryption handshake which did not end. *)
Theorem C95_other_way : forall c hp es s c1 c2 code k d, history (open c (newStream hp)) es s -> cur s = Some k -> ph s = POpen -> manual s = false -> initial s = d -> d <> [] ->
  (hs s = HNone -> received s = 0 -> enc c1 <> Refuse -> exists b, log (step (EOpened c2) (step (EClosed c1 code) s)) = log s ++ [OConnect k; OSend b (PStart d)]) /\
  (hs s = HOpen -> enc c1 <> Require -> exists b, log (step (EOpened c2) (step (EClosed c1 code) s)) = log s ++ [OConnect k; OSend b (PData d)]).
Proof.
  intros c hp es s c1 c2 code k d H CK PH M I D. destruct (history_inv _ _ _ _ H) as (A & B & C & R). destruct A as (q & T & F1 & F2 & A). rewrite PH in A. destruct A as (_ & _ & -> & CO). specialize (CO R).
  assert (FW : firstWrite s = false) by (destruct (firstWrite s); [rewrite (F2 R eq_refl) in I; congruence|reflexivity]).
  assert (G : keptMessage c1 s = d -> step (EClosed c1 code) s = reconnectStream (withHs (hs s) (pe s) (keptMessage c1 s) (firstWrite s) (withCur (cur s) PClosed (received s) s))).
  { intros KD. cbn [step]. destruct (closed_cases c1 code s) as [(k0 & _ & _ & X & _)|[(_ & _ & _ & K & E)|(i & J & E)]]; [congruence|exact E|]. exfalso.
    unfold connectionClosed in E. pj. rewrite R, M, CO in E. cbn [negb andb] in E. unfold keptMessage in *. pj. rewrite KD in E. destruct d as [|x d]; [congruence|]. cbv zeta in E. cbn beta iota in E.
    apply (f_equal ph) in E. pj. rewrite CK in E. pj. discriminate. }
  set (s2 := reconnectStream (withHs (hs s) (pe s) (keptMessage c1 s) (firstWrite s) (withCur (cur s) PClosed (received s) s))) in *.
  assert (G2 : keptMessage c1 s = d -> cur s2 = Some k /\ remote s2 = false /\ reconnect s2 = true /\ firstWrite s2 = false /\ hs s2 = hs s /\ initial s2 = d /\ log s2 = log s ++ [OConnect k]).
  { intros KD. unfold s2. pj. rewrite CK. pj. rewrite KD. repeat split; auto. }
  clearbody s2. split; [intros HN R0 EN|intros HN EN].
  - assert (KD : keptMessage c1 s = d) by (unfold keptMessage; rewrite HN, R0; destruct (enc c1); cbn; congruence). rewrite (G KD). destruct (G2 KD) as (Q1 & Q2 & Q3 & Q4 & Q5 & Q6 & Q7).
    cbn [step]. destruct (opened_cases c2 s2 ltac:(congruence) Q2 (fun _ => Q4)) as [(X & E)|[(X & N & E)|(X & N & E)]]; try congruence. rewrite E. pj. exists (pe s2). rewrite Q7, Q6, <- app_assoc. reflexivity.
  - assert (KD : keptMessage c1 s = d) by (unfold keptMessage; rewrite HN; destruct (enc c1); congruence). rewrite (G KD). destruct (G2 KD) as (Q1 & Q2 & Q3 & Q4 & Q5 & Q6 & Q7).
    cbn [step]. destruct (opened_cases c2 s2 ltac:(congruence) Q2 (fun _ => Q4)) as [(X & E)|[(X & N & E)|(X & N & E)]]; try congruence. rewrite E. pj. exists (pe s2). rewrite Q7, Q6, <- app_assoc. reflexivity.
Qed.
Print Assumptions C95_other_way.

(** Finding: when the second connection does not open, a third is begun, and so on without end; the owner is not told. *)
Theorem C95_again_and_again_refuted : forall c d code n, tcpOut c = true -> preferUtp c = false -> enc c = Allow -> d <> [] ->
  exists es s, history (open c (newStream false)) es s /\ es = [EOpened c; EWrite c d; EClosed c code] ++ repeat (EClosed c code) n /\
    connects Tcp (log s) = (n + 2)%nat /\ told 0 (log s) = Some 1.
Proof.
  intros c d code n TO PU EN D. pose (s1 := open c (newStream false)).
  assert (H3 : exists s, history s1 [EOpened c; EWrite c d; EClosed c code] s /\ connects Tcp (log s) = 2%nat /\ told 0 (log s) = Some 1 /\
    cur s = Some Tcp /\ ph s = PConnecting /\ received s = 0 /\ hs s = HNone /\ initial s = d /\ manual s = false /\ remote s = false /\ connected s = true /\ reconnect s = true).
  { unfold s1. clear s1. destruct c as [t u p e]. cbn [tcpOut preferUtp enc] in *. subst t p e. destruct d as [|x d]; [congruence|]. clear D.
    destruct u; (eexists; split; [change [?a; ?b; ?c] with ((([] ++ [a]) ++ [b]) ++ [c]); apply h_step; [apply h_step; [apply h_step; [apply h_start|vm_compute; reflexivity]|right; left; vm_compute; auto 10]|right; vm_compute; reflexivity]
     |vm_compute; repeat split]). }
  assert (G : exists s, history s1 ([EOpened c; EWrite c d; EClosed c code] ++ repeat (EClosed c code) n) s /\ connects Tcp (log s) = (n + 2)%nat /\ told 0 (log s) = Some 1 /\
    cur s = Some Tcp /\ ph s = PConnecting /\ received s = 0 /\ hs s = HNone /\ initial s = d /\ manual s = false /\ remote s = false /\ connected s = true /\ reconnect s = true).
  { induction n as [|n IH]; [exact H3|]. destruct IH as (s & A1 & A2 & A3 & A4 & A5 & A6 & A7 & A8 & A9 & A10 & A11 & A12). exists (step (EClosed c code) s).
    assert (RS : forall (x : event) m, repeat x (S m) = repeat x m ++ [x]) by (intros x m; induction m; [reflexivity|]; cbn [repeat app] in *; f_equal; exact IHm).
    rewrite RS, app_assoc. split; [apply h_step; [exact A1|left; exact A5]|].
    assert (KD : keptMessage c s = d) by (unfold keptMessage; rewrite A7, A6, EN; exact A8).
    assert (E : step (EClosed c code) s = reconnectStream (withHs (hs s) (pe s) d (firstWrite s) (withCur (cur s) PClosed (received s) s))).
    { cbn [step]. unfold connectionClosed. pj. rewrite A9, A10, A11. cbn [negb andb]. unfold keptMessage in *. pj. rewrite KD. destruct d; [congruence|reflexivity]. }
    rewrite E. pj. rewrite A4. pj. rewrite connects_app, told_app, A2, A3. cbn [kind_eqb told]. repeat split; auto. lia. }
  destruct G as (s & G1 & G2 & G3 & _). do 2 eexists. split; [exact G1|]. auto.
Qed.
Print Assumptions C95_again_and_again_refuted.

(** Finding: under Require the peer may choose plain text in the handshake, and everything after it goes out unencrypted. *)
Theorem C95_plain_text_refuted : forall c d d', tcpOut c = true -> preferUtp c = false -> enc c = Require ->
  exists s, history (open c (newStream false)) [EOpened c; EWrite c d; EData 96 (HMore true); EData 80 (HDone true true); EWrite c d'] s /\ In (OSend false (PData d')) (log s).
Proof.
  intros c d d' TO PU EN. destruct c as [t u p e]. cbn [tcpOut preferUtp enc] in *. subst t p e.
  destruct u; (eexists; split; [change [?a; ?b; ?c; ?d; ?e] with ((((([] ++ [a]) ++ [b]) ++ [c]) ++ [d]) ++ [e]);
    apply h_step; [apply h_step; [apply h_step; [apply h_step; [apply h_step; [apply h_start|vm_compute; reflexivity]|right; left; vm_compute; auto 10]|vm_compute; repeat split; auto; discriminate]
      |vm_compute; repeat split; auto; discriminate]|left; vm_compute; auto 10]|vm_compute; auto 10]).
Qed.
Print Assumptions C95_plain_text_refuted.

Definition someSettings (e : encryption) : settings := {| tcpOut := true; utpOut := true; preferUtp := true; enc := e |}.

(** uTP fails, TCP opens, the plain handshake is not answered, the encrypted one is; data goes out encrypted; the owner closes. *)
Example C95_meets : let c := someSettings Allow in exists s, history (open c (newStream false))
  ((((((((((([] ++ [EClosed c 1]) ++ [EOpened c]) ++ [EWrite c [7]]) ++ [EClosed c 2]) ++ [EOpened c]) ++ [EData 96 (HMore true)]) ++ [EData 80 (HDone false true)]) ++ [EWrite c [8]]) ++ [EData 5 HFail]) ++ [EClose]) ++ [EClosed c 0]) s /\
  log s = [OConnect Utp; OConnect Tcp; COpened; OSend false (PData [7]); OConnect Tcp; OSend false (PStart [7]); OSend false PReply; CData; OSend true (PData [8]); CData; OShut; CClosed 0].
Proof.
  cbv zeta. eexists. split.
  - repeat (eapply h_step); [apply h_start|left; reflexivity|reflexivity|right; left; vm_compute; auto 10|right; reflexivity|reflexivity|vm_compute; repeat split; auto; discriminate| | |vm_compute; repeat split; auto; discriminate|exact I|right; reflexivity].
    + vm_compute. repeat split; auto; discriminate.
    + left. vm_compute. auto 10.
  - reflexivity.
Qed.

(** Under Refuse and under Require. *)
Example C95_meets_settings : (exists s, history (open (someSettings Refuse) (newStream false)) (([] ++ [EOpened (someSettings Refuse)]) ++ [EWrite (someSettings Refuse) [7]]) s /\ log s = [OConnect Utp; COpened; OSend false (PData [7])]) /\
  (exists s, history (open (someSettings Require) (newStream false)) (((([] ++ [EOpened (someSettings Require)]) ++ [EWrite (someSettings Require) [7]]) ++ [EData 80 (HDone false true)]) ++ [EWrite (someSettings Require) [8]]) s /\
    log s = [OConnect Utp; COpened; OSend false (PStart [7]); CData; OSend true (PData [8])]).
Proof.
  split.
  - eexists. split; [repeat (eapply h_step); [apply h_start|reflexivity|right; left; vm_compute; auto 10]|reflexivity].
  - eexists. split; [repeat (eapply h_step); [apply h_start|reflexivity|right; left; vm_compute; auto 10|vm_compute; repeat split; auto; discriminate|left; vm_compute; auto 10]|reflexivity].
Qed.
