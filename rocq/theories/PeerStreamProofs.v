(** Proofs about the stream to a peer. *)
From Verif Require Import Base BaseLemmas PeerStreamModel PeerStreamSpec.

Lemma told_app l : forall q e, told q (l ++ [e]) = match told q l with Some q' => told q' [e] | None => None end.
Proof.
  induction l as [|x l IH]; intros q e; [reflexivity|]. cbn [app told]. destruct x; try apply IH; [destruct (q =? 0)|destruct (q =? 1)|destruct (q =? 2)]; try apply IH; reflexivity.
Qed.

Lemma asked_app es e : asked (es ++ [e]) = asked es ++ match e with EWrite _ d => [d] | _ => [] end.
Proof. induction es as [|x es IH]; [destruct e; reflexivity|]. cbn [app asked]. destruct x; cbn [app]; rewrite IH; reflexivity. Qed.

Lemma sent_app l e : sent (l ++ [e]) = sent l ++ sent [e].
Proof. induction l as [|x l IH]; [reflexivity|]. cbn [app sent]. destruct x as [| ? [| |]| | | |]; cbn [app]; rewrite IH; reflexivity. Qed.

Lemma connects_app k l e : connects k (l ++ [e]) = (connects k l + match e with OConnect k' => if kind_eqb k k' then 1 else 0 | _ => 0 end)%nat.
Proof. unfold connects. rewrite filter_app, app_length. cbn [filter]. destruct e; try reflexivity. destruct (kind_eqb k k0); reflexivity. Qed.

Ltac pj := cbn [cur ph received hs pe initial manual connected remote tcpTried utpTried reconnect firstWrite holepunch posted log say withCur withHs withFlags openStream reconnectStream tellClosed] in *.

(* --- the cases of each step --- *)

Lemma write_cases c d s : cur s <> None -> exists p h i f, write c d s = say (OSend (pe s) p) (withHs h (pe s) i f s) /\
  ((remote s = false /\ firstWrite s = true /\ hs s = HNone /\ i = d /\ f = false /\ ((enc c = Require /\ p = PStart d /\ h = HOpen) \/ (enc c <> Require /\ p = PData d /\ h = HNone))) \/
   ((remote s = true \/ firstWrite s = false \/ hs s <> HNone) /\ p = PData d /\ h = hs s /\ i = initial s /\ f = (remote s && firstWrite s))).
Proof.
  intros C. unfold write, startEncryption, writeOn, send. destruct s as [cu p0 rc h0 pe0 i0 m0 c0 re t0 u0 r0 fw hp po lg]. pj. destruct cu as [k|]; [|congruence].
  destruct re, fw, h0; cbn [negb andb]; try (do 4 eexists; split; [reflexivity|right; repeat split; auto; right; right; discriminate]).
  destruct (enc c); do 4 eexists; (split; [reflexivity|left]); repeat split; auto; right; repeat split; discriminate.
Qed.

Lemma opened_cases c s : cur s <> None -> remote s = false -> (reconnect s = true -> firstWrite s = false) ->
  let s1 := withFlags (manual s) true (remote s) (tcpTried s) (utpTried s) (reconnect s) (posted s) (withCur (cur s) POpen (received s) s) in
  (reconnect s = false /\ connectionOpened c s = say COpened s1) \/
  (reconnect s = true /\ hs s = HNone /\ connectionOpened c s = say (OSend (pe s) (PStart (initial s))) (withHs HOpen (pe s) [] false s1)) \/
  (reconnect s = true /\ hs s <> HNone /\ connectionOpened c s = say (OSend (pe s) (PData (initial s))) (withHs HNone (pe s) [] false s1)).
Proof.
  intros C R F. unfold connectionOpened, sendRetry, write, startEncryption, writeOn, send. destruct s as [cu p0 rc h0 pe0 i0 m0 c0 re t0 u0 r0 fw hp po lg]. pj. subst re. destruct cu as [k|]; [|congruence].
  destruct r0; [|now left]. rewrite (F eq_refl). right. destruct h0; cbn [negb andb]; [left|right|right]; repeat split; auto; discriminate.
Qed.

Definition other (k : kind) : kind := match k with Tcp => Utp | Utp => Tcp end.

Lemma closed_cases c code s : let s1 := withCur (cur s) PClosed (received s) s in
  (exists k, remote s = false /\ manual s = false /\ connected s = false /\ cur s = Some k /\ (match k with Tcp => utpTried s | Utp => tcpTried s end) = false /\ connectionClosed c code s = openStream (other k) s1) \/
  (remote s = false /\ manual s = false /\ connected s = true /\ keptMessage c s <> [] /\ connectionClosed c code s = reconnectStream (withHs (hs s) (pe s) (keptMessage c s) (firstWrite s) s1)) \/
  (exists i, (i = initial s \/ i = []) /\ connectionClosed c code s = tellClosed code (withHs (hs s) (pe s) i (firstWrite s) s1)).
Proof.
  unfold connectionClosed. destruct s as [cu p0 rc h0 pe0 i0 m0 c0 re t0 u0 r0 fw hp po lg]. pj. unfold keptMessage. pj.
  set (kept := match h0 with HNone => _ | HOpen => _ | HFailed => _ end).
  destruct re, m0; cbn [negb andb]; try (right; right; exists i0; split; [now left|reflexivity]).
  destruct c0; cbn [negb andb].
  - destruct kept as [|x l] eqn:K; [right; right; exists []; split; [now right|reflexivity]|]. right. left. repeat split; auto. discriminate.
  - destruct cu as [[|]|]; cbn [andb].
    + destruct u0; cbn [negb andb]; [right; right; exists i0; split; [now left|reflexivity]|]. destruct (utpOut c); [left; exists Tcp; repeat split; auto|right; right; exists i0; split; [now left|reflexivity]].
    + destruct t0; cbn [negb andb]; [right; right; exists i0; split; [now left|reflexivity]|]. destruct (tcpOut c); [left; exists Utp; repeat split; auto|right; right; exists i0; split; [now left|reflexivity]].
    + right; right; exists i0; split; [now left|reflexivity].
Qed.

Lemma kept_cases c s : keptMessage c s <> [] -> keptMessage c s = initial s /\ ((hs s = HNone /\ received s = 0 /\ enc c <> Refuse) \/ (hs s = HOpen /\ enc c <> Require)).
Proof.
  unfold keptMessage. destruct (hs s); [|destruct (enc c); intros H; [|idtac|congruence]; (split; [reflexivity|right; split; [reflexivity|discriminate]])|congruence].
  destruct (Z.eqb_spec (received s) 0); cbn [andb]; [|congruence]. destruct (enc c); intros H; [congruence| |]; (split; [reflexivity|left]); repeat split; auto; discriminate.
Qed.

Lemma data_cases n r s : cur s <> None -> let s1 := withCur (cur s) (ph s) (received s + n) s in
  (hs s = HNone /\ dataReceived n r s = say CData (withHs HNone (pe s) [] (firstWrite s) s1)) \/
  (hs s <> HNone /\ r = HFail /\ dataReceived n r s = say OShut (withHs HFailed (pe s) (initial s) (firstWrite s) s1)) \/
  (hs s <> HNone /\ r = HMore true /\ dataReceived n r s = say (OSend (pe s) PReply) (withHs (hs s) (pe s) (initial s) (remote s && firstWrite s) s1)) \/
  (hs s <> HNone /\ r = HMore false /\ dataReceived n r s = s1) \/
  (exists plain, hs s <> HNone /\ r = HDone plain true /\ dataReceived n r s = say CData (withHs HNone (negb plain || pe s) [] (firstWrite s) s1)) \/
  (exists plain, hs s <> HNone /\ r = HDone plain false /\ dataReceived n r s = withHs HNone (negb plain || pe s) (initial s) (firstWrite s) s1).
Proof.
  intros C. unfold dataReceived, deliver, closeStream, writeOn, send. destruct s as [cu p0 rc h0 pe0 i0 m0 c0 re t0 u0 r0 fw hp po lg]. pj. destruct cu as [k|]; [|congruence].
  destruct h0; [now left| |]; (right; destruct r as [|[|]|pl [|]];
    [left; repeat split; auto; discriminate|right; left; destruct re; repeat split; auto; discriminate|right; right; left; repeat split; auto; discriminate|
     right; right; right; left; exists pl; repeat split; auto; discriminate|right; right; right; right; exists pl; repeat split; auto; discriminate]).
Qed.

(** The owner is told in order. *)
Definition IT (q0 : Z) (s : pstream) : Prop := exists q, told q0 (log s) = Some q /\
  (remote s = false -> reconnect s = true -> firstWrite s = false) /\ (remote s = false -> firstWrite s = true -> initial s = []) /\
  match ph s with
  | PNone => cur s = None /\ ((posted s = true /\ q = 0) \/ (posted s = false /\ q = 2)) /\ connected s = false /\ remote s = false
  | PConnecting => cur s <> None /\ posted s = false /\ remote s = false /\ ((connected s = false /\ q = 0 /\ reconnect s = false) \/ (connected s = true /\ q = 1 /\ reconnect s = true))
  | POpen => cur s <> None /\ posted s = false /\ q = 1 /\ (remote s = false -> connected s = true)
  | PClosed => cur s <> None /\ posted s = false /\ q = 2
  end.

Lemma IT_write q0 c d s : IT q0 s -> IT q0 (write c d s).
Proof.
  intros (q & T & F1 & F2 & H). destruct (cur s) as [k|] eqn:C.
  - destruct (write_cases c d s) as (p & h & i & f & E & W); [congruence|]. rewrite E. exists q. pj. rewrite told_app, T.
    split; [reflexivity|]. split; [|split; [|rewrite C in *; exact H]].
    + intros R1 R2. destruct W as [(_ & _ & _ & _ & -> & _)|(_ & _ & _ & _ & ->)]; [reflexivity|]. now rewrite R1.
    + intros R1. destruct W as [(_ & _ & _ & _ & -> & _)|(_ & _ & _ & _ & ->)]; [discriminate|]. rewrite R1. discriminate.
  - assert (E : log (write c d s) = log s /\ ph (write c d s) = ph s /\ cur (write c d s) = None /\ posted (write c d s) = posted s /\ connected (write c d s) = connected s /\ remote (write c d s) = remote s /\
      (remote s = false -> firstWrite (write c d s) = false)).
    { unfold write, startEncryption, writeOn, send. destruct s as [cu p0 rc h0 pe0 i0 m0 c0 re t0 u0 r0 fw hp po lg]. pj. subst cu. destruct re, fw, h0, (enc c); cbn; repeat split; auto; discriminate. }
    destruct E as (E1 & E2 & E3 & E4 & E5 & E6 & E7). exists q. rewrite E1, E2, E3, E4, E5, E6. split; [assumption|]. split; [intros R _; auto|]. split; [intros R; rewrite (E7 R); discriminate|].
    destruct (ph s); [exact H|destruct H; congruence|destruct H; congruence|destruct H; congruence].
Qed.

Lemma IT_step q0 s e : IT q0 s -> possible e s -> IT q0 (step e s).
Proof.
  intros H0 P. destruct e as [c d| |c|c code|n r|]; cbn [possible] in P; cbn [step]; [now apply IT_write| | | | |]; destruct H0 as (q & T & F1 & F2 & H).
  - unfold close, closeStream. pj. destruct (cur s) eqn:C; exists q; pj; rewrite ?told_app, T; rewrite C in *; repeat (split; [auto; fail|]); exact H.
  - rewrite P in H. destruct H as (H1 & H2 & H3 & H4). destruct (opened_cases c s H1 H3 (F1 H3)) as [(R & E)|[(R & N & E)|(R & N & E)]]; rewrite E; unfold IT; pj; rewrite told_app, T.
    + destruct H4 as [(? & -> & ?)|(? & ? & ?)]; [|congruence]. exists 1. repeat split; auto.
    + destruct H4 as [(? & ? & ?)|(? & -> & ?)]; [congruence|]. exists 1. repeat split; auto; discriminate.
    + destruct H4 as [(? & ? & ?)|(? & -> & ?)]; [congruence|]. exists 1. repeat split; auto; discriminate.
  - assert (H' : cur s <> None /\ posted s = false /\ q <> 2 /\ (remote s = false -> connected s = true -> q = 1) /\ (remote s = false -> connected s = false -> q = 0 /\ reconnect s = false)).
    { destruct P as [P|P]; rewrite P in H; [destruct H as (? & ? & ? & [(? & ? & ?)|(? & ? & ?)])|destruct H as (? & ? & ? & ?)]; repeat split; auto; try lia; intros; try congruence; rewrite H2 in *; auto; discriminate. }
    destruct H' as (C & PO & Q2 & QC & QN). apply Z.eqb_neq in Q2.
    destruct (closed_cases c code s) as [(k & R & M & CO & CK & TR & E)|[(R & M & CO & K & E)|(i & I & E)]]; rewrite E; unfold IT.
    + destruct (QN R CO) as [-> RE]. exists 0. pj. rewrite told_app, T. repeat split; auto; discriminate.
    + destruct (kept_cases _ _ K) as [KI _]. pose proof (QC R CO) as ->. exists 1. pj. destruct (cur s) as [k|] eqn:CK; [|congruence]. pj. rewrite told_app, T. repeat split; auto.
      * intros _ _. destruct (firstWrite s) eqn:FW; [|reflexivity]. rewrite KI, (F2 R eq_refl) in K. congruence.
      * rewrite KI. auto.
    + exists 2. pj. rewrite told_app, T. cbn [told]. rewrite Q2. repeat split; auto. intros R FW. destruct I as [->| ->]; auto.
  - destruct P as (P1 & P2 & P3 & P4). rewrite P1 in H. destruct H as (H1 & H2 & -> & H4).
    destruct (data_cases n r s H1) as [(N & E)|[(N & R & E)|[(N & R & E)|[(N & R & E)|[(pl & N & R & E)|(pl & N & R & E)]]]]]; rewrite E; unfold IT; exists 1; pj; rewrite ?told_app, T, ?P1;
      repeat split; auto.
    + intros R1 R2. now rewrite R1.
    + intros R1. rewrite R1. discriminate.
  - destruct (ph s) eqn:PH; try (destruct H as (? & ? & _); congruence). destruct H as (H1 & [[H2 ->]|[H2 _]] & H3 & H4); [|congruence].
    exists 2. pj. rewrite told_app, T, PH. repeat split; auto.
Qed.

(** What was sent and what is kept for a retry. *)
Definition IS (es : list event) (s : pstream) : Prop :=
  ((sent (log s) = asked es /\ (initial s = [] \/ asked es = [initial s])) \/ (initial s = [] /\ exists d r, asked es = d :: r /\ sent (log s) = d :: d :: r)) /\
  (firstWrite s = true -> asked es = [] /\ initial s = [] /\ hs s = HNone /\ ~ In CData (log s)) /\
  (In CData (log s) -> initial s = []) /\
  (ph s = PConnecting -> connected s = true -> initial s <> []) /\
  (cur s = None -> ~ In CData (log s) /\ ~ In COpened (log s)).

Lemma in_snoc {A} (l : list A) x y : In x (l ++ [y]) <-> In x l \/ x = y.
Proof. rewrite in_app_iff. cbn. intuition. Qed.

Lemma IS_step es s e : remote s = false -> IT 0 s -> IS es s -> possible e s -> IS (es ++ [e]) (step e s) /\ remote (step e s) = false.
Proof.
  intros RM (q & T & F1 & F2 & H) (S1 & S2 & S3 & S4 & S5) P. unfold IS. rewrite asked_app. destruct e as [c d| |c|c code|n r|]; cbn [possible] in P; cbn [step]; rewrite ?app_nil_r.
  - destruct P as [P|[(_ & P & FW)|P]]; [| |congruence].
    + destruct (cur s) as [k|] eqn:C; [|exfalso; destruct (S5 eq_refl); contradiction]. destruct (write_cases c d s) as (p & h & i & f & E & W); [congruence|]. rewrite E. pj.
      pose proof (S3 P) as I0. destruct W as [(_ & FW & _)|(_ & -> & -> & -> & ->)]; [exfalso; now apply S2|]. rewrite RM, sent_app. cbn [andb sent]. split; [|auto].
      split; [|split; [discriminate|split; [intros _; exact I0|split; [intros PH CO; exfalso; exact (S4 PH CO I0)|congruence]]]].
      * destruct S1 as [[S1 _]|[_ (d0 & r0 & A1 & A2)]]; [left; rewrite S1; auto|right]. split; [assumption|]. exists d0, (r0 ++ [d]). rewrite A1, A2. auto.
    + destruct (cur s) as [k|] eqn:C; [|exfalso; destruct (S5 eq_refl); contradiction]. destruct (write_cases c d s) as (p & h & i & f & E & W); [congruence|]. rewrite E. pj.
      destruct (S2 FW) as (A1 & A2 & A3 & A4). destruct W as [(_ & _ & _ & -> & -> & W)|([|[|]] & _)]; try congruence. rewrite sent_app, A1. split; [|assumption].
      assert (SS : sent (log s) = []) by (destruct S1 as [[S1 _]|[_ (d0 & r0 & B1 & B2)]]; congruence). rewrite SS.
      split; [left; destruct W as [(_ & -> & _)|(_ & -> & _)]; cbn; auto|]. split; [discriminate|]. split; [intros I; apply in_snoc in I; destruct I; [contradiction|discriminate]|]. split; [|congruence].
      intros PH CO. exfalso. rewrite A2 in S4. now apply S4.
  - unfold close, closeStream. pj. destruct (cur s) eqn:C; pj; rewrite ?sent_app, ?in_snoc; cbn [sent]; rewrite ?app_nil_r; (split; [|assumption]); (split; [assumption|]).
    + split; [intros FW; destruct (S2 FW) as (A1 & A2 & A3 & A4); repeat split; auto; rewrite ?in_snoc; intuition discriminate|]. split; [intuition discriminate|]. split; [assumption|congruence].
    + auto.
  - rewrite P in H. destruct H as (H1 & H2 & H3 & H4). destruct (opened_cases c s H1 H3 (F1 H3)) as [(R & E)|[(R & N & E)|(R & N & E)]]; rewrite E; pj; rewrite sent_app, ?in_snoc; cbn [sent]; rewrite ?app_nil_r; (split; [|assumption]).
    + split; [assumption|]. split; [intros FW; destruct (S2 FW) as (A1 & A2 & A3 & A4); repeat split; auto; rewrite ?in_snoc; intuition discriminate|]. split; [intuition discriminate|]. split; [discriminate|congruence].
    + destruct H4 as [(? & ? & ?)|(CO & _ & _)]; [congruence|]. specialize (S4 P CO).
      split; [right; split; [reflexivity|]; destruct S1 as [[S1 [S0|S0]]|[S0 _]]; try congruence; rewrite S1, S0; exists (initial s), []; auto|]. split; [discriminate|]. split; [reflexivity|]. split; [discriminate|congruence].
    + destruct H4 as [(? & ? & ?)|(CO & _ & _)]; [congruence|]. specialize (S4 P CO).
      split; [right; split; [reflexivity|]; destruct S1 as [[S1 [S0|S0]]|[S0 _]]; try congruence; rewrite S1, S0; exists (initial s), []; auto|]. split; [discriminate|]. split; [reflexivity|]. split; [discriminate|congruence].
  - destruct (closed_cases c code s) as [(k & R & M & CO & CK & TR & E)|[(R & M & CO & K & E)|(i & I & E)]]; rewrite E.
    + pj. rewrite sent_app, ?in_snoc. cbn [sent]. rewrite ?app_nil_r. split; [|assumption]. split; [assumption|].
      split; [intros FW; destruct (S2 FW) as (A1 & A2 & A3 & A4); repeat split; auto; rewrite ?in_snoc; intuition discriminate|]. split; [intuition discriminate|]. split; [congruence|discriminate].
    + destruct (kept_cases _ _ K) as [KI _]. rewrite KI in *. pj. destruct (cur s) as [k|] eqn:CK; pj; [|destruct P as [P|P]; rewrite P in H; destruct H; congruence].
      rewrite sent_app, ?in_snoc. cbn [sent]. rewrite ?app_nil_r. split; [|assumption]. split; [assumption|].
      split; [intros FW; destruct (S2 FW) as (A1 & A2 & A3 & A4); repeat split; auto; rewrite ?in_snoc; intuition discriminate|]. split; [intuition discriminate|]. split; [auto|discriminate].
    + pj. rewrite sent_app, ?in_snoc. cbn [sent]. rewrite ?app_nil_r. split; [|assumption].
      split; [destruct I as [->| ->]; [assumption|]; destruct S1 as [[S1 _]|S1]; [left; auto|right; split; [reflexivity|tauto]]|].
      split; [intros FW; destruct (S2 FW) as (A1 & A2 & A3 & A4); repeat split; auto; [destruct I as [->| ->]; auto|rewrite ?in_snoc; intuition discriminate]|].
      split; [intros [J|J]; [|discriminate]; destruct I as [->| ->]; auto|]. split; [discriminate|]. intros C. destruct (S5 C) as [S6 S7]. rewrite ?in_snoc. intuition discriminate.
  - destruct P as (P1 & P2 & [P3|P3] & P4); [congruence|]. rewrite P1 in H. destruct H as (H1 & H2 & -> & H4).
    destruct (data_cases n r s H1) as [(N & E)|[(N & R & E)|[(N & R & E)|[(N & R & E)|[(pl & N & R & E)|(pl & N & R & E)]]]]]; rewrite E; pj; rewrite ?sent_app, ?in_snoc; cbn [sent]; rewrite ?app_nil_r; (split; [|assumption]).
    + split; [destruct S1 as [[S1 _]|S1]; [left; auto|right; split; [reflexivity|tauto]]|]. split; [congruence|]. split; [reflexivity|]. split; [congruence|congruence].
    + split; [assumption|]. split; [congruence|]. split; [intuition discriminate|]. split; [congruence|congruence].
    + split; [assumption|]. split; [rewrite RM; discriminate|]. split; [intuition discriminate|]. split; [congruence|congruence].
    + split; [assumption|]. split; [congruence|]. split; [assumption|]. split; [congruence|congruence].
    + split; [destruct S1 as [[S1 _]|S1]; [left; auto|right; split; [reflexivity|tauto]]|]. split; [congruence|]. split; [reflexivity|]. split; [congruence|congruence].
    + split; [assumption|]. split; [congruence|]. split; [assumption|]. split; [congruence|congruence].
  - pj. rewrite sent_app, ?in_snoc. cbn [sent]. rewrite ?app_nil_r. split; [|assumption]. split; [assumption|].
    split; [intros FW; destruct (S2 FW) as (A1 & A2 & A3 & A4); repeat split; auto; rewrite ?in_snoc; intuition discriminate|]. split; [intuition discriminate|]. split; [assumption|]. intros C. destruct (S5 C) as [S6 S7]. rewrite ?in_snoc. intuition discriminate.
Qed.

(** Until it was connected once, each kind is tried once at most. *)
Definition IC (s : pstream) : Prop := connected s = false -> connects Tcp (log s) = (if tcpTried s then 1 else 0)%nat /\ connects Utp (log s) = (if utpTried s then 1 else 0)%nat.

Lemma write_frame c d s : connected (write c d s) = connected s /\ tcpTried (write c d s) = tcpTried s /\ utpTried (write c d s) = utpTried s /\ manual (write c d s) = manual s /\ (forall k, connects k (log (write c d s)) = connects k (log s)).
Proof.
  unfold write, startEncryption, writeOn, send. destruct s as [cu p0 rc h0 pe0 i0 m0 c0 re t0 u0 r0 fw hp po lg]. pj.
  destruct cu; destruct re, fw, h0; destruct (enc c); cbn [negb andb]; pj; repeat split; auto; intros; rewrite connects_app; apply Nat.add_0_r.
Qed.

Lemma connects_say k l e : (forall k', e <> OConnect k') -> connects k (l ++ [e]) = connects k l.
Proof. intros N. rewrite connects_app. destruct e; try apply Nat.add_0_r. exfalso. eapply N. reflexivity. Qed.

Lemma data_frame n r s : connected (dataReceived n r s) = connected s /\ tcpTried (dataReceived n r s) = tcpTried s /\ utpTried (dataReceived n r s) = utpTried s /\ manual (dataReceived n r s) = manual s /\ (forall k, connects k (log (dataReceived n r s)) = connects k (log s)).
Proof.
  unfold dataReceived, deliver, closeStream, writeOn, send. destruct s as [cu p0 rc h0 pe0 i0 m0 c0 re t0 u0 r0 fw hp po lg]. pj.
  destruct h0, r as [|[|]|pl [|]], cu, re; pj; repeat split; auto; intros; rewrite ?connects_say by discriminate; reflexivity.
Qed.

Lemma opened_frame c s : connected (connectionOpened c s) = true /\ manual (connectionOpened c s) = manual s /\ (forall k, connects k (log (connectionOpened c s)) = connects k (log s)).
Proof.
  unfold connectionOpened. destruct (reconnect s).
  - unfold sendRetry. pj. destruct (hs s).
    + unfold startEncryption, writeOn, send. pj. destruct (remote s), (cur s); pj; repeat split; auto; intros; rewrite connects_say by discriminate; reflexivity.
    + match goal with |- context [write ?a ?b ?x] => destruct (write_frame a b x) as (A & _ & _ & B & C) end. rewrite A, B. pj. repeat split; auto.
    + match goal with |- context [write ?a ?b ?x] => destruct (write_frame a b x) as (A & _ & _ & B & C) end. rewrite A, B. pj. repeat split; auto.
  - pj. repeat split; auto. intros. rewrite connects_say by discriminate. reflexivity.
Qed.

Lemma IC_step s e : IC s -> IC (step e s).
Proof.
  unfold IC. intros H CO. destruct e as [c d| |c|c code|n r|]; cbn [step] in *.
  - destruct (write_frame c d s) as (A & B & C & D & E). rewrite A in CO. rewrite B, C, !E. auto.
  - unfold close, closeStream in *. pj. destruct (cur s); pj; rewrite ?connects_say by discriminate; auto.
  - destruct (opened_frame c s) as (A & _). congruence.
  - destruct (closed_cases c code s) as [(k & R & M & C0 & CK & TR & E)|[(R & M & C0 & K & E)|(i & I & E)]]; rewrite E in *.
    + pj. destruct (H C0) as [A B]. rewrite !connects_app, A, B. destruct k; cbn [other kind_eqb]; rewrite TR in *; cbn; split; auto; destruct (tcpTried s), (utpTried s); reflexivity.
    + pj. destruct (cur s); pj; congruence.
    + pj. rewrite !connects_say by discriminate. auto.
  - destruct (data_frame n r s) as (A & B & C & D & E). rewrite A in CO. rewrite B, C, !E. auto.
  - pj. rewrite !connects_say by discriminate. auto.
Qed.

Lemma told_zero l : forall q, told q l = Some 0 -> q = 0 /\ ~ In COpened l /\ ~ In CData l.
Proof.
  induction l as [|x l IH]; intros q; cbn [told]; [intros [= ->]; auto|]. destruct x.
  1-3: (intros H; destruct (IH _ H) as (A & B & C); cbn; intuition discriminate).
  - destruct (q =? 0); [|discriminate]. intros H. destruct (IH _ H); discriminate.
  - destruct (q =? 1); [|discriminate]. intros H. destruct (IH _ H); discriminate.
  - destruct (q =? 2); [discriminate|]. intros H. destruct (IH _ H); discriminate.
Qed.

(** Encryption refused: nothing but plain data, and one connection of each kind. *)
Definition IR (s : pstream) : Prop := hs s = HNone /\ pe s = false /\ reconnect s = false /\ (forall e p, In (OSend e p) (log s) -> e = false /\ exists d, p = PData d) /\ forall k, (connects k (log s) <= 1)%nat.

Lemma IR_step s e : remote s = false -> IT 0 s -> IC s -> IR s -> possible e s -> with_enc Refuse e -> IR (step e s).
Proof.
  intros RM (q & T & F1 & F2 & H) C (R1 & R2 & R3 & R4 & R5) P W. unfold IR. destruct e as [c d| |c|c code|n r|]; cbn [possible] in P; cbn [with_enc] in W; cbn [step].
  - destruct (cur s) as [k|] eqn:CK.
    + destruct (write_cases c d s) as (p & h & i & f & E & [(_ & _ & _ & _ & _ & [(X & _)|(_ & -> & ->)])|(_ & -> & -> & _)]); [congruence|congruence| |]; rewrite E; pj; (repeat (split; [first [assumption|reflexivity]|]); split; [|intros k0; rewrite connects_say by discriminate; apply R5]);
        intros e p I; apply in_snoc in I; destruct I as [I|[= -> ->]]; eauto.
    + assert (E : log (write c d s) = log s /\ hs (write c d s) = HNone /\ pe (write c d s) = false /\ reconnect (write c d s) = false).
      { unfold write, startEncryption, writeOn, send. destruct s as [cu p0 rc h0 pe0 i0 m0 c0 re t0 u0 r0 fw hp po lg]. pj. subst. destruct fw; cbn [negb andb]; rewrite ?W; cbn; auto. }
      destruct E as (E1 & E2 & E3 & E4). rewrite E1. auto.
  - unfold close, closeStream. pj. destruct (cur s); pj; repeat (split; [assumption|]); [|assumption]. split; [|intros k0; rewrite connects_say by discriminate; apply R5].
    intros e p I; apply in_snoc in I; destruct I as [I|I]; [eauto|discriminate].
  - rewrite P in H. destruct H as (H1 & H2 & H3 & H4). destruct (opened_cases c s H1 H3 (F1 H3)) as [(R & E)|[(R & N & E)|(R & N & E)]]; try congruence. rewrite E. pj. repeat (split; [assumption|]).
    split; [|intros k0; rewrite connects_say by discriminate; apply R5]. intros e p I; apply in_snoc in I; destruct I as [I|I]; [eauto|discriminate].
  - destruct (closed_cases c code s) as [(k & R & M & C0 & CK & TR & E)|[(R & M & C0 & K & E)|(i & I & E)]]; rewrite E.
    + pj. repeat (split; [assumption|]). split; [intros e p I; apply in_snoc in I; destruct I as [I|I]; [eauto|discriminate]|].
      intros k0. rewrite connects_app. specialize (R5 k0). destruct (C C0) as [A B]. destruct k, k0; cbn [other kind_eqb] in *; rewrite ?TR in *; lia.
    + destruct (kept_cases _ _ K) as [_ [(_ & _ & N)|(N & _)]]; congruence.
    + pj. repeat (split; [assumption|]). split; [|intros k0; rewrite connects_say by discriminate; apply R5]. intros e p I'; apply in_snoc in I'; destruct I' as [I'|I']; [eauto|discriminate].
  - destruct P as (P1 & P2 & P3 & P4). rewrite P1 in H. destruct H as (H1 & H2 & -> & H4).
    destruct (data_cases n r s H1) as [(N & E)|[(N & R & E)|[(N & R & E)|[(N & R & E)|[(pl & N & R & E)|(pl & N & R & E)]]]]]; try congruence. rewrite E. pj. split; [reflexivity|]. repeat (split; [assumption|]).
    split; [|intros k0; rewrite connects_say by discriminate; apply R5]. intros e p I'; apply in_snoc in I'; destruct I' as [I'|I']; [eauto|discriminate].
  - pj. repeat (split; [assumption|]). split; [|intros k0; rewrite connects_say by discriminate; apply R5]. intros e p I'; apply in_snoc in I'; destruct I' as [I'|I']; [eauto|discriminate].
Qed.

(** Encryption required: data of the owner is sent inside the handshake or encrypted. *)
Definition IQ (s : pstream) : Prop := reconnect s = false /\
  (firstWrite s = true -> hs s = HNone /\ pe s = false /\ ~ In CData (log s)) /\
  (firstWrite s = false -> (hs s <> HNone \/ pe s = true) /\ (In COpened (log s) \/ In CData (log s))) /\
  (hs s <> HNone -> pe s = false /\ ~ In CData (log s)) /\
  (pe s = true -> 0 < received s) /\ 0 <= received s /\
  forall d, ~ In (OSend false (PData d)) (log s).

Lemma IQ_step es s e : remote s = false -> IT 0 s -> IS es s -> IQ s -> possible e s -> with_enc Require e -> not_plain e -> IQ (step e s).
Proof.
  intros RM (q & T & F1 & F2 & H) IS0 (R1 & R2 & R3 & R4 & R5 & R6 & R7) P W NP. unfold IQ. destruct e as [c d| |c|c code|n r|]; cbn [possible] in P; cbn [with_enc not_plain] in W, NP; cbn [step].
  - destruct IS0 as (_ & _ & _ & _ & S5). destruct (cur s) as [k|] eqn:CK; [|exfalso; destruct (S5 eq_refl); destruct P as [P|[(_ & P & _)|P]]; congruence || contradiction].
    destruct (write_cases c d s) as (p & h & i & f & E & [(_ & FW & HN & -> & -> & [(_ & -> & ->)|(X & _)])|(X & -> & -> & -> & ->)]); [congruence| |congruence|]; rewrite E; pj.
    + destruct (R2 FW) as (_ & PE & ND). split; [assumption|]. split; [discriminate|]. split; [intros _; split; [left; discriminate|]; destruct P as [P|[(_ & P & _)|P]]; [contradiction|rewrite in_snoc; auto|congruence]|].
      split; [intros _; split; [assumption|rewrite in_snoc; intuition discriminate]|]. split; [assumption|]. split; [assumption|]. intros d0 I. apply in_snoc in I. destruct I as [I|I]; [exact (R7 _ I)|discriminate].
    + destruct P as [P|[(_ & _ & FW)|P]]; [|destruct X as [X|[X|X]]; [congruence|congruence|]; destruct (R2 FW); congruence|congruence].
      assert (FW : firstWrite s = false) by (destruct (firstWrite s); [destruct (R2 eq_refl) as (_ & _ & N); contradiction|reflexivity]).
      assert (HN : hs s = HNone) by (destruct (hs s) eqn:Q; [reflexivity|exfalso; apply R4; [discriminate|assumption]|exfalso; apply R4; [discriminate|assumption]]).
      assert (PE : pe s = true) by (destruct (R3 FW) as [[?|?] _]; [congruence|assumption]).
      rewrite FW, RM. cbn [andb]. split; [assumption|]. split; [discriminate|]. split; [intros _; split; [right; assumption|rewrite !in_snoc; auto]|]. split; [congruence|]. split; [assumption|]. split; [assumption|].
      intros d0 I. apply in_snoc in I. destruct I as [I|I]; [exact (R7 _ I)|congruence].
  - assert (Z0 : forall s', IQ s' -> IQ (withFlags true (connected s') (remote s') (tcpTried s') (utpTried s') (reconnect s') (posted s') s')) by (intros s' X; exact X).
    unfold close, closeStream. pj. destruct (cur s); pj.
    + split; [assumption|]. split; [intros FW; destruct (R2 FW) as (A & B & D); rewrite in_snoc; intuition discriminate|]. split; [intros FW; destruct (R3 FW) as (A & B); split; [assumption|rewrite !in_snoc; tauto]|].
      split; [intros N; destruct (R4 N); rewrite in_snoc; intuition discriminate|]. split; [assumption|]. split; [assumption|]. intros d0 I. apply in_snoc in I. destruct I as [I|I]; [exact (R7 _ I)|discriminate].
    + repeat (split; [assumption|]). assumption.
  - rewrite P in H. destruct H as (H1 & H2 & H3 & H4). destruct (opened_cases c s H1 H3 (F1 H3)) as [(R & E)|[(R & N & E)|(R & N & E)]]; try congruence. rewrite E. pj.
    split; [assumption|]. split; [intros FW; destruct (R2 FW) as (A & B & D); rewrite in_snoc; intuition discriminate|]. split; [intros FW; destruct (R3 FW) as (A & B); split; [assumption|rewrite !in_snoc; tauto]|].
    split; [intros N; destruct (R4 N); rewrite in_snoc; intuition discriminate|]. split; [assumption|]. split; [assumption|]. intros d0 I. apply in_snoc in I. destruct I as [I|I]; [exact (R7 _ I)|discriminate].
  - destruct (closed_cases c code s) as [(k & R & M & C0 & CK & TR & E)|[(R & M & C0 & K & E)|(i & I & E)]]; rewrite E.
    + assert (Q0 : q = 0) by (destruct P as [P|P]; rewrite P in H; [destruct H as (_ & _ & _ & [(_ & ? & _)|(? & _)]); [assumption|congruence]|destruct H as (_ & _ & _ & H); rewrite (H R) in C0; discriminate]).
      subst q. destruct (told_zero _ _ T) as (_ & N1 & N2). assert (FW : firstWrite s = true) by (destruct (firstWrite s); [reflexivity|destruct (R3 eq_refl) as [_ [?|?]]; contradiction]).
      destruct (R2 FW) as (A & B & D). pj. split; [assumption|]. split; [rewrite in_snoc; intuition discriminate|]. split; [congruence|]. split; [congruence|]. split; [congruence|]. split; [lia|].
      intros d0 I. apply in_snoc in I. destruct I as [I|I]; [exact (R7 _ I)|discriminate].
    + exfalso. destruct (kept_cases _ _ K) as [KI [(N1 & N2 & _)|(_ & N)]]; [|congruence]. destruct (firstWrite s) eqn:FW; [rewrite KI in K; now apply K, F2|].
      destruct (R3 eq_refl) as [[?|PE] _]; [congruence|]. apply R5 in PE. lia.
    + pj. split; [assumption|]. split; [intros FW; destruct (R2 FW) as (A & B & D); rewrite in_snoc; intuition discriminate|]. split; [intros FW; destruct (R3 FW) as (A & B); split; [assumption|rewrite !in_snoc; tauto]|].
      split; [intros N; destruct (R4 N); rewrite in_snoc; intuition discriminate|]. split; [assumption|]. split; [assumption|]. intros d0 I'. apply in_snoc in I'. destruct I' as [I'|I']; [exact (R7 _ I')|discriminate].
  - destruct P as (P1 & P2 & [P3|P3] & P4); [congruence|]. rewrite P1 in H. destruct H as (H1 & H2 & -> & H4). destruct (R3 P3) as [R8 R9].
    destruct (data_cases n r s H1) as [(N & E)|[(N & R & E)|[(N & R & E)|[(N & R & E)|[(pl & N & R & E)|(pl & N & R & E)]]]]]; rewrite E; pj; (split; [assumption|]).
    + split; [congruence|]. split; [intros _; split; [tauto|rewrite !in_snoc; auto]|]. split; [congruence|]. split; [lia|]. split; [lia|]. intros d0 I. apply in_snoc in I. destruct I as [I|I]; [exact (R7 _ I)|discriminate].
    + destruct (R4 N) as [PE ND]. split; [congruence|]. split; [intros _; split; [left; discriminate|rewrite !in_snoc; tauto]|]. split; [intros _; rewrite in_snoc; intuition discriminate|]. split; [lia|]. split; [lia|]. intros d0 I. apply in_snoc in I. destruct I as [I|I]; [exact (R7 _ I)|discriminate].
    + destruct (R4 N) as [PE ND]. split; [rewrite RM; discriminate|]. split; [intros _; split; [left; assumption|rewrite !in_snoc; tauto]|]. split; [intros _; rewrite in_snoc; intuition discriminate|]. split; [lia|]. split; [lia|]. intros d0 I. apply in_snoc in I. destruct I as [I|I]; [exact (R7 _ I)|discriminate].
    + split; [congruence|]. split; [auto|]. split; [assumption|]. split; [lia|]. split; [lia|]. assumption.
    + subst r. rewrite NP. cbn [negb orb]. split; [congruence|]. split; [intros _; split; [now right|rewrite !in_snoc; auto]|]. split; [congruence|]. split; [lia|]. split; [lia|]. intros d0 I. apply in_snoc in I. destruct I as [I|I]; [exact (R7 _ I)|discriminate].
    + subst r. rewrite NP. cbn [negb orb]. split; [congruence|]. split; [intros _; split; [now right|assumption]|]. split; [congruence|]. split; [lia|]. split; [lia|]. assumption.
  - pj. split; [assumption|]. split; [intros FW; destruct (R2 FW) as (A & B & D); rewrite in_snoc; intuition discriminate|]. split; [intros FW; destruct (R3 FW) as (A & B); split; [assumption|rewrite !in_snoc; tauto]|].
    split; [intros N; destruct (R4 N); rewrite in_snoc; intuition discriminate|]. split; [assumption|]. split; [assumption|]. intros d0 I. apply in_snoc in I. destruct I as [I|I]; [exact (R7 _ I)|discriminate].
Qed.
