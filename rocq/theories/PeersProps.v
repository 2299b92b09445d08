(** C43: the peer table stays consistent. Addresses are those of utils/Network. *)
From Verif Require Import Base BaseLemmas AddrModel AddrSpec AddrProofs PeersModel PeersProofs.

Definition emptyAddr : addr := {| addrBytes := repeat 0 16; port := 0; ipv6 := false |}.

Definition step := pstep addr addrEq emptyAddr.
Definition run := prun addr addrEq emptyAddr.

Notation Known := (pknown addr).
Notation Active := (pactive addr).
Notation Idx := (aidx addr).

(** The states a program with these connection settings reaches. *)
Definition reachable (tcp utp pref : bool) (s : peers addr) : Prop :=
  exists m es, run tcp utp pref (newPeers addr m) es = Ok s /\ forall e, In e es -> flagsOk addr e.

(** ** Nothing outside the lists is used *)

(** For every history (with a flag for every peer where there are flags; PEX messages are read
    so). *)
Theorem C43_safe : forall tcp utp pref m es, (forall e, In e es -> flagsOk addr e) -> exists s, run tcp utp pref (newPeers addr m) es = Ok s.
Proof.
  intros tcp utp pref m es F. destruct (prun_ok addr addrEq emptyAddr tcp utp pref es (newPeers addr m) (rinv_new addr addrEq emptyAddr tcp utp pref m) F) as (s & E & _). now exists s.
Qed.
Print Assumptions C43_safe.

Lemma reach_rinv tcp utp pref s : reachable tcp utp pref s -> rinv addr s.
Proof.
  intros (m & es & E & F). destruct (prun_ok addr addrEq emptyAddr tcp utp pref es (newPeers addr m) (rinv_new addr addrEq emptyAddr tcp utp pref m) F) as (s' & E' & R). unfold run in E. rewrite E in E'. now injection E' as ->.
Qed.

(** ** Connections and known peers *)

Definition consistent (s : peers addr) : Prop :=
  (forall x, In x (Active s) -> exists k, nth_error (Known s) (Idx x) = Some k /\ addrEq (kaddr addr k) (aaddr addr x) = true) /\
  (forall i k, nth_error (Known s) i = Some k ->
     count_occ Nat.eq_dec (map Idx (Active s)) i = match kst addr k with PDisconnected => 0%nat | _ => 1%nat end).

(** All addresses of an event are of one family. *)
Definition ofFamily (v6 : bool) (e : pevent addr) : Prop :=
  match e with
  | PConnect _ a _ _ => addr_ok a /\ ipv6 a = v6
  | PRemote _ a => addr_ok a /\ ipv6 a = v6
  | PFound _ ps _ _ _ => forall a, In a ps -> addr_ok a /\ ipv6 a = v6
  | _ => True
  end.

Definition isHolepunch (e : pevent addr) : bool := match e with PConnect _ _ hp _ => hp | _ => false end.

(** After any history: each live connection is of one known peer, to its address; each known
    peer that is connecting or connected has one live connection and the others have none.
    What is missing: histories with IPv4 and IPv6 addresses, and settings with which an
    attempt opens no stream (see below). *)
Theorem C43_consistent_partial : forall v6 tcp utp pref m es s,
  (utp = true \/ (tcp = true /\ forall e, In e es -> isHolepunch e = false)) ->
  (forall e, In e es -> ofFamily v6 e /\ flagsOk addr e) ->
  run tcp utp pref (newPeers addr m) es = Ok s -> consistent s.
Proof.
  intros v6 tcp utp pref m es s O F E.
  set (P := fun a : addr => addr_ok a /\ ipv6 a = v6).
  assert (R : forall x, P x -> addrEq x x = true). { intros x [X1 X2]. apply addrEq_family; auto. }
  assert (U : forall x y z, P x -> P y -> P z -> addrEq x y = true -> addrEq x z = true -> addrEq y z = true).
  { intros x y z [X1 X2] [Y1 Y2] [Z1 Z2] E1 E2. apply addrEq_family in E1; try assumption; [|congruence]. apply addrEq_family in E2; try assumption; [|congruence]. apply addrEq_family; try assumption; congruence. }
  assert (OP : forall a, streamAddr addr emptyAddr tcp utp pref false a = a). { intros a. unfold streamAddr. destruct O as [-> |[-> _]]; cbn; [|destruct utp, pref; reflexivity]. destruct pref, tcp; reflexivity. }
  assert (V : forall e, In e es -> evOk addr emptyAddr tcp utp pref P e /\ flagsOk addr e).
  { intros e I. destruct (F e I) as [F1 F2]. split; [|exact F2]. destruct e; try exact F1; try exact Logic.I. split; [exact F1|]. destruct hp; [|apply OP].
    destruct O as [-> |[_ O]]; [reflexivity|]. specialize (O _ I). discriminate. }
  destruct (prun_sinv addr addrEq emptyAddr tcp utp pref P R U OP es (newPeers addr m) s (rinv_new addr addrEq emptyAddr tcp utp pref m) (sinv_new addr addrEq emptyAddr tcp utp pref P R U OP m) V E) as (_ & N & B & C).
  split.
  - intros x I. destruct (B x I) as (_ & k & K & _ & KA). eauto.
  - intros i k K. destruct (C i k K) as [_ D]. destruct (in_dec Nat.eq_dec i (map Idx (Active s))) as [I|I].
    + rewrite (proj1 (NoDup_count_occ' Nat.eq_dec _) N i I). apply in_map_iff in I as (x & <- & I). destruct (B x I) as (_ & q & Q & QS & _). assert (q = k) as -> by congruence. destruct (kst addr k); congruence.
    + rewrite (proj1 (count_occ_not_In _ _ _) I). destruct (kst addr k); [reflexivity|exfalso; apply I, D; discriminate..].
Qed.
Print Assumptions C43_consistent_partial.

Definition v4 (n p : Z) : addr := {| addrBytes := [10;0;0;n] ++ repeat 0 12; port := p; ipv6 := false |}.

(** A tracker gives three peers, one is tried, PEX puts a peer in the middle, a remote one
    connects, the limit grows, a peer is dropped as unwanted. *)
Definition story : list (pevent addr) :=
  [PStart addr 100; PStartConnecting addr 100; PFound addr [v4 1 1; v4 2 1; v4 3 1] SrcTracker None 100; PMax addr 2; PConnectNext addr 101; PHandshake addr 1;
   PFound addr [v4 4 1; v4 2 1] SrcPex (Some [1; 8]) 102; PRemote addr (v4 5 7); PDisconnect addr 1 true; PClosed addr 1 103; PMax addr 3; PConnectNext addr 200].
Example C43_meets : match run true true false (newPeers addr 1) story with
  | Ok s => map (fun x => (Idx x, aaddr addr x)) (Active s) = [(0, v4 1 1); (4, v4 5 7); (2, v4 4 1)]%nat /\
            map (kst addr) (Known s) = [PConnecting; PDisconnected; PConnecting; PDisconnected; PConnected]
  | UB => False end.
Proof. vm_compute. auto. Qed.

Example C43_meets_hypotheses : forall e, In e story -> ofFamily false e /\ flagsOk addr e.
Proof.
  intros e I. repeat (destruct I as [<-|I]; [cbn; split; try exact Logic.I; try lia; intros; intuition (subst; try reflexivity; try (split; [reflexivity|split; [repeat constructor; lia|cbn; lia]]))|]). destruct I.
Qed.

(** ** Automatic connecting *)

(** Never above the limit: connections are only opened below it, and not more than fit. *)
Theorem C43_limit : forall tcp utp pref s t s', reachable tcp utp pref s -> step tcp utp pref s (PConnectNext addr t) = Ok s' ->
  zlen (Active s') <= Z.max (zlen (Active s)) (pmax addr s).
Proof.
  intros tcp utp pref s t s' _ H. unfold step in H. cbn in H. unfold connectNext in H. destruct (_ || _ || _) eqn:G; [injection H as <-; lia|].
  destruct (connectLoop _ _ _ _ _ _ s _ t) as [[s1 c1]|] eqn:E; [|discriminate]. cbn in H. injection H as <-. apply orb_false_elim in G as [_ G]. apply (loop_after addr addrEq) in E; [|lia]. destruct E as (_ & E1 & E2). lia.
Qed.
Print Assumptions C43_limit.

(** Who is contacted: known peers without a connection, not marked unwanted, and not tried in
    the last thirty seconds; each at its own address, none twice. The connections there were
    stay. *)
Theorem C43_contacts : forall tcp utp pref s t s', reachable tcp utp pref s -> step tcp utp pref s (PConnectNext addr t) = Ok s' ->
  exists news, Active s' = Active s ++ news /\ NoDup (map Idx news) /\
    forall x, In x news -> exists k, nth_error (Known s) (Idx x) = Some k /\ kst addr k = PDisconnected /\ kunwanted addr k = false /\ (ktime addr k = 0 \/ ktime addr k + 30 < t) /\
      (tcp = true \/ utp = true -> aaddr addr x = kaddr addr k).
Proof.
  intros tcp utp pref s t s' _ H. unfold step in H. cbn in H. unfold connectNext in H. destruct (_ || _ || _) eqn:G; [injection H as <-; exists []; rewrite app_nil_r; repeat split; [constructor|easy]|].
  destruct (connectLoop _ _ _ _ _ _ s _ t) as [[s1 c1]|] eqn:E; [|discriminate]. cbn in H. injection H as <-. apply orb_false_elim in G as [_ G]. apply (loop_after addr addrEq) in E; [|lia].
  destruct E as ((_ & _ & _ & _ & _ & news & E1 & E2 & E3) & _). exists news. refine (conj E1 (conj E2 _)). intros x I. destruct (E3 x I) as (k & K & EL & _ & KA). exists k. unfold eligible in EL.
  apply andb_prop in EL as [EL T]. apply andb_prop in EL as [ST UN]. refine (conj K (conj _ (conj _ (conj _ _)))); [destruct (kst addr k); [reflexivity|discriminate..]|now destruct (kunwanted addr k)|lia|].
  intros O. rewrite KA. unfold streamAddr. destruct tcp, utp, pref; try reflexivity; destruct O; discriminate.
Qed.
Print Assumptions C43_contacts.

(** Nobody is passed over: if there is room left afterwards, every known peer that may be
    contacted has a connection. *)
Theorem C43_nobody_missed : forall tcp utp pref s t s', reachable tcp utp pref s -> pconnecting addr s = true -> prunning addr s = true ->
  step tcp utp pref s (PConnectNext addr t) = Ok s' -> zlen (Active s') < pmax addr s ->
  forall i k, nth_error (Known s) i = Some k -> kst addr k = PDisconnected -> kunwanted addr k = false -> (ktime addr k = 0 \/ ktime addr k + 30 < t) -> In i (map Idx (Active s')).
Proof.
  intros tcp utp pref s t s' RE C R H L i k K ST UN T. pose proof (reach_rinv _ _ _ _ RE) as [_ CU]. unfold step in H. cbn in H. unfold connectNext in H. rewrite C, R in H. cbn [negb orb] in H.
  destruct (pmax addr s <=? zlen (Active s)) eqn:G; [injection H as <-; lia|].
  destruct (connectLoop _ _ _ _ _ _ s _ t) as [[s1 c1]|] eqn:E; [|discriminate]. cbn in H. injection H as <-. pose proof (loop_after addr addrEq emptyAddr tcp utp pref _ _ _ _ _ _ E ltac:(lia)) as (_ & C1 & C2).
  assert (LI : (i < length (Known s))%nat) by (apply nth_error_Some; congruence). set (n := length (Known s)) in *. set (c := pcur addr s) in *.
  assert (CL : (c < n)%nat) by (destruct CU as [U|[U _]]; [exact U|fold n in U; lia]).
  assert (EQ : exists j, (j < n)%nat /\ ((c + j) mod n = i)%nat).
  { destruct (Nat.leb_spec c i); [exists (i - c)%nat|exists (i + n - c)%nat].
    - split; [lia|]. replace (c + (i - c))%nat with i by lia. now apply Nat.mod_small.
    - split; [lia|]. replace (c + (i + n - c))%nat with (i + 1 * n)%nat by lia. rewrite Nat.mod_add by lia. now apply Nat.mod_small. }
  destruct EQ as (j & J & EJ). rewrite <- EJ. unfold c, n. apply (loop_all addr addrEq emptyAddr tcp utp pref _ _ _ _ _ _ E ltac:(lia) (le_n _) ltac:(lia) j k); fold n c.
  - exact J.
  - rewrite EJ. exact K.
  - exact CL.
  - unfold eligible. rewrite ST, UN. cbn. lia.
Qed.
Print Assumptions C43_nobody_missed.

Example C43_nobody_missed_meets : match run true true false (newPeers addr 5) [PFound addr [v4 1 1; v4 2 1; v4 3 1] SrcTracker None 100; PStart addr 100; PStartConnecting addr 100] with
  | Ok s => zlen (Active s) = 3 /\ pmax addr s = 5 | UB => False end.
Proof. vm_compute. auto. Qed.

(** ** Known peers *)

(** No event makes an address unknown. *)
Lemma after_addrs t tcp utp pref s s' : after addr emptyAddr tcp utp pref t s s' -> incl (map (kaddr addr) (Known s)) (map (kaddr addr) (Known s')).
Proof.
  intros (_ & _ & _ & _ & A5 & _) a I. apply in_map_iff in I as (k & <- & I). apply In_nth_error in I as (i & K).
  destruct (A5 i k K) as [Q|(_ & Q & _)]; apply nth_error_In in Q; [now apply in_map|]. change (kaddr addr k) with (kaddr addr (trying addr k t)). now apply in_map.
Qed.

Lemma next_addrs tcp utp pref s t s' : connectNext addr emptyAddr tcp utp pref s t = Ok s' -> incl (map (kaddr addr) (Known s)) (map (kaddr addr) (Known s')).
Proof.
  intros H. unfold connectNext in H. destruct (_ || _ || _) eqn:G; [injection H as <-; apply incl_refl|].
  destruct (connectLoop _ _ _ _ _ _ s _ t) as [[s1 c1]|] eqn:E; [|discriminate]. cbn in H. injection H as <-. apply orb_false_elim in G as [_ G]. apply (loop_after addr addrEq) in E; [|lia]. eapply after_addrs, E.
Qed.

Lemma same_addrs k k' : same addr k k' -> incl (map (kaddr addr) k) (map (kaddr addr) k').
Proof.
  intros S a I. apply in_map_iff in I as (q & <- & I). apply In_nth_error in I as (i & K). specialize (S i). rewrite K in S. destruct (nth_error k' i) as [q'|] eqn:Q; [|contradiction].
  destruct S as [<- _]. apply in_map. eapply nth_error_In, Q.
Qed.

Lemma upd_addrs k i q q' : nth_error k i = Some q -> kaddr addr q' = kaddr addr q -> incl (map (kaddr addr) k) (map (kaddr addr) (upd i q' k)).
Proof.
  intros Q E a I. apply in_map_iff in I as (r & <- & I). apply In_nth_error in I as (j & K). destruct (Nat.eqb_spec j i) as [->|N].
  - assert (r = q) as -> by congruence. rewrite <- E. apply in_map. apply nth_error_In with i. rewrite nth_error_upd, Nat.eqb_refl.
    assert (Nat.ltb i (length k) = true) as -> by (apply Nat.ltb_lt, nth_error_Some; congruence). reflexivity.
  - apply in_map. apply nth_error_In with j. rewrite nth_error_upd. destruct (Nat.eqb_spec j i); [contradiction|exact K].
Qed.

Lemma placed_addrs s k l src : incl (map (kaddr addr) k ++ map (kaddr addr) l) (map (kaddr addr) (Known (placed addr s k l src))).
Proof.
  intros a I. unfold placed. destruct (_ && _); cbn [setA setK setCur pknown]; rewrite !map_app; [|exact I]. apply in_app_or in I as [I|I]; [|apply in_or_app; right; apply in_or_app; now left].
  rewrite <- (firstn_skipn (pcur addr s) k), map_app in I. apply in_app_or in I as [I|I]; apply in_or_app; [now left|right]. apply in_or_app. now right.
Qed.

Lemma onKnown_addrs s c f s' : rinv addr s -> (forall k, kaddr addr (f k) = kaddr addr k) -> onKnown addr s c f = Ok s' -> incl (map (kaddr addr) (Known s)) (map (kaddr addr) (Known s')).
Proof.
  intros R F E. destruct (onKnown_ok addr addrEq emptyAddr true true true s c f R) as (s1 & E1 & _ & _ & D). rewrite E in E1. injection E1 as <-. destruct D as [-> |(j & x & k & _ & _ & K & ->)]; [apply incl_refl|].
  cbn. apply upd_addrs with k; [exact K|apply F].
Qed.

Theorem C43_never_forgotten : forall tcp utp pref s e s', reachable tcp utp pref s -> flagsOk addr e -> step tcp utp pref s e = Ok s' ->
  incl (map (kaddr addr) (Known s)) (map (kaddr addr) (Known s')).
Proof.
  intros tcp utp pref s e s' RE F H. pose proof (reach_rinv _ _ _ _ RE) as R. unfold step in H. destruct e as [t| |t| |t|m|a hp t|a|c u|c|c t|ps src fl t]; cbn [pstep] in H.
  - exact (next_addrs _ _ _ _ _ _ H).
  - destruct (stopPeers_ok addr addrEq emptyAddr true true true s R) as (k & E & EL & Q). rewrite H in E. injection E as ->. cbn. intros a I. apply in_map_iff in I as (q & <- & I). apply In_nth_error in I as (i & K).
    assert (L : (i < length k)%nat) by (rewrite EL; apply nth_error_Some; congruence). destruct (nth_error k i) as [q'|] eqn:Q'; [|apply nth_error_None in Q'; lia].
    destruct (Q i q' Q') as (q0 & K0 & D). assert (q0 = q) as -> by congruence. assert (kaddr addr q' = kaddr addr q) as <- by (destruct D as [->|[-> _]]; reflexivity). apply in_map. eapply nth_error_In, Q'.
  - destruct (pconnecting addr s); [injection H as <-; apply incl_refl|]. exact (next_addrs _ _ _ _ _ _ H).
  - injection H as <-. apply incl_refl.
  - exact (next_addrs _ _ _ _ _ _ H).
  - injection H as <-. apply incl_refl.
  - unfold connectAddr in H. destruct (negb _); [injection H as <-; apply incl_refl|]. destruct (activeTo _ _ _ _); [injection H as <-; apply incl_refl|].
    destruct (findKnown _ _ a _) as [i|].
    + unfold connectIdx in H. destruct (nth_error (Known s) i) as [k|] eqn:K; [|discriminate]. destruct (kunwanted addr k); injection H as <-; [apply incl_refl|]. cbn. apply upd_addrs with k; [exact K|reflexivity].
    + unfold connectIdx in H. cbn [setK pknown] in H. rewrite nth_error_app2, Nat.sub_diag in H by lia. cbn [nth_error newKnown kunwanted] in H. injection H as <-. cbn.
      eapply incl_tran; [|apply upd_addrs with (newKnown addr a SrcManual 0); [rewrite nth_error_app2, Nat.sub_diag by lia; reflexivity|reflexivity]]. rewrite map_app. now apply incl_appl, incl_refl.
  - injection H as <-. cbn. rewrite map_app. now apply incl_appl, incl_refl.
  - eapply onKnown_addrs; [exact R| |exact H]. intros k. destruct u; reflexivity.
  - eapply onKnown_addrs; [exact R| |exact H]. reflexivity.
  - unfold connectionClosed, removePeer in H. destruct (findActive _ _ _) as [j|]; [|cbn [bind] in H; exact (next_addrs _ _ _ _ _ _ H)].
    match type of H with context [onKnown addr s c ?g] => set (f := g) in H end. destruct (onKnown addr s c f) as [s1|] eqn:E; [|discriminate]. cbn [bind] in H. apply next_addrs in H. cbn in H.
    eapply incl_tran; [|exact H]. apply (onKnown_addrs s c f s1 R); [reflexivity|exact E].
  - assert (F' : match fl with None => True | Some f => (length ps <= length f)%nat end) by (destruct fl; exact F || exact I).
    destruct (updateKnown_eq addr addrEq emptyAddr tcp utp pref s ps src fl t R F') as (k & news & l & SC & FR & LK & LL & D). apply (scan_same addr addrEq emptyAddr true true true), same_addrs in SC.
    destruct D as [[_ E]|[NE E]]; rewrite H in E; [injection E as ->; exact SC|]. symmetry in E. apply next_addrs in E. eapply incl_tran; [exact SC|]. eapply incl_tran; [|exact E].
    eapply incl_tran; [|apply placed_addrs]. now apply incl_appl, incl_refl.
Qed.
Print Assumptions C43_never_forgotten.

(** Every peer found is known afterwards. *)
Lemma scan_all ps : forall i fl k news k' news' all, scan addr addrEq ps i fl k news = Ok (k', news') -> (forall j, nth_error ps j = nth_error all (i + j)) ->
  incl news news' /\ forall a, In a ps -> (exists q, In q k' /\ addrEq (kaddr addr q) a = true) \/ exists j, In j news' /\ nth_error all j = Some a.
Proof.
  induction ps as [|a ps IH]; intros i fl k news k' news' all H N; cbn in H; [injection H as <- <-; split; [apply incl_refl|easy]|].
  assert (N' : forall j, nth_error ps j = nth_error all (S i + j)) by (intros j; rewrite (N (S j) : nth_error ps j = _); f_equal; lia).
  assert (NA : nth_error all i = Some a) by (rewrite <- (Nat.add_0_r i), <- (N O); reflexivity).
  destruct (findKnown addr addrEq a k) as [j|] eqn:E.
  - destruct (findKnown_some addr addrEq emptyAddr true true true _ _ _ E) as (q & Q & QA).
    assert (G : forall k1, same addr k k1 -> scan addr addrEq ps (S i) fl k1 news = Ok (k', news') -> incl news news' /\ forall b, In b (a :: ps) -> (exists q, In q k' /\ addrEq (kaddr addr q) b = true) \/ exists j, In j news' /\ nth_error all j = Some b).
    { intros k1 S1 H1. destruct (IH _ _ _ _ _ _ all H1 N') as [I1 I2]. split; [exact I1|]. intros b [<-|B]; [|now apply I2]. left.
      assert (S2 : same addr k k') by (eapply (same_trans addr addrEq emptyAddr true true true); [exact S1|exact (scan_same addr addrEq emptyAddr true true true _ _ _ _ _ _ _ H1)]). specialize (S2 j). rewrite Q in S2. destruct (nth_error k' j) as [q'|] eqn:Q'; [|contradiction]. exists q'. split; [eapply nth_error_In, Q'|]. destruct S2 as [-> _]. exact QA. }
    destruct fl as [f|]; [|apply (G k); [apply (same_refl addr addrEq emptyAddr true true true)|exact H]]. destruct (nth_error f i); [|discriminate]. rewrite Q in H. eapply G; [|exact H]. apply (same_upd addr addrEq emptyAddr true true true) with q; [exact Q|reflexivity|reflexivity].
  - destruct (IH _ _ _ _ _ _ all H N') as [I1 I2]. split; [intros j J; apply I1, in_or_app; now left|]. intros b [<-|B]; [|now apply I2]. right. exists i. split; [|exact NA]. apply I1, in_or_app. right. now left.
Qed.

Lemma fresh_in ps src fl news : forall l, fresh addr ps src fl news = Ok l -> forall j a, In j news -> nth_error ps j = Some a -> In a (map (kaddr addr) l).
Proof.
  induction news as [|i r IH]; intros l H j a J E; [destruct J|]. cbn in H. destruct (nth_error ps i) as [b|] eqn:B; [|discriminate]. destruct (match fl with None => _ | Some _ => _ end); [|discriminate].
  destruct (fresh addr ps src fl r) as [l'|]; [|discriminate]. cbn in H. injection H as <-. destruct J as [<-|J]; [left; cbn; congruence|right; now apply (IH l' eq_refl j)].
Qed.

Theorem C43_found : forall tcp utp pref s ps src fl t s', reachable tcp utp pref s -> flagsOk addr (PFound addr ps src fl t) -> (forall a, In a ps -> addr_ok a) ->
  step tcp utp pref s (PFound addr ps src fl t) = Ok s' -> forall a, In a ps -> exists b, In b (map (kaddr addr) (Known s')) /\ addrEq b a = true.
Proof.
  intros tcp utp pref s ps src fl t s' RE F OK H a IA. pose proof (reach_rinv _ _ _ _ RE) as R. unfold step in H. cbn [pstep] in H.
  assert (F' : match fl with None => True | Some f => (length ps <= length f)%nat end) by (destruct fl; exact F || exact I).
  destruct (updateKnown_eq addr addrEq emptyAddr tcp utp pref s ps src fl t R F') as (k & news & l & SC & FR & LK & LL & D).
  destruct (scan_all ps 0 fl (Known s) [] k news ps SC ltac:(reflexivity)) as [_ G].
  destruct (G a IA) as [(q & Q & QA)|(j & J & E)].
  - exists (kaddr addr q). split; [|exact QA]. destruct D as [[_ E]|[NE E]]; rewrite H in E; [injection E as ->; cbn; now apply in_map|]. symmetry in E. apply next_addrs in E. apply E, placed_addrs, in_or_app. left. now apply in_map.
  - exists a. split; [|apply addrEq_family; auto]. destruct D as [[-> _]|[NE E']]; [destruct J|]. rewrite H in E'. symmetry in E'. apply next_addrs in E'. apply E', placed_addrs, in_or_app. right. eapply fresh_in; eassumption.
Qed.
Print Assumptions C43_found.

(** ** What goes wrong *)

(** A tracker's reply with one address twice: two known peers, and two connections to it. *)
Theorem C43_twice_refuted : match run true true false (newPeers addr 5) [PStart addr 100; PStartConnecting addr 100; PFound addr [v4 1 1; v4 1 1] SrcTracker None 100] with
  | Ok s => map (aaddr addr) (Active s) = [v4 1 1; v4 1 1] | UB => False end.
Proof. vm_compute. reflexivity. Qed.
Print Assumptions C43_twice_refuted.

(** An unwanted peer that connected itself and comes again is a new known peer: it is contacted
    after that although its address is marked unwanted. *)
Theorem C43_unwanted_refuted : match run true true false (newPeers addr 5)
    [PStart addr 100; PRemote addr (v4 1 1); PDisconnect addr 0 true; PClosed addr 0 101; PRemote addr (v4 1 1); PClosed addr 1 102; PStartConnecting addr 200] with
  | Ok s => map (fun k => (kaddr addr k, kunwanted addr k)) (Known s) = [(v4 1 1, true); (v4 1 1, false)] /\ map (aaddr addr) (Active s) = [v4 1 1] | UB => False end.
Proof. vm_compute. auto. Qed.
Print Assumptions C43_unwanted_refuted.

(** With uTP switched off a hole-punch connect opens no stream; two such messages give one known
    peer two connections, and when the first is closed the peer counts as disconnected while
    the second lives: it is contacted again. *)
Theorem C43_holepunch_refuted : match run true false false (newPeers addr 5) [PStart addr 100; PConnect addr (v4 1 1) true 100; PConnect addr (v4 1 1) true 100; PClosed addr 0 101] with
  | Ok s => map Idx (Active s) = [0%nat] /\ map (kst addr) (Known s) = [PDisconnected] | UB => False end.
Proof. vm_compute. auto. Qed.
Print Assumptions C43_holepunch_refuted.

(** An IPv6 peer whose address begins with the four bytes of a known IPv4 peer of the same port
    is taken for it and not added. *)
Theorem C43_families_refuted : let six := {| addrBytes := [10;0;0;1;0;0;0;0;0;0;0;0;0;0;0;9]; port := 1; ipv6 := true |} in
  match run true true false (newPeers addr 5) [PFound addr [v4 1 1; six] SrcTracker None 100; PFound addr [six] SrcTracker None 101; PFound addr [v4 2 1] SrcTracker None 102] with
  | Ok s => map (kaddr addr) (Known s) = [v4 1 1; six; v4 2 1] | UB => False end /\
  match run true true false (newPeers addr 5) [PFound addr [v4 1 1] SrcTracker None 100; PFound addr [six] SrcTracker None 101] with
  | Ok s => map (kaddr addr) (Known s) = [v4 1 1] | UB => False end.
Proof. vm_compute. auto. Qed.
Print Assumptions C43_families_refuted.
