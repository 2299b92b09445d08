(** Proofs about the known peers and the live connections. *)
From Coq Require Import FinFun.
From Verif Require Import Base BaseLemmas PeersModel.

Lemma NoDup_app2 {B} (l l' : list B) : NoDup l -> NoDup l' -> (forall x, In x l -> ~ In x l') -> NoDup (l ++ l').
Proof.
  intros H H' D. induction l as [|x l IH]; cbn [app]; [exact H'|]. inversion H; subst. constructor; [|apply IH; [assumption|]; intros y Y; apply D; now right].
  rewrite in_app_iff. intros [I|I]; [contradiction|]. apply (D x); [now left|exact I].
Qed.

Lemma nth_error_insert {B} (k l : list B) c i : (c <= length k)%nat ->
  nth_error (firstn c k ++ l ++ skipn c k) i = if Nat.ltb i c then nth_error k i else if Nat.ltb i (c + length l) then nth_error l (i - c) else nth_error k (i - length l).
Proof.
  intros L. assert (F : length (firstn c k) = c) by (rewrite firstn_length; lia). destruct (Nat.ltb_spec i c).
  - rewrite nth_error_app1 by lia. rewrite <- (firstn_skipn c k) at 2. now rewrite nth_error_app1 by lia.
  - rewrite nth_error_app2, F by lia. destruct (Nat.ltb_spec i (c + length l)); [now rewrite nth_error_app1 by lia|]. rewrite nth_error_app2 by lia.
    rewrite <- (firstn_skipn c k) at 2. rewrite nth_error_app2, F by lia. f_equal. lia.
Qed.

Lemma remove_split {B} j (l : list B) x : nth_error l j = Some x -> exists l1 l2, l = l1 ++ x :: l2 /\ remove j l = l1 ++ l2.
Proof.
  intros H. exists (firstn j l), (skipn (S j) l). split; [|reflexivity]. rewrite <- (firstn_skipn j l) at 1. f_equal. revert j H. induction l as [|y l IH]; intros [|j] H; cbn in *; try discriminate; [congruence|now apply IH].
Qed.

Lemma remove_In {B} i (l : list B) x : In x (remove i l) -> In x l.
Proof.
  unfold remove. intros I. apply in_app_or in I as [I|I]; [now apply firstn_subset in I || (rewrite <- (firstn_skipn i l); apply in_or_app; now left)|].
  rewrite <- (firstn_skipn (S i) l). apply in_or_app. now right.
Qed.

Set Default Proof Using "All".
Section P.
Variable A : Type.
Variable addrEq : A -> A -> bool.
Variable noAddr : A.
Variables tcpOut utpOut preferUtp : bool.

Notation peers := (peers A).
Notation known := (known A).
Notation active := (active A).
Notation openTo := (openTo A noAddr tcpOut utpOut preferUtp).
Notation streamAddr := (streamAddr A noAddr tcpOut utpOut preferUtp).
Notation connectLoop := (connectLoop A noAddr tcpOut utpOut preferUtp).
Notation connectNext := (connectNext A noAddr tcpOut utpOut preferUtp).
Notation connectIdx := (connectIdx A noAddr tcpOut utpOut preferUtp).
Notation connectAddr := (connectAddr A addrEq noAddr tcpOut utpOut preferUtp).
Notation updateKnown := (updateKnown A addrEq noAddr tcpOut utpOut preferUtp).
Notation connectionClosed := (connectionClosed A noAddr tcpOut utpOut preferUtp).
Notation pstep := (pstep A addrEq noAddr tcpOut utpOut preferUtp).
Notation prun := (prun A addrEq noAddr tcpOut utpOut preferUtp).
Notation scan := (scan A addrEq).
Notation findKnown := (findKnown A addrEq).
Notation kst := (kst A).
Notation kaddr := (kaddr A).
Notation pknown := (pknown A).
Notation pactive := (pactive A).
Notation pcur := (pcur A).
Notation pmax := (pmax A).
Notation aidx := (aidx A).
Notation aaddr := (aaddr A).

(** ** Indices *)

Definition curOk (n c : nat) : Prop := (c < n)%nat \/ (n = O /\ c = O).
Definition rinv (s : peers) : Prop := (forall x, In x (pactive s) -> (aidx x < length (pknown s))%nat) /\ curOk (length (pknown s)) (pcur s).

(** One turn of the loop. *)
Definition turn (s : peers) (count t : Z) (k : known) : peers * Z :=
  let '(s1, count1) := if eligible A k t then (openTo (setK A s (upd (pcur s) (trying A k t) (pknown s))) (kaddr k) (pcur s) false, count - 1) else (s, count) in
  (setCur A s1 (if Nat.eqb (S (pcur s1)) (length (pknown s1)) then O else S (pcur s1)), count1).

Lemma loop_S n s count t : connectLoop (S n) s count t =
  if count =? 0 then Ok (s, count) else match nth_error (pknown s) (pcur s) with None => UB | Some k => connectLoop n (fst (turn s count t k)) (snd (turn s count t k)) t end.
Proof.
  cbn [PeersModel.connectLoop]. destruct (count =? 0); [reflexivity|]. destruct (nth_error _ _) as [k|]; [|reflexivity]. unfold turn. destruct (eligible A k t); reflexivity.
Qed.

Lemma turn_len s count t k : length (pknown (fst (turn s count t k))) = length (pknown s).
Proof. unfold turn. destruct (eligible A k t); cbn; [apply upd_length|reflexivity]. Qed.

Lemma turn_cur s count t k : pcur (fst (turn s count t k)) = if Nat.eqb (S (pcur s)) (length (pknown s)) then O else S (pcur s).
Proof. unfold turn. destruct (eligible A k t); cbn; rewrite ?upd_length; reflexivity. Qed.

Lemma turn_rinv s count t k : rinv s -> nth_error (pknown s) (pcur s) = Some k -> rinv (fst (turn s count t k)).
Proof.
  intros [R C] K. assert (L : (pcur s < length (pknown s))%nat) by (apply nth_error_Some; congruence). unfold rinv. rewrite turn_len, turn_cur. split.
  - intros x I. unfold turn in I. destruct (eligible A k t); cbn in I; [|now apply R]. apply in_app_or in I as [I|[<-|[]]]; [now apply R|]. cbn. exact L.
  - destruct (Nat.eqb_spec (S (pcur s)) (length (pknown s))); unfold curOk; [left; lia|left; lia].
Qed.

Lemma loop_ok n : forall s count t, rinv s -> (n <= length (pknown s))%nat -> exists s' c', connectLoop n s count t = Ok (s', c') /\ rinv s' /\ length (pknown s') = length (pknown s).
Proof.
  induction n as [|n IH]; intros s count t R L; [exists s, count; auto|]. rewrite loop_S. destruct (count =? 0); [exists s, count; auto|].
  assert (C : (pcur s < length (pknown s))%nat) by (destruct R as [_ [C|[C _]]]; lia).
  destruct (nth_error (pknown s) (pcur s)) as [k|] eqn:K; [|apply nth_error_None in K; lia].
  destruct (IH (fst (turn s count t k)) (snd (turn s count t k)) t) as (s' & c' & E & R' & L'); [now apply turn_rinv|rewrite turn_len; lia|].
  exists s', c'. rewrite turn_len in L'. auto.
Qed.

Lemma next_ok s t : rinv s -> exists s', connectNext s t = Ok s' /\ rinv s'.
Proof.
  intros R. unfold PeersModel.connectNext. destruct (_ || _ || _); [exists s; auto|].
  destruct (loop_ok (length (pknown s)) s (pmax s - zlen (pactive s)) t R (le_n _)) as (s' & c' & E & R' & _). rewrite E. cbn [bind fst]. exists s'. auto.
Qed.

Lemma findKnown_some a l : forall i, findKnown a l = Some i -> exists k, nth_error l i = Some k /\ addrEq (kaddr k) a = true.
Proof.
  induction l as [|k l IH]; intros i H; [discriminate|]. cbn in H. destruct (addrEq (kaddr k) a) eqn:E; [injection H as <-; exists k; auto|].
  destruct (findKnown a l) as [j|]; [|discriminate]. injection H as <-. now apply IH.
Qed.

Lemma findKnown_none a l : findKnown a l = None -> forall k, In k l -> addrEq (kaddr k) a = false.
Proof.
  induction l as [|k l IH]; intros H q I; [destruct I|]. cbn in H. destruct (addrEq (kaddr k) a) eqn:E; [discriminate|]. destruct (findKnown a l); [discriminate|].
  destruct I as [<-|I]; [exact E|now apply IH].
Qed.

Lemma findActive_some c l : forall j, findActive A c l = Some j -> exists x, nth_error l j = Some x /\ acomm A x = c.
Proof.
  induction l as [|k l IH]; intros i H; [discriminate|]. cbn in H. destruct (acomm A k =? c) eqn:E; [injection H as <-; exists k; split; [reflexivity|lia]|].
  destruct (findActive A c l) as [j|]; [|discriminate]. injection H as <-. now apply IH.
Qed.

Lemma onKnown_ok s c f : rinv s -> exists s', onKnown A s c f = Ok s' /\ pactive s' = pactive s /\ pcur s' = pcur s /\
  (s' = s \/ exists j x k, findActive A c (pactive s) = Some j /\ nth_error (pactive s) j = Some x /\ nth_error (pknown s) (aidx x) = Some k /\ s' = setK A s (upd (aidx x) (f k) (pknown s))).
Proof.
  intros [R _]. unfold onKnown. destruct (findActive A c (pactive s)) as [j|] eqn:F; [|exists s; auto]. destruct (findActive_some _ _ _ F) as (x & X & _). rewrite X.
  pose proof (R x (nth_error_In _ _ X)) as L. destruct (nth_error (pknown s) (aidx x)) as [k|] eqn:K; [|apply nth_error_None in K; lia].
  eexists. split; [reflexivity|]. refine (conj eq_refl (conj eq_refl _)). right. exists j, x, k. auto.
Qed.

Lemma onKnown_rinv s c f s' : rinv s -> onKnown A s c f = Ok s' -> rinv s'.
Proof.
  intros R E. destruct (onKnown_ok s c f R) as (s1 & E1 & PA & PC & D). rewrite E in E1. injection E1 as <-. destruct D as [-> |(j & x & k & _ & _ & _ & ->)]; [exact R|].
  destruct R as [R C]. unfold rinv. cbn [setK PeersModel.pknown PeersModel.pactive PeersModel.pcur]. rewrite upd_length. now split.
Qed.

Lemma scan_len ps : forall i fl k news k' news', scan ps i fl k news = Ok (k', news') -> length k' = length k.
Proof.
  induction ps as [|a ps IH]; intros i fl k news k' news' H; cbn in H; [injection H as <- <-; reflexivity|].
  destruct (findKnown a k) as [j|]; [|eapply IH; exact H]. destruct fl as [f|]; [|eapply IH; exact H].
  destruct (nth_error f i); [|discriminate]. destruct (nth_error k j); [|discriminate]. apply IH in H. now rewrite upd_length in H.
Qed.

Lemma scan_ok ps : forall i fl k news, (match fl with None => True | Some f => (i + length ps <= length f)%nat end) -> (forall j, In j news -> (j < i)%nat) ->
  exists k' news', scan ps i fl k news = Ok (k', news') /\ (forall j, In j news' -> (j < i + length ps)%nat).
Proof.
  induction ps as [|a ps IH]; intros i fl k news F N; cbn [PeersModel.scan length]; [exists k, news; split; [reflexivity|]; intros j J; specialize (N j J); lia|].
  cbn [length] in F. assert (F' : match fl with None => True | Some f => (S i + length ps <= length f)%nat end) by (destruct fl; [lia|exact I]).
  replace (i + S (length ps))%nat with (S i + length ps)%nat by lia.
  destruct (findKnown a k) as [j|] eqn:E.
  - destruct fl as [f|]; [|apply IH; [exact F'|intros q Q; specialize (N q Q); lia]]. destruct (nth_error f i) eqn:X; [|apply nth_error_None in X; lia].
    destruct (findKnown_some _ _ _ E) as (q & Q & _). rewrite Q. apply IH; [exact F'|intros r R; specialize (N r R); lia].
  - apply IH; [exact F'|]. intros q Q. apply in_app_or in Q as [Q|[<-|[]]]; [specialize (N q Q)|]; lia.
Qed.

Lemma fresh_ok ps src fl news : (match fl with None => True | Some f => (length ps <= length f)%nat end) -> (forall j, In j news -> (j < length ps)%nat) ->
  exists l, fresh A ps src fl news = Ok l /\ length l = length news.
Proof.
  intros F. induction news as [|i r IH]; intros N; [exists []; auto|]. cbn. pose proof (N i (or_introl eq_refl)) as L.
  destruct (nth_error ps i) as [a|] eqn:X; [|apply nth_error_None in X; lia].
  assert (exists b, match fl with None => Some 0 | Some f => nth_error f i end = Some b) as (b & ->) by (destruct fl as [f|]; [|eauto]; destruct (nth_error f i) eqn:Y; [eauto|apply nth_error_None in Y; lia]).
  destruct IH as (l & -> & EL); [intros j J; apply N; now right|]. cbn [bind]. eexists. split; [reflexivity|]. cbn. lia.
Qed.

Lemma fresh_len ps src fl news : forall l, fresh A ps src fl news = Ok l -> length l = length news.
Proof.
  induction news as [|i r IH]; intros l H; cbn in H; [injection H as <-; reflexivity|]. destruct (nth_error ps i); [|discriminate]. destruct (match fl with None => _ | Some _ => _ end); [|discriminate].
  destruct (fresh A ps src fl r) as [l'|]; [|discriminate]. cbn in H. injection H as <-. cbn. f_equal. now apply IH.
Qed.

(** The lists after new peers were put in, before [connectNext]. *)
Definition placed (s : peers) (k l : list known) (src : psource) : peers :=
  if match src with SrcPex | SrcDht => true | _ => false end && negb (Nat.eqb (pcur s) 0) then
    setA A (setK A (setK A s k) (firstn (pcur s) k ++ l ++ skipn (pcur s) k))
      (map (fun x => if Nat.leb (pcur s) (aidx x) then {| acomm := acomm A x; PeersModel.aidx := (aidx x + length l)%nat; PeersModel.aaddr := aaddr x |} else x) (pactive s))
  else setCur A (setK A (setK A s k) (k ++ l)) (if Nat.eqb (pcur s) 0 then length k else pcur s).

Lemma updateKnown_eq s ps src fl t : rinv s -> (match fl with None => True | Some f => (length ps <= length f)%nat end) ->
  exists k news l, scan ps 0 fl (pknown s) [] = Ok (k, news) /\ fresh A ps src fl news = Ok l /\ length k = length (pknown s) /\ length l = length news /\
  ((news = [] /\ updateKnown s ps src fl t = Ok (setK A s k)) \/ (news <> [] /\ updateKnown s ps src fl t = connectNext (placed s k l src) t)).
Proof.
  intros [_ C] F. destruct (scan_ok ps 0 fl (pknown s) [] F ltac:(easy)) as (k & news & E & N). destruct (fresh_ok ps src fl news F N) as (l & EL & LL).
  exists k, news, l. pose proof (scan_len _ _ _ _ _ _ _ E) as LK. refine (conj E (conj EL (conj LK (conj LL _)))).
  unfold PeersModel.updateKnown. destruct ps as [|a ps]; [left; cbn in E; injection E as <- <-; split; [reflexivity|]; destruct s; reflexivity|].
  rewrite E. cbn [bind]. destruct news as [|i r]; [left; auto|right; split; [discriminate|]]. rewrite EL. cbn [bind]. unfold placed. rewrite LL.
  destruct (_ && _); [|reflexivity]. assert (Nat.ltb (length k) (pcur s) = false) as -> by (apply Nat.ltb_ge; destruct C as [C|[_ C]]; lia). reflexivity.
Qed.

Lemma placed_len s k l src : length (pknown (placed s k l src)) = (length k + length l)%nat.
Proof.
  unfold placed. destruct (_ && _); cbn [setA setK setCur PeersModel.pknown]; rewrite !app_length; [|lia]. rewrite <- (firstn_skipn (pcur s) k) at 3. rewrite app_length. lia.
Qed.

Lemma placed_rinv s k l src : rinv s -> length k = length (pknown s) -> l <> [] -> rinv (placed s k l src).
Proof.
  intros [R C] LK NE. assert (LL : (0 < length l)%nat) by (destruct l; [congruence|cbn; lia]). unfold rinv. rewrite placed_len. unfold placed. destruct (_ && _).
  - split; [|unfold curOk; cbn [setA setK PeersModel.pcur]; left; destruct C; lia]. cbn [setA setK PeersModel.pactive]. intros x I. apply in_map_iff in I as (y & <- & I). specialize (R y I).
    destruct (Nat.leb _ _); cbn [PeersModel.aidx]; lia.
  - split; [intros x I; specialize (R x I); lia|]. unfold curOk. cbn [setCur PeersModel.pcur]. left. destruct (Nat.eqb_spec (pcur s) 0); [lia|destruct C; lia].
Qed.

Lemma stopPeers_ok s : rinv s -> exists k, stopPeers A s = Ok (setRun A (setA A (setK A s k) []) false false) /\ length k = length (pknown s) /\
  (forall i q', nth_error k i = Some q' -> exists q, nth_error (pknown s) i = Some q /\ (q' = setSt A q PDisconnected \/ q' = q /\ ~ In i (map aidx (pactive s)))).
Proof.
  intros [R _]. unfold stopPeers.
  assert (G : forall l k, (forall x, In x l -> (aidx x < length k)%nat) -> exists k',
    fold_left (fun r x => bind r (fun k => match nth_error k (aidx x) with None => UB | Some q => Ok (upd (aidx x) (setSt A q PDisconnected) k) end)) l (Ok k) = Ok k' /\
    length k' = length k /\ (forall i q', nth_error k' i = Some q' -> exists q, nth_error k i = Some q /\ (q' = setSt A q PDisconnected \/ q' = q /\ ~ In i (map aidx l)))).
  { intros l. induction l as [|x l IH]; intros k H; [exists k; cbn; refine (conj eq_refl (conj eq_refl _)); intros i q Q; exists q; auto|]. cbn [fold_left bind]. pose proof (H x (or_introl eq_refl)) as L.
    destruct (nth_error k (aidx x)) as [q|] eqn:Q; [|apply nth_error_None in Q; lia].
    destruct (IH (upd (aidx x) (setSt A q PDisconnected) k)) as (k' & E & EL & P); [intros y Y; rewrite upd_length; apply H; now right|]. exists k'. rewrite upd_length in EL. refine (conj E (conj EL _)).
    intros i q' Hq. destruct (P i q' Hq) as (q1 & Q1 & D). rewrite nth_error_upd in Q1. destruct (Nat.eqb_spec i (aidx x)) as [->|N].
    - exists q. split; [exact Q|]. left. assert (q1 = setSt A q PDisconnected) as -> by (destruct (Nat.ltb_spec (aidx x) (length k)); cbn in Q1; [congruence|lia]). destruct D as [->|[-> _]]; reflexivity.
    - cbn [andb] in Q1. exists q1. split; [exact Q1|]. destruct D as [D|[D1 D2]]; [auto|right]. split; [exact D1|]. cbn [map]. intros [X|X]; [congruence|contradiction]. }
  destruct (G (pactive s) (pknown s) R) as (k & E & EL & P). exists k. rewrite E. cbn [bind]. auto.
Qed.

Definition flagsOk (e : pevent A) : Prop := match e with PFound _ ps _ (Some f) _ => (length ps <= length f)%nat | _ => True end.

Lemma connectIdx_ok s a i hp t : rinv s -> (i < length (pknown s))%nat -> exists s', connectIdx s a i hp t = Ok s' /\ rinv s'.
Proof.
  intros [R C] L. unfold PeersModel.connectIdx. destruct (nth_error (pknown s) i) as [k|] eqn:K; [|apply nth_error_None in K; lia].
  destruct (kunwanted A k); eexists; (split; [reflexivity|]); [now split|]. unfold rinv. cbn [PeersModel.openTo setK PeersModel.pactive PeersModel.pknown PeersModel.pcur]. rewrite upd_length. split; [|exact C].
  intros x I. apply in_app_or in I as [I|[<-|[]]]; [now apply R|exact L].
Qed.

Lemma rinv_grow s k : rinv s -> rinv (setK A s (pknown s ++ [k])).
Proof.
  intros [R C]. unfold rinv. cbn [setK PeersModel.pactive PeersModel.pknown PeersModel.pcur]. rewrite app_length. cbn [length]. split; [intros x I; specialize (R x I); lia|left; destruct C; lia].
Qed.

Lemma pstep_ok s e : rinv s -> flagsOk e -> exists s', pstep s e = Ok s' /\ rinv s'.
Proof.
  intros R F. destruct e as [t| |t| |t|m|a hp t|a|c u|c|c t|ps src fl t]; cbn [PeersModel.pstep].
  - now apply next_ok.
  - destruct (stopPeers_ok s R) as (k & E & EL & _). rewrite E. eexists. split; [reflexivity|]. destruct R as [_ C]. unfold rinv. cbn. rewrite EL. split; [easy|exact C].
  - destruct (pconnecting A s); [exists s; auto|]. now apply next_ok.
  - eexists. split; [reflexivity|exact R].
  - now apply next_ok.
  - eexists. split; [reflexivity|exact R].
  - unfold PeersModel.connectAddr. destruct (negb _); [exists s; auto|]. destruct (activeTo A addrEq s a); [exists s; auto|].
    destruct (findKnown a (pknown s)) as [i|] eqn:E.
    + destruct (findKnown_some _ _ _ E) as (k & K & _). apply connectIdx_ok; [exact R|]. apply nth_error_Some. congruence.
    + apply connectIdx_ok; [now apply rinv_grow|]. cbn. rewrite app_length. cbn. lia.
  - eexists. split; [reflexivity|]. destruct R as [R C]. unfold rinv. cbn. rewrite app_length. cbn [length]. split.
    + intros x I. apply in_app_or in I as [I|[<-|[]]]; [specialize (R x I); lia|cbn; lia].
    + left. destruct C; lia.
  - unfold disconnectPeer. destruct (onKnown_ok s c (fun k => if u then {| PeersModel.kaddr := kaddr k; ksource := ksource A k; kflags := kflags A k; kunwanted := true; PeersModel.kst := kst k; ktime := ktime A k; ktries := ktries A k |} else k) R) as (s' & E & _).
    exists s'. split; [exact E|]. eapply onKnown_rinv; eassumption.
  - unfold handshakeFinished. destruct (onKnown_ok s c (fun k => setSt A k PConnected) R) as (s' & E & _). exists s'. split; [exact E|]. eapply onKnown_rinv; eassumption.
  - unfold PeersModel.connectionClosed, removePeer. destruct (findActive A c (pactive s)) as [j|] eqn:FA; [|cbn [bind]; now apply next_ok]. match goal with |- context [onKnown A s c ?g] => set (f := g) end.
    destruct (onKnown_ok s c f R) as (s1 & E & PA & _). rewrite E. cbn [bind]. apply next_ok. pose proof (onKnown_rinv s c f s1 R E) as [R1 C1]. unfold rinv. cbn. split; [|exact C1].
    intros x I. apply R1. eapply remove_In, I.
  - assert (F' : match fl with None => True | Some f => (length ps <= length f)%nat end) by (destruct fl; exact F || exact I).
    destruct (updateKnown_eq s ps src fl t R F') as (k & news & l & _ & _ & LK & LL & [[_ ->]|[NE ->]]).
    + eexists. split; [reflexivity|]. destruct R as [R C]. unfold rinv. cbn. rewrite LK. now split.
    + apply next_ok. apply placed_rinv; [exact R|exact LK|]. intros ->. destruct news; [congruence|discriminate].
Qed.

Lemma prun_ok es : forall s, rinv s -> (forall e, In e es -> flagsOk e) -> exists s', prun s es = Ok s' /\ rinv s'.
Proof.
  induction es as [|e es IH]; intros s R F; [exists s; auto|]. destruct (pstep_ok s e R (F e (or_introl eq_refl))) as (s1 & E & R1). cbn [PeersModel.prun]. rewrite E. cbn [bind].
  apply IH; [exact R1|]. intros e' I. apply F. now right.
Qed.

(** ** What [connectNext] does *)

(** Known peers only change from eligible to connecting, new connections are to eligible ones. *)
Definition after (t : Z) (s s' : peers) : Prop :=
  length (pknown s') = length (pknown s) /\ pconnecting A s' = pconnecting A s /\ prunning A s' = prunning A s /\ pmax s' = pmax s /\
  (forall i k, nth_error (pknown s) i = Some k -> nth_error (pknown s') i = Some k \/ (eligible A k t = true /\ nth_error (pknown s') i = Some (trying A k t) /\ In i (map aidx (pactive s')))) /\
  exists news, pactive s' = pactive s ++ news /\ NoDup (map aidx news) /\
    forall x, In x news -> exists k, nth_error (pknown s) (aidx x) = Some k /\ eligible A k t = true /\ nth_error (pknown s') (aidx x) = Some (trying A k t) /\ aaddr x = streamAddr false (kaddr k).

Lemma after_refl t s : after t s s.
Proof. refine (conj eq_refl (conj eq_refl (conj eq_refl (conj eq_refl (conj _ _))))); [auto|]. exists []. rewrite app_nil_r. refine (conj eq_refl (conj _ _)); [constructor|easy]. Qed.

Lemma eligible_trying k t : eligible A (trying A k t) t = false.
Proof. reflexivity. Qed.

Lemma turn_after s count t k : nth_error (pknown s) (pcur s) = Some k -> after t s (fst (turn s count t k)).
Proof.
  intros K. assert (L : (pcur s < length (pknown s))%nat) by (apply nth_error_Some; congruence). unfold turn. destruct (eligible A k t) eqn:E; cbn [fst].
  - unfold after. cbn [setCur PeersModel.openTo setK PeersModel.pknown PeersModel.pactive pconnecting prunning PeersModel.pmax]. rewrite upd_length.
    refine (conj eq_refl (conj eq_refl (conj eq_refl (conj eq_refl (conj _ _))))).
    + intros i q Q. rewrite nth_error_upd. destruct (Nat.eqb_spec i (pcur s)) as [->|N]; [|now left]. right. assert (q = k) as -> by congruence.
      assert (Nat.ltb (pcur s) (length (pknown s)) = true) as -> by now apply Nat.ltb_lt. cbn [andb]. refine (conj E (conj eq_refl _)). rewrite map_app. apply in_or_app. right. now left.
    + eexists. refine (conj eq_refl (conj _ _)); [constructor; [easy|constructor]|]. intros x [<-|[]]. cbn [PeersModel.aidx PeersModel.aaddr]. exists k. refine (conj K (conj E (conj _ eq_refl))).
      rewrite nth_error_upd, Nat.eqb_refl. assert (Nat.ltb (pcur s) (length (pknown s)) = true) as -> by now apply Nat.ltb_lt. reflexivity.
  - apply (after_refl t s).
Qed.

Lemma after_trans t s1 s2 s3 : after t s1 s2 -> after t s2 s3 -> after t s1 s3.
Proof.
  intros (A1 & A2 & A3 & A4 & A5 & n1 & A6 & A7 & A8) (B1 & B2 & B3 & B4 & B5 & n2 & B6 & B7 & B8).
  refine (conj _ (conj _ (conj _ (conj _ (conj _ _))))); try congruence.
  - intros i k K. destruct (A5 i k K) as [Q|(E & Q & I)].
    + destruct (B5 i k Q) as [Q'|(E & Q' & I)]; auto.
    + right. destruct (B5 i _ Q) as [Q'|(E' & _)]; [|rewrite eligible_trying in E'; discriminate]. refine (conj E (conj Q' _)). rewrite B6, map_app. apply in_or_app. now left.
  - exists (n1 ++ n2). rewrite B6, A6, app_assoc. refine (conj eq_refl (conj _ _)).
    + rewrite map_app. assert (D : forall i, In i (map aidx n1) -> ~ In i (map aidx n2)).
      { intros i I1 I2. apply in_map_iff in I1 as (x & <- & I1). apply in_map_iff in I2 as (y & Ey & I2). destruct (A8 x I1) as (k & _ & _ & K & _). destruct (B8 y I2) as (k' & K' & E' & _).
        rewrite Ey, K in K'. injection K' as <-. rewrite eligible_trying in E'. discriminate. }
      clear - A7 B7 D. induction (map aidx n1) as [|i l IH]; cbn [app]; [exact B7|]. inversion A7; subst. constructor; [|apply IH; [assumption|]; intros j J; apply D; now right].
      rewrite in_app_iff. intros [I|I]; [contradiction|]. apply (D i); [now left|exact I].
    + intros x I. apply in_app_or in I as [I|I].
      * destruct (A8 x I) as (k & K1 & K2 & K3 & K4). exists k. refine (conj K1 (conj K2 (conj _ K4))). destruct (B5 _ _ K3) as [Q|(E & _)]; [exact Q|rewrite eligible_trying in E; discriminate].
      * destruct (B8 x I) as (k & K1 & K2 & K3 & K4). exists k. assert (L : (aidx x < length (pknown s1))%nat) by (rewrite <- A1; apply nth_error_Some; congruence).
        destruct (nth_error (pknown s1) (aidx x)) as [k0|] eqn:Q; [|apply nth_error_None in Q; lia]. destruct (A5 _ _ Q) as [Q'|(_ & Q' & _)]; rewrite K1 in Q'; injection Q' as ->; [auto|].
        rewrite eligible_trying in K2. discriminate.
Qed.

Lemma loop_after n : forall s count t s' c', connectLoop n s count t = Ok (s', c') -> 0 <= count -> after t s s' /\ 0 <= c' /\ zlen (pactive s') - zlen (pactive s) = count - c'.
Proof.
  induction n as [|n IH]; intros s count t s' c' H C; [injection H as <- <-; refine (conj (after_refl t s) _); lia|]. rewrite loop_S in H.
  destruct (Z.eqb_spec count 0); [injection H as <- <-; refine (conj (after_refl t s) _); lia|]. destruct (nth_error (pknown s) (pcur s)) as [k|] eqn:K; [|discriminate].
  assert (T : 0 <= snd (turn s count t k) /\ zlen (pactive (fst (turn s count t k))) - zlen (pactive s) = count - snd (turn s count t k)).
  { unfold turn. destruct (eligible A k t); cbn; [rewrite zlen_app; unfold zlen; cbn|]; lia. }
  destruct (IH _ _ _ _ _ H (proj1 T)) as (F & G1 & G2). refine (conj _ (conj G1 _)); [|lia]. exact (after_trans t s _ s' (turn_after s count t k K) F).
Qed.

(** When the loop did not run out of connections every peer was looked at. *)
Lemma loop_all n : forall s count t s' c', connectLoop n s count t = Ok (s', c') -> 0 <= count -> (n <= length (pknown s))%nat -> c' <> 0 ->
  forall j k, (j < n)%nat -> nth_error (pknown s) ((pcur s + j) mod length (pknown s)) = Some k -> (pcur s < length (pknown s))%nat ->
  eligible A k t = true -> In ((pcur s + j) mod length (pknown s))%nat (map aidx (pactive s')).
Proof.
  induction n as [|n IH]; intros s count t s' c' H C L NZ j k J K CL E; [lia|]. rewrite loop_S in H.
  destruct (Z.eqb_spec count 0); [injection H as <- <-; lia|]. destruct (nth_error (pknown s) (pcur s)) as [k0|] eqn:K0; [|discriminate].
  set (s1 := fst (turn s count t k0)) in *. set (c1 := snd (turn s count t k0)) in *. set (N := length (pknown s)) in *.
  assert (T : 0 <= c1) by (unfold c1, turn; destruct (eligible A k0 t); cbn; lia).
  assert (L1 : length (pknown s1) = N) by apply turn_len. pose proof (turn_cur s count t k0) as C1. fold s1 N in C1.
  destruct j as [|j].
  - replace (pcur s + 0)%nat with (pcur s) in * by lia. rewrite Nat.mod_small in * by lia. assert (k = k0) as -> by congruence.
    destruct (loop_after _ _ _ _ _ _ H T) as ((_ & _ & _ & _ & _ & news & -> & _) & _). rewrite map_app. apply in_or_app. left.
    unfold s1, turn. rewrite E. cbn. rewrite map_app. apply in_or_app. right. now left.
  - assert (M : ((pcur s + S j) mod N = (pcur s1 + j) mod N)%nat).
    { rewrite C1. destruct (Nat.eqb_spec (S (pcur s)) N) as [Q|Q]; [|f_equal; lia]. replace (pcur s + S j)%nat with (j + 1 * N)%nat by lia. now rewrite Nat.mod_add by lia. }
    rewrite M in K |- *. rewrite <- L1. apply (IH s1 c1 t s' c' H T) with k; try lia.
    + rewrite L1. pose proof (turn_after s count t k0 K0) as (_ & _ & _ & _ & A5 & _). destruct (A5 _ _ K) as [Q|(_ & Q & I)]; [exact Q|]. exfalso.
      assert (NE : ((pcur s1 + j) mod N <> pcur s)%nat).
      { rewrite <- M. intros X. assert ((pcur s + S j) = pcur s + N \/ pcur s + S j < N)%nat as [Y|Y]; [|lia|].
        - destruct (Nat.ltb_spec (pcur s + S j) N); [auto|]. left. assert ((pcur s + S j) mod N = pcur s + S j - N)%nat; [|lia].
          replace (pcur s + S j)%nat with ((pcur s + S j - N) + 1 * N)%nat at 1 by lia. rewrite Nat.mod_add by lia. apply Nat.mod_small. lia.
        - rewrite Nat.mod_small in X by lia. lia. }
      unfold turn in Q. destruct (eligible A k0 t); cbn in Q.
      * rewrite nth_error_upd in Q. destruct (Nat.eqb_spec ((pcur s1 + j) mod N) (pcur s)); [contradiction|]. cbn [andb] in Q. rewrite K in Q. injection Q as X. rewrite X in E. rewrite eligible_trying in E. discriminate.
      * rewrite K in Q. injection Q as X. rewrite X in E. rewrite eligible_trying in E. discriminate.
    + rewrite C1, L1. destruct (Nat.eqb_spec (S (pcur s)) N); lia.
    + exact E.
Qed.

Lemma rinv_new m : rinv (newPeers A m).
Proof. split; [easy|]. right. auto. Qed.

(** ** Every live connection has its known peer *)

(** Known peers that keep their address and state. *)
Definition same (k k' : list known) : Prop := forall i, match nth_error k i, nth_error k' i with
  | Some q, Some q' => kaddr q' = kaddr q /\ (kst q' = PDisconnected <-> kst q = PDisconnected) | None, None => True | _, _ => False end.

Lemma same_refl k : same k k.
Proof. intros i. destruct (nth_error k i); [|exact I]. split; reflexivity. Qed.

Lemma same_upd k i q q' : nth_error k i = Some q -> kaddr q' = kaddr q -> (kst q' = PDisconnected <-> kst q = PDisconnected) -> same k (upd i q' k).
Proof.
  intros Q E1 E2 j. rewrite nth_error_upd. assert (L : (i < length k)%nat) by (apply nth_error_Some; congruence). destruct (Nat.eqb_spec j i) as [->|]; cbn [andb].
  - assert (Nat.ltb i (length k) = true) as -> by now apply Nat.ltb_lt. rewrite Q. auto.
  - destruct (nth_error k j); [|exact I]. split; reflexivity.
Qed.

Lemma same_trans k1 k2 k3 : same k1 k2 -> same k2 k3 -> same k1 k3.
Proof.
  intros H1 H2 i. specialize (H1 i). specialize (H2 i). destruct (nth_error k1 i), (nth_error k2 i), (nth_error k3 i); try contradiction; auto.
  destruct H1 as [E1 ?], H2 as [E2 ?]. split; [congruence|]. tauto.
Qed.

Lemma scan_same ps : forall i fl k news k' news', scan ps i fl k news = Ok (k', news') -> same k k'.
Proof.
  induction ps as [|a ps IH]; intros i fl k news k' news' H; cbn in H; [injection H as <- <-; apply same_refl|].
  destruct (findKnown a k) as [j|]; [|eapply IH; exact H]. destruct fl as [f|]; [|eapply IH; exact H].
  destruct (nth_error f i); [|discriminate]. destruct (nth_error k j) eqn:Q; [|discriminate]. apply IH in H. eapply same_trans; [|exact H]. eapply same_upd; [exact Q|reflexivity|reflexivity].
Qed.

Lemma fresh_all ps src fl news : forall l, fresh A ps src fl news = Ok l -> forall q, In q l -> kst q = PDisconnected /\ In (kaddr q) ps.
Proof.
  induction news as [|i r IH]; intros l H; cbn in H; [injection H as <-; easy|]. destruct (nth_error ps i) as [a|] eqn:E; [|discriminate]. destruct (match fl with None => _ | Some _ => _ end); [|discriminate].
  destruct (fresh A ps src fl r) as [l'|]; [|discriminate]. cbn in H. injection H as <-. intros q [<-|I]; [split; [reflexivity|]; cbn; eapply nth_error_In, E|]. now apply (IH l').
Qed.

Section S.
Variable P : A -> Prop.
Hypothesis eqR : forall x, P x -> addrEq x x = true.
Hypothesis eqE : forall x y z, P x -> P y -> P z -> addrEq x y = true -> addrEq x z = true -> addrEq y z = true.
Hypothesis opens : forall a, streamAddr false a = a.

Definition sinv (s : peers) : Prop :=
  NoDup (map aidx (pactive s)) /\
  (forall x, In x (pactive s) -> P (aaddr x) /\ exists k, nth_error (pknown s) (aidx x) = Some k /\ kst k <> PDisconnected /\ addrEq (kaddr k) (aaddr x) = true) /\
  (forall i k, nth_error (pknown s) i = Some k -> P (kaddr k) /\ (kst k <> PDisconnected -> In i (map aidx (pactive s)))).

Lemma after_sinv t s s' : sinv s -> after t s s' -> sinv s'.
Proof.
  intros (N & B & C) (A1 & _ & _ & _ & A5 & news & A6 & A7 & A8).
  assert (EL : forall k, eligible A k t = true -> kst k = PDisconnected) by (intros k E; unfold eligible in E; destruct (kst k); [reflexivity|discriminate..]).
  unfold sinv. rewrite A6, map_app. refine (conj _ (conj _ _)).
  - apply NoDup_app2; [exact N|exact A7|]. intros i I1 I2. apply in_map_iff in I1 as (x & <- & I1). apply in_map_iff in I2 as (y & Ey & I2).
    destruct (B x I1) as (_ & k & K & KS & _). destruct (A8 y I2) as (k' & K' & E' & _). rewrite Ey, K in K'. injection K' as <-. apply KS. now apply EL.
  - intros x I. apply in_app_or in I as [I|I].
    + destruct (B x I) as (PX & k & K & KS & KA). split; [exact PX|]. destruct (A5 _ _ K) as [Q|(E & _)]; [eauto|]. exfalso. apply KS. now apply EL.
    + destruct (A8 x I) as (k & K & E & K' & KA). rewrite opens in KA. destruct (C _ _ K) as [PK _]. rewrite KA. split; [exact PK|]. exists (trying A k t). refine (conj K' (conj _ _)); [discriminate|]. cbn. now apply eqR.
  - intros i k' K'. assert (L : (i < length (pknown s))%nat) by (rewrite <- A1; apply nth_error_Some; congruence). destruct (nth_error (pknown s) i) as [k|] eqn:K; [|apply nth_error_None in K; lia].
    destruct (C i k K) as [PK IK]. destruct (A5 i k K) as [Q|(E & Q & I)]; rewrite K' in Q; injection Q as ->.
    + split; [exact PK|]. intros D. apply in_or_app. left. now apply IK.
    + split; [exact PK|]. intros _. rewrite A6, map_app in I. exact I.
Qed.

Lemma next_sinv s t s' : sinv s -> connectNext s t = Ok s' -> sinv s'.
Proof.
  intros S H. unfold PeersModel.connectNext in H. destruct (_ || _ || _) eqn:G; [injection H as <-; exact S|].
  destruct (connectLoop _ s _ t) as [[s1 c1]|] eqn:E; [|discriminate]. cbn in H. injection H as <-. apply orb_false_elim in G as [_ G]. apply loop_after in E; [|lia]. eapply after_sinv; [exact S|apply E].
Qed.

Lemma same_sinv s k : sinv s -> same (pknown s) k -> sinv (setK A s k).
Proof.
  intros (N & B & C) H. refine (conj N (conj _ _)); cbn [setK PeersModel.pknown PeersModel.pactive].
  - intros x I. destruct (B x I) as (PX & q & Q & QS & QA). split; [exact PX|]. specialize (H (aidx x)). rewrite Q in H. destruct (nth_error k (aidx x)) as [q'|]; [|contradiction]. destruct H as [H1 H2]. exists q'. rewrite H1. refine (conj eq_refl (conj _ QA)). tauto.
  - intros i q' Q'. specialize (H i). rewrite Q' in H. destruct (nth_error (pknown s) i) as [q|] eqn:Q; [|contradiction]. destruct H as [H1 H2]. destruct (C i q Q). rewrite H1. split; [assumption|]. tauto.
Qed.

Lemma placed_sinv s k l src : rinv s -> sinv (setK A s k) -> length k = length (pknown s) -> (forall q, In q l -> kst q = PDisconnected /\ P (kaddr q)) -> sinv (placed s k l src).
Proof.
  intros [R CU] (N & B & C) LK F. cbn [setK PeersModel.pknown PeersModel.pactive] in *. unfold placed. destruct (_ && _).
  - assert (CL : (pcur s <= length k)%nat) by (destruct CU as [U|[_ U]]; lia). set (c := pcur s) in *. set (n := length l).
    set (g := fun x => if Nat.leb c (aidx x) then {| acomm := acomm A x; PeersModel.aidx := (aidx x + n)%nat; PeersModel.aaddr := aaddr x |} else x).
    set (h := fun i => if Nat.leb c i then (i + n)%nat else i).
    assert (MG : map aidx (map g (pactive s)) = map h (map aidx (pactive s))).
    { rewrite !map_map. apply map_ext. intros x. unfold g, h. destruct (Nat.leb c (aidx x)); reflexivity. }
    assert (NE : forall i, nth_error (firstn c k ++ l ++ skipn c k) (h i) = nth_error k i).
    { intros i. rewrite nth_error_insert by exact CL. unfold h. fold n. destruct (Nat.leb_spec c i).
      - destruct (Nat.ltb_spec (i + n) c); [lia|]. destruct (Nat.ltb_spec (i + n) (c + n)); [lia|]. f_equal. lia.
      - destruct (Nat.ltb_spec i c); [reflexivity|lia]. }
    refine (conj _ (conj _ _)); cbn [setA setK PeersModel.pknown PeersModel.pactive]; fold c n g.
    + rewrite MG. apply FinFun.Injective_map_NoDup; [|exact N]. intros i j E. unfold h in E. destruct (Nat.leb_spec c i), (Nat.leb_spec c j); lia.
    + intros x I. apply in_map_iff in I as (y & <- & I). destruct (B y I) as (PX & q & Q & QS & QA).
      assert (aaddr (g y) = aaddr y) as -> by (unfold g; destruct (Nat.leb _ _); reflexivity). assert (aidx (g y) = h (aidx y)) as -> by (unfold g, h; destruct (Nat.leb _ _); reflexivity).
      split; [exact PX|]. exists q. rewrite NE. auto.
    + intros i q Q. rewrite MG. rewrite nth_error_insert in Q by exact CL. fold n in Q. destruct (Nat.ltb_spec i c).
      * destruct (C i q Q) as [C1 C2]. split; [exact C1|]. intros D. apply in_map_iff. exists i. split; [|now apply C2]. unfold h. destruct (Nat.leb_spec c i); [lia|reflexivity].
      * destruct (Nat.ltb_spec i (c + n)).
        -- destruct (F q (nth_error_In _ _ Q)) as [F1 F2]. split; [exact F2|]. congruence.
        -- destruct (C _ q Q) as [C1 C2]. split; [exact C1|]. intros D. apply in_map_iff. exists (i - n)%nat. split; [|now apply C2]. unfold h. destruct (Nat.leb_spec c (i - n)); lia.
  - refine (conj N (conj _ _)); cbn [setCur setK PeersModel.pknown PeersModel.pactive].
    + intros x I. destruct (B x I) as (PX & q & Q & QS & QA). split; [exact PX|]. exists q. refine (conj _ (conj QS QA)). rewrite nth_error_app1; [exact Q|]. apply nth_error_Some. congruence.
    + intros i q Q. destruct (Nat.ltb_spec i (length k)); [rewrite nth_error_app1 in Q by assumption; now apply C|]. rewrite nth_error_app2 in Q by assumption. destruct (F q (nth_error_In _ _ Q)) as [F1 F2]. split; [exact F2|]. congruence.
Qed.

Lemma open_sinv s i k a hp t : sinv s -> nth_error (pknown s) i = Some k -> kst k = PDisconnected -> P a -> addrEq (kaddr k) a = true -> streamAddr hp a = a ->
  sinv (openTo (setK A s (upd i (trying A k t) (pknown s))) a i hp).
Proof.
  intros (N & B & C) K KS PA KA SA. assert (L : (i < length (pknown s))%nat) by (apply nth_error_Some; congruence). assert (LT : Nat.ltb i (length (pknown s)) = true) by now apply Nat.ltb_lt.
  assert (NI : ~ In i (map aidx (pactive s))). { intros I. apply in_map_iff in I as (x & <- & I). destruct (B x I) as (_ & q & Q & QS & _). congruence. }
  refine (conj _ (conj _ _)); cbn [PeersModel.openTo setK PeersModel.pknown PeersModel.pactive]; rewrite ?map_app; cbn [map PeersModel.aidx].
  - apply NoDup_app2; [exact N|constructor; [easy|constructor]|]. intros j J [<-|[]]. contradiction.
  - intros x I. apply in_app_or in I as [I|[<-|[]]].
    + destruct (B x I) as (PX & q & Q & QS & QA). split; [exact PX|]. exists q. rewrite nth_error_upd. destruct (Nat.eqb_spec (aidx x) i) as [E|]; [congruence|]. cbn [andb]. auto.
    + cbn [PeersModel.aidx PeersModel.aaddr]. rewrite SA. split; [exact PA|]. exists (trying A k t). rewrite nth_error_upd, Nat.eqb_refl, LT. refine (conj eq_refl (conj _ KA)). discriminate.
  - intros j q Q. rewrite nth_error_upd in Q. destruct (Nat.eqb_spec j i) as [->|]; cbn [andb] in Q.
    + rewrite LT in Q. injection Q as <-. destruct (C i k K). split; [assumption|]. intros _. apply in_or_app. right. now left.
    + destruct (C j q Q) as [C1 C2]. split; [exact C1|]. intros D. apply in_or_app. left. now apply C2.
Qed.

Lemma onKnown_sinv s c f s' : rinv s -> sinv s -> (forall k, kaddr (f k) = kaddr k /\ (kst k <> PDisconnected -> kst (f k) <> PDisconnected)) -> onKnown A s c f = Ok s' -> sinv s'.
Proof.
  intros R S F E. destruct (onKnown_ok s c f R) as (s1 & E1 & _ & _ & D). rewrite E in E1. injection E1 as <-. destruct D as [-> |(j & x & k & FA & X & K & ->)]; [exact S|].
  apply same_sinv; [exact S|]. destruct (F k) as [F1 F2]. destruct S as (_ & B & _). destruct (B x (nth_error_In _ _ X)) as (_ & q & Q & QS & _). assert (q = k) as -> by congruence.
  apply same_upd with k; [exact K|exact F1|]. specialize (F2 QS). tauto.
Qed.

Definition evOk (e : pevent A) : Prop :=
  match e with PConnect _ a hp _ => P a /\ streamAddr hp a = a | PRemote _ a => P a | PFound _ ps _ _ _ => forall a, In a ps -> P a | _ => True end.

Lemma pstep_sinv s e s' : rinv s -> sinv s -> evOk e -> flagsOk e -> pstep s e = Ok s' -> sinv s'.
Proof.
  intros R S V F H. destruct e as [t| |t| |t|m|a hp t|a|c u|c|c t|ps src fl t]; cbn [PeersModel.pstep] in H.
  - eapply next_sinv; [|exact H]. exact S.
  - destruct (stopPeers_ok s R) as (k & E & EL & Q). rewrite H in E. injection E as ->. refine (conj _ (conj _ _)); cbn; [constructor|easy|].
    intros i q' Q'. destruct (Q i q' Q') as (q & Hq & D). destruct S as (_ & _ & C). destruct (C i q Hq) as [C1 C2]. destruct D as [->|[-> NI]]; [split; [exact C1|]; intros X; cbn in X; congruence|].
    split; [exact C1|]. intros X. apply NI. now apply C2.
  - destruct (pconnecting A s); [injection H as <-; exact S|]. eapply next_sinv; [|exact H]. exact S.
  - injection H as <-. exact S.
  - eapply next_sinv; eassumption.
  - injection H as <-. exact S.
  - destruct V as [PA SA]. unfold PeersModel.connectAddr in H. destruct (negb _); [injection H as <-; exact S|]. destruct (activeTo A addrEq s a) eqn:AT; [injection H as <-; exact S|].
    destruct (findKnown a (pknown s)) as [i|] eqn:FK.
    + destruct (findKnown_some _ _ _ FK) as (k & K & KA). unfold PeersModel.connectIdx in H. rewrite K in H. destruct (kunwanted A k); injection H as <-; [exact S|].
      apply open_sinv; auto. destruct (kst k) eqn:KS; [reflexivity|exfalso..].
      all: destruct S as (_ & B & C); destruct (C i k K) as [PK I]; specialize (I ltac:(congruence)); apply in_map_iff in I as (x & <- & I); destruct (B x I) as (PX & q & Q & _ & QA);
        assert (q = k) as -> by congruence; assert (T : activeTo A addrEq s a = true) by (apply existsb_exists; exists x; split; [exact I|]; apply (eqE (kaddr k)); assumption); congruence.
    + unfold PeersModel.connectIdx in H. cbn [setK PeersModel.pknown] in H. rewrite nth_error_app2, Nat.sub_diag in H by lia. cbn [nth_error newKnown kunwanted] in H. injection H as <-.
      set (s0 := setK A s (pknown s ++ [newKnown A a SrcManual 0])).
      assert (S0 : sinv s0).
      { destruct S as (N & B & C). refine (conj N (conj _ _)); cbn [s0 setK PeersModel.pknown PeersModel.pactive].
        - intros x I. destruct (B x I) as (PX & q & Q & QS). split; [exact PX|]. exists q. rewrite nth_error_app1 by (apply nth_error_Some; congruence). auto.
        - intros i q Q. destruct (Nat.ltb_spec i (length (pknown s))); [rewrite nth_error_app1 in Q by assumption; now apply C|]. rewrite nth_error_app2 in Q by assumption. apply nth_error_In in Q as [<-|[]]. cbn. split; [exact PA|congruence]. }
      apply (open_sinv s0 (length (pknown s)) (newKnown A a SrcManual 0) a hp t S0); [|reflexivity|exact PA|cbn; now apply eqR|exact SA].
      cbn. rewrite nth_error_app2, Nat.sub_diag by lia. reflexivity.
  - injection H as <-. destruct S as (N & B & C). destruct R as [R _]. refine (conj _ (conj _ _)); cbn [addRemote PeersModel.pknown PeersModel.pactive]; rewrite ?map_app; cbn [map PeersModel.aidx].
    + apply NoDup_app2; [exact N|constructor; [easy|constructor]|]. intros j J [<-|[]]. apply in_map_iff in J as (x & E & J). specialize (R x J). lia.
    + intros x I. apply in_app_or in I as [I|[<-|[]]].
      * destruct (B x I) as (PX & q & Q & QS). split; [exact PX|]. exists q. rewrite nth_error_app1 by (apply nth_error_Some; congruence). auto.
      * cbn [PeersModel.aidx PeersModel.aaddr]. split; [exact V|]. eexists. rewrite nth_error_app2, Nat.sub_diag by lia. refine (conj eq_refl (conj _ _)); [discriminate|]. cbn. now apply eqR.
    + intros i q Q. destruct (Nat.ltb_spec i (length (pknown s))).
      * rewrite nth_error_app1 in Q by assumption. destruct (C i q Q) as [C1 C2]. split; [exact C1|]. intros D. apply in_or_app. left. now apply C2.
      * assert (i = length (pknown s)) as ->. { apply Nat.le_antisymm; [|assumption]. assert (i < length (pknown s ++ [setSt A (newKnown A a SrcRemote 0) PConnected]))%nat by (apply nth_error_Some; congruence). rewrite app_length in *. cbn [length] in *. lia. }
        rewrite nth_error_app2, Nat.sub_diag in Q by lia. injection Q as <-. cbn. split; [exact V|]. intros _. apply in_or_app. right. now left.
  - eapply onKnown_sinv; [exact R|exact S| |exact H]. intros k. destruct u; cbn; auto.
  - eapply onKnown_sinv; [exact R|exact S| |exact H]. intros k. cbn. split; [reflexivity|discriminate].
  - unfold PeersModel.connectionClosed, removePeer in H. destruct (findActive A c (pactive s)) as [j|] eqn:FA; [|cbn [bind] in H; eapply next_sinv; eassumption].
    match type of H with context [onKnown A s c ?g] => set (f := g) in H end.
    destruct (onKnown_ok s c f R) as (s1 & E & PA & _ & D). rewrite E in H. cbn [bind] in H. eapply next_sinv; [|exact H]. clear H.
    assert (exists x k, nth_error (pactive s) j = Some x /\ nth_error (pknown s) (aidx x) = Some k /\ s1 = setK A s (upd (aidx x) (f k) (pknown s))) as (x & k & X & K & ->).
    { destruct D as [-> |(j' & x & k & FA' & X & K & ->)]; [|rewrite FA in FA'; injection FA' as <-; eauto]. exfalso. clear PA. unfold onKnown in E. rewrite FA in E.
      destruct (nth_error (pactive s) j) as [x|] eqn:X; [|discriminate]. destruct (nth_error (pknown s) (aidx x)) as [k|] eqn:K; [|discriminate]. injection E as E.
      destruct S as (_ & B & _). destruct (B x (nth_error_In _ _ X)) as (_ & q & Q & QS & _). assert (q = k) as -> by congruence.
      assert (Y : nth_error (pknown s) (aidx x) = Some (f k)). { rewrite <- E at 1. cbn [setK PeersModel.pknown]. rewrite nth_error_upd, Nat.eqb_refl. assert (Nat.ltb (aidx x) (length (pknown s)) = true) as -> by (apply Nat.ltb_lt, nth_error_Some; congruence). reflexivity. }
      rewrite K in Y. injection Y as Y. rewrite Y in QS. apply QS. reflexivity. }
    cbn [setK setA PeersModel.pactive PeersModel.pknown]. destruct (remove_split j (pactive s) x X) as (l1 & l2 & EA & ER). unfold sinv. cbn [setK setA PeersModel.pactive PeersModel.pknown]. rewrite ER.
    destruct S as (N & B & C). rewrite EA, map_app in N. cbn [map] in N.
    assert (NI : ~ In (aidx x) (map aidx (l1 ++ l2))) by (rewrite map_app; now apply NoDup_remove_2 in N).
    refine (conj _ (conj _ _)).
    + rewrite map_app. now apply NoDup_remove_1 in N.
    + intros y I. assert (Y : In y (pactive s)) by (rewrite EA; apply in_app_or in I as [I|I]; apply in_or_app; [now left|right; now right]). destruct (B y Y) as (PY & q & Q & QS). split; [exact PY|]. exists q.
      rewrite nth_error_upd. destruct (Nat.eqb_spec (aidx y) (aidx x)) as [Z|]; [|cbn [andb]; auto]. exfalso. apply NI. rewrite <- Z. now apply in_map.
    + intros i q Q. rewrite nth_error_upd in Q. destruct (Nat.eqb_spec i (aidx x)) as [->|NX]; cbn [andb] in Q.
      * assert (Nat.ltb (aidx x) (length (pknown s)) = true) as LT by (apply Nat.ltb_lt, nth_error_Some; congruence). rewrite LT in Q. injection Q as <-. destruct (C _ k K). split; [assumption|]. unfold f. cbn. congruence.
      * destruct (C i q Q) as [C1 C2]. split; [exact C1|]. intros D'. specialize (C2 D'). rewrite EA, map_app in C2. cbn [map] in C2. rewrite map_app. apply in_app_or in C2 as [I|[I|I]]; [apply in_or_app; now left|congruence|apply in_or_app; now right].
  - assert (F' : match fl with None => True | Some f => (length ps <= length f)%nat end) by (destruct fl; exact F || exact I).
    destruct (updateKnown_eq s ps src fl t R F') as (k & news & l & SC & FR & LK & LL & D).
    assert (S0 : sinv (setK A s k)) by (apply same_sinv; [exact S|eapply scan_same, SC]).
    destruct D as [[_ E]|[NE E]]; rewrite H in E; [injection E as ->; exact S0|]. symmetry in E. eapply next_sinv; [|exact E].
    apply placed_sinv; auto. intros q I. destruct (fresh_all _ _ _ _ _ FR q I) as [F1 F2]. split; [exact F1|]. now apply V.
Qed.

Lemma prun_sinv es : forall s s', rinv s -> sinv s -> (forall e, In e es -> evOk e /\ flagsOk e) -> prun s es = Ok s' -> rinv s' /\ sinv s'.
Proof.
  induction es as [|e es IH]; intros s s' R S F H; cbn [PeersModel.prun] in H; [injection H as <-; auto|]. destruct (F e (or_introl eq_refl)) as [F1 F2].
  destruct (pstep_ok s e R F2) as (s1 & E & R1). rewrite E in H. cbn [bind] in H. apply (IH s1 s' R1); [exact (pstep_sinv s e s1 R S F1 F2 E)| |exact H]. intros e' I. apply F. now right.
Qed.

Lemma sinv_new m : sinv (newPeers A m).
Proof. refine (conj _ (conj _ _)); cbn; [constructor|easy|]. intros [|i] k; discriminate. Qed.
End S.
End P.
