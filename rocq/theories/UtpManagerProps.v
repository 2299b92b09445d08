(** C110: each uTP datagram goes to the stream it belongs to. *)
From Verif Require Import Base BaseLemmas UtpModel UtpManagerModel UtpManagerSpec UtpProofs6.

(** ** The search *)

Lemma findEntry_owner id e l s : findEntry id e l = Some s <-> owner id e l s.
Proof.
  unfold findEntry, owner. induction l as [|x l I]; cbn [find].
  - split; [discriminate|]. intros (a & b & A & _). destruct a; discriminate A.
  - destruct ((key x =? id) && (ep x =? e)) eqn:M.
    + apply andb_prop in M. destruct M as [M1 M2]. apply Z.eqb_eq in M1, M2. split.
      * intros [= <-]. exists [], l. repeat split; try assumption. intros y [].
      * intros (a & b & A & K & P & F). destruct a as [|y a]; [injection A as -> _; reflexivity|]. injection A as <- _. destruct (F x (or_introl eq_refl)). split; assumption.
    + rewrite I. split.
      * intros (a & b & -> & K & P & F). exists (x :: a), b. repeat split; try assumption. intros y [<- | Y]; [|exact (F y Y)].
        intros [K1 P1]. rewrite K1, P1, !Z.eqb_refl in M. discriminate M.
      * intros (a & b & A & K & P & F). destruct a as [|y a].
        -- injection A as -> _. rewrite K, P, !Z.eqb_refl in M. discriminate M.
        -- injection A as <- ->. exists a, b. repeat split; try assumption. intros z Y. exact (F z (or_intror Y)).
Qed.

Lemma findEntry_none id e l : findEntry id e l = None -> forall s, In s l -> ~ (key s = id /\ ep s = e).
Proof. intros F s I [K P]. pose proof (find_none _ _ F s I) as N. cbv beta in N. rewrite K, P, !Z.eqb_refl in N. discriminate N. Qed.

Lemma findEntry_app id e l l' s : findEntry id e l = Some s -> findEntry id e (l ++ l') = Some s.
Proof. unfold findEntry. induction l as [|x l I]; cbn [find app]; [discriminate|]. destruct (_ && _); [trivial | exact I]. Qed.

(** ** The loop *)

Lemma in_emplace x s l : In x (emplace s l) <-> x = s \/ In x l.
Proof.
  unfold emplace. destruct (existsb (Nat.eqb s) l) eqn:E.
  - split; [tauto|]. intros [-> | H]; [|exact H]. apply existsb_exists in E. destruct E as (y & Y & Q). apply Nat.eqb_eq in Q. subst y. exact Y.
  - rewrite in_app_iff. cbn. split; intros; intuition.
Qed.

Lemma nodup_snoc {A} (l : list A) x : NoDup l -> ~ In x l -> NoDup (l ++ [x]).
Proof.
  intros N H. induction N as [|y l Y N I]; cbn [app]; [constructor; [exact H | constructor]|]. constructor.
  - rewrite in_app_iff. intros [Q | [<- | []]]; [exact (Y Q) | apply H; left; reflexivity].
  - apply I. intros Q. apply H. right. exact Q.
Qed.

Lemma nodup_emplace s l : NoDup l -> NoDup (emplace s l).
Proof.
  intros N. unfold emplace. destruct (existsb (Nat.eqb s) l) eqn:E; [exact N|]. apply nodup_snoc; [exact N|]. intros H.
  assert (existsb (Nat.eqb s) l = true) as C by (apply existsb_exists; exists s; split; [exact H | apply Nat.eqb_refl]). congruence.
Qed.

(** What holds between two datagrams of a batch from [e]: what is remembered is what a search would find, and the streams to finish are those that were read. *)
Definition Winv (e : Z) (w : loop) : Prop :=
  (forall id s, current w = Some (id, s) -> findEntry id e (streams (mgr w)) = Some s /\ In (sid s) (affected w)) /\
  NoDup (affected w) /\ (forall s, In s (affected w) <-> exists d, In (DRead s d) (log w)).

(** The search with what is remembered is the search. *)
Lemma findStream_ok e id w : Winv e w ->
  match findEntry id e (streams (mgr w)) with
  | Some s => exists aff, findStream e id w = (true, {| mgr := mgr w; current := Some (id, s); affected := aff; log := log w |}) /\ NoDup aff /\ (forall x, In x aff <-> x = sid s \/ In x (affected w))
  | None => findStream e id w = (false, w)
  end.
Proof.
  intros (C & N & A). unfold findStream. destruct w as [m c aff lg]; cbn [mgr current affected log] in *. destruct c as [[id' s']|].
  - destruct (C id' s' eq_refl) as [F I]. destruct (Z.eqb_spec id' id) as [-> | X].
    + rewrite F. exists aff. split; [reflexivity|]. split; [exact N|]. intros x. split; [tauto|]. intros [-> | H]; assumption.
    + destruct (findEntry id e (streams m)) as [s|]; [|reflexivity]. eexists. split; [reflexivity|]. split; [apply nodup_emplace; exact N | intros x; apply in_emplace].
  - destruct (findEntry id e (streams m)) as [s|]; [|reflexivity]. eexists. split; [reflexivity|]. split; [apply nodup_emplace; exact N | intros x; apply in_emplace].
Qed.

Lemma turns_served e : forall l hs w, Winv e w -> headerSizes l = Ok hs -> let w' := turns e (combine hs l) w in
  Winv e w' /\ exists o, log w' = log w ++ o /\ served e (mgr w) l o (mgr w').
Proof.
  induction l as [|d l I]; intros hs w W H.
  - injection H as <-. cbn. split; [exact W|]. exists []. rewrite app_nil_r. split; [reflexivity | constructor].
  - cbn [headerSizes] in H. destruct (getUtpPacketHeaderSize d) as [h|] eqn:G; [|discriminate H]. cbn [bind] in H. destruct (headerSizes l) as [hs'|] eqn:G'; [|discriminate H].
    cbn [bind] in H. injection H as <-. cbn [combine turns]. unfold turn at 1 2 3. destruct (Z.eqb_spec h 0) as [-> | X].
    + destruct (I hs' w W eq_refl) as (W' & o & O1 & O2). split; [exact W'|]. exists o. split; [exact O1|]. apply served_other; assumption.
    + pose proof (findStream_ok e (connection_id d) w W) as F. destruct (findEntry (connection_id d) e (streams (mgr w))) as [s|] eqn:FE.
      * destruct F as (aff & F & N & A). rewrite F. cbn [current mgr affected log].
        destruct (I hs' {| mgr := mgr w; current := Some (connection_id d, s); affected := aff; log := log w ++ [DRead (sid s) d] |}) as (W' & o & O1 & O2); [|reflexivity|].
        { split; [|split]; cbn [current mgr affected log].
          - intros id s0 [= <- <-]. split; [exact FE | apply A; left; reflexivity].
          - exact N.
          - intros x. rewrite A. destruct W as (_ & _ & W). rewrite W. split.
            + intros [-> | [d0 D]]; [exists d; apply in_or_app; right; left; reflexivity | exists d0; apply in_or_app; left; exact D].
            + intros [d0 D]. apply in_app_or in D. destruct D as [D | [D | []]]; [right; exists d0; exact D | left; congruence]. }
        split; [exact W'|]. exists (DRead (sid s) d :: o). cbn [mgr log] in O1, O2. split; [rewrite O1, <- app_assoc; reflexivity|].
        apply (served_read e (mgr w) d h s); [split; assumption | apply findEntry_owner; exact FE | exact O2].
      * rewrite F. pose proof (findEntry_none _ _ _ FE) as NO.
        assert (forall w1, w1 = w -> exists o, (Winv e (turns e (combine hs' l) w1) /\ log (turns e (combine hs' l) w1) = log w ++ o /\ served e (mgr w) l o (mgr (turns e (combine hs' l) w1)))) as K.
        { intros w1 ->. destruct (I hs' w W eq_refl) as (W' & o & O). exists o. split; [exact W' | exact O]. }
        destruct ((typeOf d =? 4) && (zlen d =? h)) eqn:SY.
        -- apply andb_prop in SY. destruct SY as [S1 S2]. apply Z.eqb_eq in S1, S2. unfold onNewConnection. destruct (enableUtpIn (mgr w)) eqn:EN.
           ++ match goal with |- Winv e (turns e _ ?w1) /\ _ => destruct (I hs' w1) as (W' & o & O1 & O2); [|reflexivity|] end.
              { destruct W as (W1 & W2 & W3). split; [|split]; cbn [current mgr affected log connectStream streams].
                - intros id s C. destruct (W1 id s C) as [W4 W5]. split; [apply findEntry_app; exact W4 | exact W5].
                - exact W2.
                - intros x. rewrite W3. split; intros [d0 D]; exists d0; [apply in_or_app; left; exact D|]. apply in_app_or in D. destruct D as [D | [D | []]]; [exact D | discriminate D]. }
              split; [exact W'|]. exists (DNew (fresh (mgr w)) :: o). cbn [mgr log] in O1, O2. split; [rewrite O1, <- app_assoc; reflexivity|].
              apply (served_new e (mgr w) d h); [split; assumption | exact NO | split; assumption | exact EN|]. unfold connectStream in O2 |- *. rewrite EN in O2 |- *. exact O2.
           ++ destruct (K w eq_refl) as (o & W' & O1 & O2). split; [exact W'|]. exists o. split; [exact O1|].
              apply (served_drop e (mgr w) d h); [split; assumption | exact NO | | exact O2]. intros [_ Q]. congruence.
        -- destruct (K w eq_refl) as (o & W' & O1 & O2). split; [exact W'|]. exists o. split; [exact O1|].
           apply (served_drop e (mgr w) d h); [split; assumption | exact NO | | exact O2]. intros [[Q1 Q2] _]. unfold typeOf in SY. rewrite Q1, Q2, !Z.eqb_refl in SY. discriminate SY.
Qed.

Lemma headerSizes_ok l : Forall bytes_ok l -> exists hs, headerSizes l = Ok hs /\ length hs = length l.
Proof.
  induction 1 as [|d l B F I]; [exists []; split; reflexivity|]. destruct I as (hs & E & L). destruct (header_ok d B) as (h & H & _). exists (h :: hs).
  cbn [headerSizes]. rewrite H. cbn [bind]. rewrite E. cbn [bind length]. split; [reflexivity | congruence].
Qed.

(** A batch with something of uTP in it: each datagram of it goes to the eldest stream of its id at that endpoint, or is a SYN that makes a stream, or is dropped; and
    then each stream that was given something is finished once. *)
Theorem C110_served e l m m' left lg : onUdpPacket e l m = Ok (true, left, m', lg) ->
  exists o fs, lg = o ++ map DFinish fs /\ served e m l o m' /\ NoDup fs /\ forall s, In s fs <-> exists d, In (DRead s d) o.
Proof.
  intros E. unfold onUdpPacket in E. destruct (active m); cbn [negb] in E; [|discriminate E]. destruct (headerSizes l) as [hs|] eqn:H; [|discriminate E]. cbn [bind] in E.
  match type of E with (if ?b then _ else _) = _ => destruct b; [discriminate E|] end.
  destruct (turns_served e l hs {| mgr := m; current := None; affected := []; log := [] |}) as ((W1 & W2 & W3) & o & O1 & O2); [|exact H|].
  { split; [discriminate|]. split; [constructor|]. intros s. split; [intros [] | intros [d []]]. }
  cbn [log app mgr] in O1, O2. injection E as _ <- <-. rewrite O1 in *. eexists o, _. split; [reflexivity|]. split; [exact O2|]. split; [exact W2 | exact W3].
Qed.

(** What is not uTP is left for others, in order; and if nothing is, nothing happens. No datagram makes it fail. *)
Theorem C110_left e l m : Forall bytes_ok l -> exists r left m' lg, onUdpPacket e l m = Ok (r, left, m', lg) /\
  (r = false -> left = l /\ m' = m /\ lg = []) /\
  (active m = true -> exists f, (forall d, In d l -> (f d = true <-> notUtp d)) /\ left = filter f l /\ (r = true <-> exists d h, In d l /\ utp d h)).
Proof.
  intros B. destruct (headerSizes_ok l B) as (hs & H & L). unfold onUdpPacket. destruct (active m) eqn:AC; cbn [negb].
  2:{ eexists _, _, _, _. split; [reflexivity|]. split; [repeat split | discriminate]. }
  rewrite H. cbn [bind]. set (f := fun d => match getUtpPacketHeaderSize d with Ok h => h =? 0 | UB => false end).
  assert (map snd (filter (fun x => fst x =? 0) (combine hs l)) = filter f l) as LF.
  { clear B L. revert hs H. induction l as [|d l I]; intros hs H; [injection H as <-; reflexivity|]. cbn [headerSizes] in H. destruct (getUtpPacketHeaderSize d) as [h|] eqn:G; [|discriminate H].
    cbn [bind] in H. destruct (headerSizes l) as [hs'|]; [|discriminate H]. cbn [bind] in H. injection H as <-. cbn [combine filter fst]. unfold f at 1. rewrite G. specialize (I hs' eq_refl).
    destruct (h =? 0); cbn [map snd]; rewrite I; reflexivity. }
  rewrite LF. assert (forall d, In d l -> (f d = true <-> notUtp d)) as FN.
  { intros d D. unfold f, notUtp. destruct (getUtpPacketHeaderSize d) as [h|]; [|split; discriminate]. rewrite Z.eqb_eq. split; [intros ->; reflexivity | intros [= ->]; reflexivity]. }
  assert (forall d, In d l -> f d = false -> exists h, utp d h) as FU.
  { intros d D Q. rewrite Forall_forall in B. destruct (header_ok d (B d D)) as (h & G & _). exists h. split; [exact G|]. intros ->. assert (f d = true) by (apply FN; assumption). congruence. }
  assert (length (filter f l) = length l -> filter f l = l /\ forall d, In d l -> f d = true) as ALL.
  { clear. induction l as [|d l I]; cbn [filter]; [split; [reflexivity | intros d []]|]. destruct (f d) eqn:D; cbn [length].
    - intros Q. destruct I as [I1 I2]; [congruence|]. split; [congruence|]. intros x [<- | X]; [exact D | exact (I2 x X)].
    - intros Q. assert (length (filter f l) <= length l)%nat by (clear; induction l as [|x l I]; cbn [filter]; [lia|]; destruct (f x); cbn [length]; lia). lia. }
  destruct (Nat.eqb_spec (length (filter f l)) (length l)) as [Q|Q].
  - destruct (ALL Q) as [A1 A2]. eexists _, _, _, _. split; [reflexivity|]. split; [intros _; repeat split; exact A1|]. intros _. exists f. split; [exact FN|]. split; [reflexivity|].
    split; [discriminate|]. intros (d & h & D & G & N). specialize (A2 d D). apply FN in A2; [|exact D]. unfold notUtp in A2. congruence.
  - eexists _, _, _, _. split; [reflexivity|]. split; [discriminate|]. intros _. exists f. split; [exact FN|]. split; [reflexivity|]. split; [|reflexivity]. intros _.
    clear - Q FU. induction l as [|d l I]; [destruct Q; reflexivity|]. cbn [filter] in Q. destruct (f d) eqn:D.
    + destruct I as (d' & h & D' & U); [intros x X; apply FU; right; exact X | cbn [length] in Q; lia|]. exists d', h. split; [right; exact D' | exact U].
    + destruct (FU d (or_introl eq_refl) D) as [h U]. exists d, h. split; [left; reflexivity | exact U].
Qed.

(** ** Histories *)

(** No two streams have the same number. *)
Definition numbered (m : manager) : Prop := NoDup (map sid (streams m)) /\ forall s, In s (streams m) -> (sid s < fresh m)%nat.

Lemma same_sid l : forall a b, NoDup (map sid l) -> In a l -> In b l -> sid a = sid b -> a = b.
Proof.
  induction l as [|x l I]; intros a b N A B Q; [destruct A|]. cbn [map] in N. inversion N as [|y z Y Z0]; subst. destruct A as [-> | A], B as [-> | B]; [reflexivity | | |exact (I a b Z0 A B Q)].
  - destruct Y. rewrite Q. apply in_map. exact B.
  - destruct Y. rewrite <- Q. apply in_map. exact A.
Qed.

Lemma numbered_connect id e m : numbered m -> numbered (connectStream id e m).
Proof.
  intros [N F]. split; cbn [connectStream streams fresh].
  - rewrite map_app. apply nodup_snoc; [exact N|]. intros H. apply in_map_iff in H. destruct H as (s & Q & I). specialize (F s I). cbn [sid] in Q. lia.
  - intros s H. apply in_app_or in H. destruct H as [H | [<- | []]]; [specialize (F s H); lia | cbn [sid]; lia].
Qed.

Lemma numbered_refresh c m : numbered m -> numbered (refresh c m).
Proof.
  intros [N F]. split; cbn [refresh streams fresh].
  - clear F. induction (streams m) as [|s l I]; [constructor|]. cbn [map] in N. inversion N as [|x y X Y]; subst. cbn [filter]. destruct (negb _); [|exact (I Y)]. cbn [map]. constructor; [|exact (I Y)].
    intros H. apply X. apply in_map_iff in H. destruct H as (z & Q & H). apply filter_In in H. apply in_map_iff. exists z. split; [exact Q | exact (proj1 H)].
  - intros s H. apply filter_In in H. exact (F s (proj1 H)).
Qed.

(** A batch only adds streams, at the end. *)
Lemma served_adds e m l o m' : served e m l o m' -> (numbered m -> numbered m') /\ (exists b, streams m' = streams m ++ b) /\ active m' = active m /\ enableUtpIn m' = enableUtpIn m.
Proof.
  induction 1 as [m | m d l o m' N S I | m d h s l o m' U W S I | m d h l o m' U W L E S I | m d h l o m' U W L S I]; try assumption.
  - split; [trivial|]. split; [exists []; rewrite app_nil_r; reflexivity | split; reflexivity].
  - destruct I as (I1 & (b & I2) & I3 & I4). cbn [streams active enableUtpIn] in *. split; [|split; [|split; [exact I3 | congruence]]].
    + intros N. apply I1. pose proof (numbered_connect ((unbe (slice 2 2 d) + 1) mod 65536) e m N) as K. unfold connectStream in K. rewrite E in K. exact K.
    + rewrite I2, <- app_assoc. eexists. reflexivity.
Qed.

Lemma packets_numbered e l m r left m' lg : onUdpPacket e l m = Ok (r, left, m', lg) -> numbered m -> numbered m'.
Proof.
  intros E N. destruct r; [destruct (C110_served e l m m' left lg E) as (o & fs & _ & S & _); exact (proj1 (served_adds e m l o m' S) N)|].
  unfold onUdpPacket in E. destruct (negb (active m)); [injection E as _ <- _; exact N|]. destruct (headerSizes l); [|discriminate E]. cbn [bind] in E.
  match type of E with (if ?b then _ else _) = _ => destruct b; [injection E as _ <- _; exact N | discriminate E] end.
Qed.

Lemma reached_numbered m : reached m -> numbered m.
Proof.
  intros (en & es & lg & R). assert (numbered (newManager en)) as N by (split; [constructor | intros s []]). revert N lg R. generalize (newManager en). induction es as [|[id e | c | e l] es I]; intros m0 N lg R; cbn [run] in R.
  - injection R as -> _. exact N.
  - exact (I _ (numbered_connect id e m0 N) lg R).
  - exact (I _ (numbered_refresh c m0 N) lg R).
  - destruct (onUdpPacket e l m0) as [[[[r left] m1] lg1]|] eqn:E; [|discriminate R]. cbn [bind] in R. destruct (run es m1) as [[m2 lg2]|] eqn:R2; [|discriminate R]. cbn [bind] in R. injection R as <- _.
    exact (I m1 (packets_numbered e l m0 r left m1 lg1 E N) lg2 R2).
Qed.

(** No history of datagrams, whatever they are, makes it fail. *)
Theorem C110_total en es : Forall event_ok es -> exists m lg, run es (newManager en) = Ok (m, lg).
Proof.
  generalize (newManager en). intros m F. revert m. induction F as [|ev es EO F I]; intros m; [eexists _, _; reflexivity|]. destruct ev as [id e | c | e l]; cbn [run]; try apply I.
  destruct (C110_left e l m EO) as (r & left & m' & lg & E & _). rewrite E. cbn [bind]. destruct (I m') as (m2 & lg2 & R). rewrite R. cbn [bind]. eexists _, _. reflexivity.
Qed.

Lemma served_in e m l o m' s d : served e m l o m' -> In (DRead s d) o -> exists st, In st (streams m') /\ sid st = s /\ key st = unbe (slice 2 2 d) /\ ep st = e.
Proof.
  intros S. induction S as [m | m d0 l o m' N S I | m d0 h s0 l o m' U W S I | m d0 h l o m' U W L E S I | m d0 h l o m' U W L S I]; intros H.
  - destruct H.
  - exact (I H).
  - destruct H as [H | H]; [|exact (I H)]. injection H as <- <-. exists s0. destruct W as (a & b & W & K & P & _). destruct (served_adds e m l o m' S) as (_ & (c & A) & _).
    split; [rewrite A, W; apply in_or_app; left; apply in_or_app; right; left; reflexivity|]. repeat split; assumption.
  - destruct H as [H | H]; [discriminate H | exact (I H)].
  - exact (I H).
Qed.

Lemma served_from e m l o m' s d : served e m l o m' -> In (DRead s d) o -> In d l.
Proof.
  intros S. induction S as [m | m d0 l o m' N S I | m d0 h s0 l o m' U W S I | m d0 h l o m' U W L E S I | m d0 h l o m' U W L S I]; intros H.
  - destruct H.
  - right. exact (I H).
  - destruct H as [H | H]; [injection H as _ <-; left; reflexivity | right; exact (I H)].
  - destruct H as [H | H]; [discriminate H | right; exact (I H)].
  - right. exact (I H).
Qed.

(** A stream is given only datagrams with its own id that came from its own endpoint. *)
Theorem C110_own e l m r left m' lg st d : reached m -> onUdpPacket e l m = Ok (r, left, m', lg) -> In st (streams m') -> In (DRead (sid st) d) lg ->
  key st = unbe (slice 2 2 d) /\ ep st = e /\ In d l.
Proof.
  intros R E I H. assert (In d l /\ exists st', In st' (streams m') /\ sid st' = sid st /\ key st' = unbe (slice 2 2 d) /\ ep st' = e) as (D & st' & I' & Q & K & P).
  { destruct r.
    - destruct (C110_served e l m m' left lg E) as (o & fs & -> & S & _). apply in_app_or in H. destruct H as [H | H]; [|apply in_map_iff in H; destruct H as (x & X & _); discriminate X].
      split; [|exact (served_in e m l o m' _ d S H)]. exact (served_from e m l o m' _ d S H).
    - unfold onUdpPacket in E. destruct (negb (active m)); [injection E as _ _ <-; destruct H|]. destruct (headerSizes l); [|discriminate E]. cbn [bind] in E.
      match type of E with (if ?b then _ else _) = _ => destruct b; [injection E as _ _ <-; destruct H | discriminate E] end. }
  pose proof (packets_numbered e l m r left m' lg E (reached_numbered m R)) as [N _].
  rewrite (same_sid _ st' st N I' I Q) in K, P.
  repeat split; assumption.
Qed.

(** With incoming uTP switched off no datagram makes a stream. *)
Theorem C110_refused e l m r left m' lg : enableUtpIn m = false -> onUdpPacket e l m = Ok (r, left, m', lg) -> streams m' = streams m /\ forall s, ~ In (DNew s) lg.
Proof.
  intros EN E. destruct r.
  - destruct (C110_served e l m m' left lg E) as (o & fs & -> & S & _). assert (m' = m /\ forall s, ~ In (DNew s) o) as [-> N].
    { clear - S EN. induction S as [m | m d0 l o m' N S I | m d0 h s0 l o m' U W S I | m d0 h l o m' U W L E S I | m d0 h l o m' U W L S I]; try (exact (I EN)); try congruence.
      - split; [reflexivity | intros s []].
      - destruct (I EN) as [-> Q]. split; [reflexivity|]. intros s [H | H]; [discriminate H | exact (Q s H)]. }
    split; [reflexivity|]. intros s H. apply in_app_or in H. destruct H as [H | H]; [exact (N s H)|]. apply in_map_iff in H. destruct H as (x & X & _). discriminate X.
  - unfold onUdpPacket in E. destruct (negb (active m)); [injection E as _ <- <-; split; [reflexivity | intros s []]|]. destruct (headerSizes l); [|discriminate E]. cbn [bind] in E.
    match type of E with (if ?b then _ else _) = _ => destruct b; [injection E as _ <- <-; split; [reflexivity | intros s []] | discriminate E] end.
Qed.

(** A SYN with the id of a stream of that endpoint makes no stream. Missing: that is not the id under which the stream of a SYN is kept, see below. *)
Theorem C110_syn_once_partial e d h m s : active m = true -> utp d h -> owner (unbe (slice 2 2 d)) e (streams m) s ->
  onUdpPacket e [d] m = Ok (true, [], m, [DRead (sid s) d; DFinish (sid s)]).
Proof.
  intros A [G N] W. apply findEntry_owner in W. unfold onUdpPacket. rewrite A. cbn [negb headerSizes]. rewrite G. cbn [bind combine filter fst map length turns].
  destruct (Z.eqb_spec h 0) as [X|X]; [contradiction|]. cbn [map length Nat.eqb]. unfold turn, findStream. cbn [current mgr]. change (connection_id d) with (unbe (slice 2 2 d)). rewrite W.
  destruct (Z.eqb_spec h 0); [contradiction|]. reflexivity.
Qed.

Lemma syn_new e d h m : active m = true -> enableUtpIn m = true -> utp d h -> loneSyn d h -> (forall s, In s (streams m) -> ~ (key s = unbe (slice 2 2 d) /\ ep s = e)) ->
  onUdpPacket e [d] m = Ok (true, [], connectStream ((unbe (slice 2 2 d) + 1) mod 65536) e m, [DNew (fresh m)]).
Proof.
  intros A EN [G N] [S1 S2] F. unfold onUdpPacket. rewrite A. cbn [negb headerSizes]. rewrite G. cbn [bind combine filter fst map length turns].
  destruct (Z.eqb_spec h 0) as [X|X]; [contradiction|]. cbn [map length Nat.eqb]. unfold turn, findStream. cbn [current mgr]. change (connection_id d) with (unbe (slice 2 2 d)).
  destruct (findEntry (unbe (slice 2 2 d)) e (streams m)) as [s|] eqn:FE.
  - apply findEntry_owner in FE. destruct FE as (a & b & Q & K & P & _). destruct (F s); [rewrite Q; apply in_or_app; right; left; reflexivity | split; assumption].
  - unfold typeOf. rewrite S1, S2, !Z.eqb_refl. destruct (Z.eqb_spec h 0); [contradiction|]. cbn [andb]. unfold onNewConnection. cbn [mgr]. rewrite EN. reflexivity.
Qed.

(** So the same SYN once more, as every peer sends it when the answer is late, makes a second stream with the same id at the same endpoint. *)
Theorem C110_syn_once_refuted e d h m : active m = true -> enableUtpIn m = true -> bytes_ok d -> utp d h -> loneSyn d h -> (forall s, In s (streams m) -> ~ (key s = unbe (slice 2 2 d) /\ ep s = e)) ->
  exists m1 m2 s1 s2, onUdpPacket e [d] m = Ok (true, [], m1, [DNew (sid s1)]) /\ onUdpPacket e [d] m1 = Ok (true, [], m2, [DNew (sid s2)]) /\
                      streams m2 = streams m ++ [s1; s2] /\ sid s1 <> sid s2 /\ key s1 = key s2 /\ ep s1 = ep s2.
Proof.
  intros A EN B U S F. set (k := (unbe (slice 2 2 d) + 1) mod 65536).
  eexists (connectStream k e m), (connectStream k e (connectStream k e m)), {| sid := fresh m; key := k; ep := e |}, {| sid := Datatypes.S (fresh m); key := k; ep := e |}.
  split; [exact (syn_new e d h m A EN U S F)|]. split; [|cbn [sid key ep connectStream streams fresh]; rewrite <- app_assoc; repeat split; try reflexivity; lia].
  refine (syn_new e d h (connectStream k e m) A EN U S _). cbn [connectStream streams]. intros s I. apply in_app_or in I. destruct I as [I | [<- | []]]; [exact (F s I)|].
  cbn [key ep]. intros [K _]. subst k. assert (0 <= unbe (slice 2 2 d) < 65536) as R.
  { assert (bytes_ok (slice 2 2 d)) as B2.
    { unfold slice, bytes_ok in *. rewrite <- (firstn_skipn 2 d) in B. apply Forall_app in B as [_ B]. rewrite <- (firstn_skipn 2 (skipn 2 d)) in B. now apply Forall_app in B. }
    pose proof (unbe_range _ B2) as X. assert (length (slice 2 2 d) <= 2)%nat as Y by (unfold slice; rewrite firstn_length; lia).
    split; [lia|]. eapply Z.lt_le_trans; [apply X|]. change 65536 with (256 ^ 2). apply Z.pow_le_mono_r; unfold zlen; lia. }
  destruct (Z.eq_dec (unbe (slice 2 2 d)) 65535) as [Q | Q]; [rewrite Q in K; discriminate K|]. rewrite Z.mod_small in K by lia. lia.
Qed.

(** And the second one is given nothing, in any batch, as long as the first is there. *)
Theorem C110_shadowed e l m r left m' lg a s1 b s2 c : reached m -> streams m = a ++ s1 :: b ++ s2 :: c -> key s1 = key s2 -> ep s1 = ep s2 ->
  onUdpPacket e l m = Ok (r, left, m', lg) -> forall d, ~ In (DRead (sid s2) d) lg.
Proof.
  intros R SM K P E d H. destruct r.
  2:{ unfold onUdpPacket in E. destruct (negb (active m)); [injection E as _ _ <-; destruct H|]. destruct (headerSizes l); [|discriminate E]. cbn [bind] in E.
      match type of E with (if ?b then _ else _) = _ => destruct b; [injection E as _ _ <-; destruct H | discriminate E] end. }
  destruct (C110_served e l m m' left lg E) as (o & fs & -> & S & _). apply in_app_or in H. destruct H as [H | H]; [|apply in_map_iff in H; destruct H as (x & X & _); discriminate X].
  pose proof (proj1 (reached_numbered m R)) as N. pose proof (reached_numbered m R) as N0. clear R E. revert c SM N N0 H.
  induction S as [m | m d0 l o m' NU S I | m d0 h s0 l o m' U W S I | m d0 h l o m' U W L E S I | m d0 h l o m' U W L S I]; intros c SM N N0 H.
  - destruct H.
  - exact (I c SM N N0 H).
  - destruct H as [H | H]; [|exact (I c SM N N0 H)]. injection H as Q _. destruct W as (a' & b' & SM' & K' & P' & F).
    assert (s0 = s2) as ->.
    { assert (In s0 (streams m)) as I0 by (rewrite SM'; apply in_or_app; right; left; reflexivity). assert (In s2 (streams m)) as I2 by (rewrite SM; apply in_or_app; right; right; apply in_or_app; right; left; reflexivity).
      exact (same_sid _ s0 s2 N I0 I2 Q). }
    assert (a' = a ++ s1 :: b) as ->.
    { rewrite SM in SM'. assert (NoDup (a ++ s1 :: b ++ s2 :: c)) as ND by (apply (NoDup_map_inv sid); rewrite SM in N; exact N).
      replace (a ++ s1 :: b ++ s2 :: c) with ((a ++ s1 :: b) ++ s2 :: c) in SM', ND by (rewrite <- app_assoc; reflexivity). symmetry. clear - SM' ND. revert a' SM' ND.
      generalize (a ++ s1 :: b). intros x. induction x as [|y x IH]; intros a' E ND; destruct a' as [|y' a'].
      - reflexivity.
      - cbn [app] in E, ND. injection E as -> E. inversion ND as [|p q X Y]; subst. destruct X. apply in_or_app. right. left. reflexivity.
      - cbn [app] in E, ND. injection E as -> E. inversion ND as [|p q X Y]; subst. destruct X. apply in_or_app. right. left. reflexivity.
      - cbn [app] in E, ND. injection E as -> E. inversion ND as [|p q X Y]; subst. f_equal. exact (IH a' E Y). }
    apply (F s1); [apply in_or_app; right; left; reflexivity | split; congruence].
  - destruct H as [H | H]; [discriminate H|]. pose proof (numbered_connect ((unbe (slice 2 2 d0) + 1) mod 65536) e m N0) as N1. unfold connectStream in N1. rewrite E in N1.
    refine (I (c ++ [{| sid := fresh m; key := (unbe (slice 2 2 d0) + 1) mod 65536; ep := e |}]) _ (proj1 N1) N1 H). cbn [streams]. rewrite SM. rewrite <- app_assoc. cbn [app]. rewrite <- app_assoc. reflexivity.
  - exact (I c SM N N0 H).
Qed.

(** A SYN and a packet of data *)
Definition syn : list Z := [65; 0; 255; 255] ++ repeat 0 16.
Definition data : list Z := [1; 0; 0; 0] ++ repeat 0 16 ++ [7; 8].

Example C110_served_ex : exists m, run [EPackets 5 [syn; [1; 2]; data]; EPackets 6 [data]; EPackets 5 [syn]; EPackets 5 [data; data]] (newManager true) =
  Ok (m, [DNew 0; DRead 0 data; DFinish 0; DNew 1; DRead 0 data; DRead 0 data; DFinish 0]) /\ streams m = [{| sid := 0; key := 0; ep := 5 |}; {| sid := 1; key := 0; ep := 5 |}].
Proof. eexists. vm_compute. split; reflexivity. Qed.
Example C110_syn_ex : utp syn 20 /\ loneSyn syn 20 /\ bytes_ok syn /\ utp data 20 /\ notUtp [1; 2].
Proof.
  split; [split; [reflexivity | discriminate]|]. split; [split; reflexivity|]. split; [|split; [split; [reflexivity | discriminate] | reflexivity]].
  unfold bytes_ok, syn. cbn [app repeat]. repeat (apply Forall_cons; [unfold is_byte; lia|]). apply Forall_nil.
Qed.

Print Assumptions C110_served.
Print Assumptions C110_left.
Print Assumptions C110_total.
Print Assumptions C110_own.
Print Assumptions C110_refused.
Print Assumptions C110_syn_once_partial.
Print Assumptions C110_syn_once_refuted.
Print Assumptions C110_shadowed.
