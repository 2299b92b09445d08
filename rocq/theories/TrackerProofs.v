(** Proofs about the tracker manager. *)
From Verif Require Import Base BaseLemmas QueryProofs UriModel TrackerModel.

Definition ent (s : tmgr) (i : nat) : tinfo := nth i (mtr s) noInfo.

Lemma ent_updTr s i f k : (i < length (mtr s))%nat -> ent (updTr s i f) k = if Nat.eqb k i then f (ent s i) else ent s k.
Proof.
  intros H. unfold ent, updTr, setTr. cbn [mtr]. destruct (Nat.eqb_spec k i) as [->|N]; [now apply nth_upd_same|now apply nth_upd_other].
Qed.

Lemma findComm_some c l : forall i, findComm c l = Some i -> (i < length l)%nat /\ tcomm (nth i l noInfo) = Some c.
Proof.
  induction l as [|t l IH]; intros i H; [discriminate|]. cbn in H.
  destruct (match tcomm t with Some c' => c' =? c | None => false end) eqn:E.
  - injection H as <-. cbn. split; [lia|]. destruct (tcomm t); [|discriminate]. f_equal. lia.
  - destruct (findComm c l) as [k|]; [|discriminate]. injection H as <-. destruct (IH k eq_refl). cbn [nth length]. split; [lia|assumption].
Qed.

Lemma findComm_none c l : findComm c l = None -> forall i, tcomm (nth i l noInfo) <> Some c.
Proof.
  induction l as [|t l IH]; intros H i; [destruct i; discriminate|]. cbn in H.
  destruct (match tcomm t with Some c' => c' =? c | None => false end) eqn:E; [discriminate|].
  destruct (findComm c l) as [k|]; [discriminate|]. destruct i; cbn [nth]; [|now apply IH]. destruct (tcomm t); [|discriminate]. intros X. injection X as ->. lia.
Qed.

Lemma findHost_some h l : forall i, findHost h l = Some i -> (i < length l)%nat /\ thost (nth i l noInfo) = h.
Proof.
  induction l as [|t l IH]; intros i H; [discriminate|]. cbn in H. destruct (list_eqb (thost t) h) eqn:E.
  - injection H as <-. cbn. split; [lia|]. now apply list_eqb_spec.
  - destruct (findHost h l) as [k|]; [|discriminate]. injection H as <-. destruct (IH k eq_refl). cbn [nth length]. split; [lia|assumption].
Qed.

Lemma findHost_none h l : findHost h l = None -> ~ In h (map thost l).
Proof.
  induction l as [|t l IH]; intros H; [auto|]. cbn in H. destruct (list_eqb (thost t) h) eqn:E; [discriminate|].
  destruct (findHost h l); [discriminate|]. cbn. intros [X|X]; [|now apply IH]. subst h. rewrite list_eqb_refl in E. discriminate.
Qed.

(** ** Hosts and ports *)

Definition hp (s : tmgr) : list (list Z * list Z) := map (fun t => (thost t, tport t)) (mtr s).

Lemma hp_updTr s i f : (forall t, thost (f t) = thost t /\ tport (f t) = tport t) -> hp (updTr s i f) = hp s.
Proof.
  intros H. unfold hp, updTr, setTr. cbn [mtr]. destruct (Nat.ltb_spec i (length (mtr s))) as [L|L].
  - rewrite map_upd. destruct (H (nth i (mtr s) noInfo)) as [-> ->].
    rewrite <- (upd_nth i (map (fun t => (thost t, tport t)) (mtr s)) ([], [])) at 2. f_equal.
    change (@nil Z, @nil Z) with ((fun t => (thost t, tport t)) noInfo). now rewrite map_nth.
  - rewrite upd_oob by lia. reflexivity.
Qed.

Lemma hp_start ssl s i : hp (startTracker ssl s i) = hp s.
Proof.
  unfold startTracker. destruct (_ || _); [|reflexivity]. apply (hp_updTr s i (fun t => {| tproto := tproto t; thost := thost t; tport := tport t; tfull := tfull t; tcomm := Some (mnextc s); ttimer := Some (mgen s); tfallback := tfallback t; tused := tused t; tretry := 0 |})).
  auto.
Qed.

Lemma hp_startFrom ssl n : forall s i, hp (startFrom ssl s i n) = hp s.
Proof. induction n; intros s i; [reflexivity|]. cbn. rewrite IHn. apply hp_start. Qed.

Lemma hp_step ssl s e s' : tstep ssl s e = Ok s' -> match e with TAdd _ | TRemove => True | _ => hp s' = hp s end.
Proof.
  destruct e; cbn [tstep]; intros H; auto.
  - injection H as <-. unfold startAll. rewrite hp_startFrom. reflexivity.
  - injection H as <-. unfold hp, stopAll. cbn [mtr]. rewrite map_map. reflexivity.
  - injection H as <-. unfold onAnnounced. destruct (negb _); [reflexivity|]. destruct (findComm _ _); [|reflexivity].
    apply (hp_updTr s n (fun t => setRetry t 0)). auto.
  - injection H as <-. unfold onTrackerFail. destruct (negb _); [reflexivity|]. destruct (findComm _ _); [|reflexivity].
    destruct (_ && _ && _); [apply (hp_updTr s n (fun t => setProto t pHttp true)); auto|].
    destruct (_ && _ && _); [rewrite hp_start; apply hp_updTr; auto|]. apply (hp_updTr s n (fun t => setRetry t (u32 (tretry (nth n (mtr s) noInfo) + 1)))). auto.
  - unfold runPosted in H. destruct (mposted s) as [|[g i] l]; [injection H as <-; reflexivity|]. destruct (_ && _); [|discriminate]. injection H as <-.
    rewrite hp_start. rewrite hp_updTr by auto. reflexivity.
  - unfold timerFires in H. destruct (ttimer _); [|injection H as <-; reflexivity]. destruct (_ =? _); [|discriminate]. destruct (tcomm _); [|discriminate].
    injection H as <-. reflexivity.
Qed.

Lemma hp_add s a : hp (addTracker s a) = hp s \/
  (hp (addTracker s a) = hp s ++ [(uhost (uriParse a), uport (uriParse a))] /\
   (uport (uriParse a) <> [] -> forall k, findHost (uhost (uriParse a)) (mtr s) = Some k -> tport (ent s k) <> uport (uriParse a))).
Proof.
  unfold addTracker. cbn zeta. destruct (uport (uriParse a)) as [|p0 p] eqn:EP; cbn [negb].
  - destruct (list_eqb _ _); [|auto]. right. split; [|congruence]. unfold hp, pushBack. cbn [mtr]. rewrite map_app. reflexivity.
  - destruct (findHost _ _) as [k|] eqn:F.
    + destruct (list_eqb (tport _) _) eqn:E.
      * destruct (_ && _ && _); [|auto]. left. apply hp_updTr. auto.
      * right. split; [unfold hp, pushBack; cbn [mtr]; rewrite map_app; reflexivity|]. intros _ k' K'. injection K' as <-. unfold ent. intros X. rewrite X, list_eqb_refl in E. discriminate.
    + right. split; [unfold hp, pushBack; cbn [mtr]; rewrite map_app; reflexivity|]. discriminate.
Qed.

Fixpoint adds (es : list tevent) : list (list Z) :=
  match es with [] => [] | TAdd a :: es' => a :: adds es' | _ :: es' => adds es' end.

Section Unique.
Variable OK : list (list Z).
Hypothesis oneport : forall a b, In a OK -> In b OK -> uhost (uriParse a) = uhost (uriParse b) -> uport (uriParse a) = uport (uriParse b).
Hypothesis someport : forall a, In a OK -> uport (uriParse a) <> [].

Definition uinv (s : tmgr) : Prop := NoDup (map fst (hp s)) /\ forall x, In x (hp s) -> exists a, In a OK /\ x = (uhost (uriParse a), uport (uriParse a)).

Lemma uinv_run ssl es : forall s s', (forall a, In a (adds es) -> In a OK) -> uinv s -> trun ssl s es = Ok s' -> uinv s'.
Proof using oneport someport.
  induction es as [|e es IH]; intros s s' A [U1 U2] R; cbn in R; [injection R as <-; split; assumption|].
  destruct (tstep ssl s e) as [s1|] eqn:E; [|discriminate]. cbn [bind] in R. apply (IH s1 s'); try exact R.
  { intros a I. apply A. destruct e; cbn; auto. }
  pose proof (hp_step ssl s e s1 E) as H. destruct e as [a| | | |c n|c| |i]; cbn [tstep] in E; try (unfold uinv; rewrite H; now split).
  - injection E as <-. destruct (hp_add s a) as [X|[X Y]]; [unfold uinv; rewrite X; now split|].
    assert (IA : In a OK) by (apply A; cbn; auto). split.
    + rewrite X, map_app. cbn [map fst].
      assert (N : ~ In (uhost (uriParse a)) (map fst (hp s))).
      { intros I. destruct (findHost (uhost (uriParse a)) (mtr s)) as [k|] eqn:F.
        - apply (Y (someport a IA) k eq_refl). destruct (findHost_some _ _ _ F) as [L T].
          assert (IK : In (thost (ent s k), tport (ent s k)) (hp s)) by (unfold hp; apply in_map_iff; exists (ent s k); split; [reflexivity|now apply nth_In]).
          destruct (U2 _ IK) as (b & IB & EB). injection EB as E1 E2. rewrite E2. apply oneport; try assumption. unfold ent in E1. congruence.
        - apply findHost_none in F. apply F. unfold hp in I. rewrite map_map in I. exact I. }
      clear - U1 N. induction (map fst (hp s)) as [|x l IHl]; cbn [app]; [constructor; [auto|constructor]|].
      inversion U1; subst. constructor.
      * rewrite in_app_iff. cbn. intros [I|[I|[]]]; [contradiction|]. apply N. left. now symmetry.
      * apply IHl; [assumption|]. intros I. apply N. now right.
    + intros x I. rewrite X in I. apply in_app_or in I as [I|[<-|[]]]; [now apply U2|]. exists a. auto.
  - injection E as <-. unfold uinv, hp. cbn. split; [constructor|easy].
Qed.
End Unique.

(** ** What holds in every state *)

Definition inv (s : tmgr) : Prop :=
  (forall i c, tcomm (ent s i) = Some c -> c < mnextc s) /\
  (forall i j c, tcomm (ent s i) = Some c -> tcomm (ent s j) = Some c -> i = j) /\
  (forall g j, In (g, j) (mposted s) -> g <= mgen s /\ (g = mgen s -> (j < length (mtr s))%nat /\ tfallback (ent s j) = true)) /\
  (forall i g, ttimer (ent s i) = Some g -> tcomm (ent s i) <> None) /\
  (forall i, tfallback (ent s i) = true -> tproto (ent s i) = pUdp \/ tproto (ent s i) = pHttp).

Lemma inv_new : inv newMgr.
Proof. unfold inv, ent, newMgr. cbn. refine (conj _ (conj _ (conj _ (conj _ _)))); intros; try (destruct i; discriminate); try contradiction. Qed.

(** Changing an entry without its communication object. *)
Lemma inv_upd s i f : (i < length (mtr s))%nat -> inv s ->
  (forall t, tcomm (f t) = tcomm t /\ ttimer (f t) = ttimer t /\ (tfallback t = true -> tfallback (f t) = true)) ->
  (tfallback (f (ent s i)) = true -> tproto (f (ent s i)) = pUdp \/ tproto (f (ent s i)) = pHttp) -> inv (updTr s i f).
Proof.
  intros L (A & B & C & D & E) F G.
  assert (CM : forall k, tcomm (ent (updTr s i f) k) = tcomm (ent s k)).
  { intros k. rewrite ent_updTr by assumption. destruct (Nat.eqb_spec k i) as [->|]; [apply F|reflexivity]. }
  refine (conj _ (conj _ (conj _ (conj _ _)))).
  - intros k c. rewrite CM. apply A.
  - intros k j c. rewrite !CM. apply B.
  - intros g j I. destruct (C g j I) as [C1 C2]. split; [exact C1|]. intros Eg. destruct (C2 Eg) as [C3 C4]. split; [unfold updTr, setTr; cbn [mtr]; rewrite upd_length; exact C3|].
    rewrite ent_updTr by assumption. destruct (Nat.eqb_spec j i) as [->|]; [apply F; exact C4|exact C4].
  - intros k g. rewrite CM, ent_updTr by assumption. destruct (Nat.eqb_spec k i) as [->|]; [destruct (F (ent s i)) as (_ & -> & _)|]; apply D.
  - intros k. rewrite ent_updTr by assumption. destruct (Nat.eqb_spec k i) as [->|]; [exact G|apply E].
Qed.

(** States with the same entries. *)
Lemma inv_same s s' : mtr s' = mtr s -> mnextc s' = mnextc s -> mgen s' = mgen s -> (forall x, In x (mposted s') -> In x (mposted s)) -> inv s -> inv s'.
Proof.
  intros E1 E2 E3 E4 (A & B & C & D & E). unfold inv, ent in *. rewrite E1, E2, E3. refine (conj A (conj B (conj _ (conj D E)))).
  intros g j I. now apply C, E4.
Qed.

Lemma ent_start ssl s i k : (i < length (mtr s))%nat ->
  startTracker ssl s i = s \/ (mnextc (startTracker ssl s i) = mnextc s + 1 /\ mgen (startTracker ssl s i) = mgen s /\ mposted (startTracker ssl s i) = mposted s /\
  length (mtr (startTracker ssl s i)) = length (mtr s) /\ mlog (startTracker ssl s i) = mlog s /\ mcb (startTracker ssl s i) = mcb s /\
  ent (startTracker ssl s i) k = if Nat.eqb k i then {| tproto := tproto (ent s i); thost := thost (ent s i); tport := tport (ent s i); tfull := tfull (ent s i); tcomm := Some (mnextc s); ttimer := Some (mgen s);
                 tfallback := tfallback (ent s i); tused := tused (ent s i); tretry := 0 |} else ent s k).
Proof.
  intros L. unfold startTracker. fold (ent s i). destruct (_ || _); [right|now left]. cbn [mnextc mgen mposted mtr mlog mcb]. rewrite upd_length.
  refine (conj eq_refl (conj eq_refl (conj eq_refl (conj eq_refl (conj eq_refl (conj eq_refl _)))))).
  unfold ent at 1. cbn [mtr]. destruct (Nat.eqb_spec k i) as [->|]; [now apply nth_upd_same|now apply nth_upd_other].
Qed.

(** The entry may lack only what starting gives it. *)
Lemma inv_start ssl s i : (i < length (mtr s))%nat -> inv s -> inv (startTracker ssl s i).
Proof.
  intros L (A & B & C & D & E). destruct (ent_start ssl s i 0 L) as [-> |(N & G & P & LN & _)]; [unfold inv; auto 6|].
  assert (EK : forall k, ent (startTracker ssl s i) k = if Nat.eqb k i then {| tproto := tproto (ent s i); thost := thost (ent s i); tport := tport (ent s i); tfull := tfull (ent s i); tcomm := Some (mnextc s); ttimer := Some (mgen s);
                 tfallback := tfallback (ent s i); tused := tused (ent s i); tretry := 0 |} else ent s k).
  { intros k. destruct (ent_start ssl s i k L) as [X|X]; [rewrite X in N; lia|apply X]. }
  unfold inv. rewrite N, G, P, LN. refine (conj _ (conj _ (conj _ (conj _ _)))).
  - intros k c. rewrite EK. destruct (Nat.eqb k i); cbn [tcomm]; intros X; [injection X as <-; lia|]. specialize (A k c X). lia.
  - intros k j c. rewrite !EK. destruct (Nat.eqb_spec k i) as [->|Nk], (Nat.eqb_spec j i) as [->|Nj]; cbn [tcomm]; intros X Y; auto.
    + injection X as <-. specialize (A _ _ Y). lia.
    + injection Y as <-. specialize (A _ _ X). lia.
    + eapply B; eassumption.
  - intros g j I. destruct (C g j I) as [C1 C2]. split; [exact C1|]. intros Eg. destruct (C2 Eg) as [C3 C4]. split; [exact C3|]. rewrite EK. destruct (Nat.eqb_spec j i) as [->|]; assumption.
  - intros k g. rewrite EK. destruct (Nat.eqb k i); [discriminate|apply D].
  - intros k. rewrite EK. destruct (Nat.eqb k i); cbn [tfallback tproto]; apply E.
Qed.

Lemma inv_startFrom ssl n : forall s i, (i + n <= length (mtr s))%nat -> inv s -> inv (startFrom ssl s i n).
Proof.
  induction n; intros s i L I; [exact I|]. cbn. apply IHn; [|apply inv_start; [lia|exact I]].
  destruct (ent_start ssl s i 0 ltac:(lia)) as [-> |(_ & _ & _ & -> & _)]; lia.
Qed.

Lemma ent_push s t k : ent (pushBack s t) k = if Nat.eqb k (length (mtr s)) then t else ent s k.
Proof.
  unfold ent, pushBack. cbn [mtr]. destruct (Nat.eqb_spec k (length (mtr s))) as [->|].
  - rewrite app_nth2 by lia. now rewrite Nat.sub_diag.
  - destruct (Nat.ltb_spec k (length (mtr s))); [now rewrite app_nth1|]. rewrite app_nth2 by lia. rewrite (nth_overflow (mtr s)) by lia.
    destruct (k - length (mtr s))%nat as [|[|m]] eqn:X; [lia|reflexivity|reflexivity].
Qed.

Lemma inv_push s t : tcomm t = None -> ttimer t = None -> tfallback t = false -> inv s -> inv (pushBack s t).
Proof.
  intros T1 T2 T3 (A & B & C & D & E). unfold inv. 
  refine (conj _ (conj _ (conj _ (conj _ _)))).
  - intros i c. rewrite ent_push. destruct (Nat.eqb _ _); [rewrite T1; discriminate|]. apply A.
  - intros i j c. rewrite !ent_push. destruct (Nat.eqb_spec i (length (mtr s))), (Nat.eqb_spec j (length (mtr s))); try (rewrite T1; discriminate); try lia. apply B.
  - intros g j I. destruct (C g j I) as [C1 C2]. unfold pushBack. cbn [mgen mtr]. destruct (Nat.eqb (length (mtr s)) (mcap s)).
    + split; [lia|]. intros X. lia.
    + split; [exact C1|]. intros X. destruct (C2 X) as [C3 C4]. split; [rewrite app_length; cbn; lia|]. fold (pushBack s t).
      unfold ent in *. cbn [mtr]. rewrite app_nth1 by lia. exact C4.
  - intros i g. rewrite ent_push. destruct (Nat.eqb _ _); [rewrite T2; discriminate|]. apply D.
  - intros i. rewrite ent_push. destruct (Nat.eqb _ _); [rewrite T3; discriminate|]. apply E.
Qed.

(** A restart of an entry whose communication object was dropped. *)
Lemma restart_same ssl s i : (i < length (mtr s))%nat -> tfallback (ent s i) = true -> (tproto (ent s i) = pUdp \/ tproto (ent s i) = pHttp) ->
  startTracker ssl (updTr s i noComm) i = startTracker ssl s i.
Proof.
  intros L F P. unfold startTracker. fold (ent (updTr s i noComm) i). rewrite ent_updTr, Nat.eqb_refl by assumption. fold (ent s i).
  cbn [noComm tproto thost tport tfull tfallback tused]. 
  replace (list_eqb (tproto (ent s i)) pUdp || list_eqb (tproto (ent s i)) pHttp || (ssl && list_eqb (tproto (ent s i)) pHttps)) with true.
  2:{ destruct P as [-> | ->]; reflexivity. }
  unfold updTr, setTr. cbn [mtr mcap mgen mnextc mcb mposted mlog mannounced]. rewrite upd_upd_same. reflexivity.
Qed.

Lemma inv_step ssl s e s' : inv s -> tstep ssl s e = Ok s' -> inv s'.
Proof.
  intros I H. destruct e as [a| | | |c n|c| |i]; cbn [tstep] in H.
  - injection H as <-. unfold addTracker. cbn zeta. destruct (negb _).
    + destruct (findHost _ _) as [k|] eqn:F; [|apply inv_push; auto]. destruct (findHost_some _ _ _ F) as [L _].
      destruct (list_eqb _ _); [|apply inv_push; auto]. destruct (_ && _ && _); [|exact I]. apply inv_upd; auto.
    + destruct (list_eqb _ _); [apply inv_push; auto|exact I].
  - injection H as <-. unfold startAll. apply inv_startFrom; [cbn; lia|]. eapply inv_same; [..|exact I]; auto.
  - injection H as <-. destruct I as (A & B & C & D & E). unfold inv, stopAll.
    assert (EN : forall i, tcomm (nth i (mtr (stopAll s)) noInfo) = None /\ ttimer (nth i (mtr (stopAll s)) noInfo) = None /\
              tfallback (nth i (mtr (stopAll s)) noInfo) = tfallback (ent s i) /\ tproto (nth i (mtr (stopAll s)) noInfo) = tproto (ent s i)).
    { intros i. unfold stopAll, ent. cbn [mtr]. set (f := fun t => _). destruct (Nat.ltb_spec i (length (mtr s))) as [L|L].
      - rewrite nth_indep with (d' := f noInfo) by now rewrite map_length. rewrite map_nth. unfold f. cbn. auto.
      - rewrite !nth_overflow by (try rewrite map_length; lia). cbn. auto. }
    unfold ent in *. cbn [mtr mnextc mposted mgen]. cbn [mtr stopAll] in EN.
    refine (conj _ (conj _ (conj _ (conj _ _)))).
    + intros i c. destruct (EN i) as (-> & _). discriminate.
    + intros i j c. destruct (EN i) as (-> & _). discriminate.
    + intros g j J. destruct (C g j J) as [C1 C2]. split; [exact C1|]. intros X. destruct (C2 X). rewrite map_length. split; [assumption|]. destruct (EN j) as (_ & _ & -> & _). assumption.
    + intros i g. destruct (EN i) as (_ & -> & _). discriminate.
    + intros i. destruct (EN i) as (_ & _ & -> & ->). apply E.
  - injection H as <-. destruct I as (_ & _ & C & _). unfold inv, ent, removeAll. cbn [mtr mnextc mposted mgen].
    refine (conj _ (conj _ (conj _ (conj _ _)))); try (intros i; destruct i; discriminate). intros g j J. destruct (C g j J). split; [lia|]. intros X. lia.
  - injection H as <-. unfold onAnnounced. destruct (negb _); [exact I|]. destruct (findComm _ _) as [i|] eqn:F; [|exact I].
    destruct (findComm_some _ _ _ F) as [L _]. eapply (inv_same (updTr s i (fun t => setRetry t 0))); auto. apply inv_upd; auto. intros X. apply I. exact X.
  - injection H as <-. unfold onTrackerFail. destruct (negb _); [exact I|]. destruct (findComm _ _) as [i|] eqn:F; [|exact I].
    destruct (findComm_some _ _ _ F) as [L _]. fold (ent s i). cbn zeta. destruct (tfallback _ && negb _ && _) eqn:FB.
    + assert (J : inv (updTr s i (fun t => setProto t pHttp true))) by (apply inv_upd; auto).
      destruct J as (A & B & C & D & E). unfold inv, ent in *. cbn [mtr mnextc mposted mgen updTr setTr] in *. refine (conj A (conj B (conj _ (conj D E)))).
      intros g j J. apply in_app_or in J as [J|[J|[]]]; [now apply C|]. injection J as <- <-. split; [lia|]. intros _. rewrite upd_length. split; [exact L|].
      rewrite nth_upd_same by assumption. cbn [setProto tfallback]. apply andb_prop in FB as [FB _]. apply andb_prop in FB as [FB _]. exact FB.
    + destruct (tfallback (ent s i) && tused (ent s i) && _); [apply inv_start; [unfold updTr, setTr; cbn [mtr]; now rewrite upd_length|]; apply inv_upd; auto|].
      eapply (inv_same (updTr s i (fun t => setRetry t (u32 (tretry (ent s i) + 1))))); auto. apply inv_upd; auto. intros X. apply I. exact X.
  - unfold runPosted in H. destruct (mposted s) as [|[g i] l] eqn:P; [injection H as <-; exact I|]. 
    destruct ((g =? mgen s) && Nat.ltb i (length (mtr s))) eqn:G; [|discriminate]. injection H as <-. set (s1 := {| mtr := mtr s; mcap := _; mgen := _; mnextc := _; mcb := _; mposted := l; mlog := _; mannounced := _ |}).
    assert (J : inv s1) by (apply (inv_same s s1); auto; intros x X; rewrite P; now right).
    destruct I as (A & B & C & D & E). destruct (C g i) as [_ C2]; [rewrite P; now left|]. destruct C2 as [C3 C4]; [lia|].
    rewrite restart_same; [apply inv_start; assumption|exact C3|exact C4|apply E; exact C4].
  - unfold timerFires in H. destruct (ttimer _); [|injection H as <-; exact I]. destruct (_ =? _); [|discriminate]. destruct (tcomm _); [|discriminate].
    injection H as <-. eapply inv_same; [..|exact I]; auto.
Qed.

Lemma inv_run ssl es : forall s s', inv s -> trun ssl s es = Ok s' -> inv s'.
Proof.
  induction es as [|e es IH]; intros s s' I R; cbn in R; [injection R as <-; exact I|]. destruct (tstep ssl s e) as [s1|] eqn:E; [|discriminate].
  cbn [bind] in R. apply (IH s1 s'); [|exact R]. eapply inv_step; eassumption.
Qed.
