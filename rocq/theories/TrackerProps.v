(** C42: trackers are kept without duplicates and retried with back-off. *)
From Verif Require Import Base BaseLemmas QueryProofs UriModel TrackerModel TrackerProofs.

(** ** No duplicates *)

(** Addresses, added in any order and between any other events, that do not name one host with
    two ports and all give a port: no host has two entries. *)
Theorem C42_unique_partial : forall ssl es s,
  (forall a, In a (adds es) -> uport (uriParse a) <> []) ->
  (forall a b, In a (adds es) -> In b (adds es) -> uhost (uriParse a) = uhost (uriParse b) -> uport (uriParse a) = uport (uriParse b)) ->
  trun ssl newMgr es = Ok s -> NoDup (map thost (mtr s)).
Proof.
  intros ssl es s P O R. pose proof (uinv_run (adds es) O P ssl es newMgr s (fun a I => I)) as H.
  destruct H as [N _]; [split; [constructor|easy]|exact R|]. unfold hp in N. rewrite map_map in N. exact N.
Qed.
Print Assumptions C42_unique_partial.

(** Every entry's host and port are of an address added. *)
Theorem C42_only_added : forall ssl es s t, trun ssl newMgr es = Ok s -> In t (mtr s) ->
  exists a, In a (adds es) /\ thost t = uhost (uriParse a) /\ tport t = uport (uriParse a).
Proof.
  intros ssl es s t R I.
  assert (G : forall es s0 s, trun ssl s0 es = Ok s -> forall x, In x (hp s) -> In x (hp s0) \/ exists a, In a (adds es) /\ x = (uhost (uriParse a), uport (uriParse a))).
  { clear. induction es as [|e es IH]; intros s0 s R x I; cbn in R; [injection R as <-; auto|]. destruct (tstep ssl s0 e) as [s1|] eqn:E; [|discriminate]. cbn [bind] in R.
    destruct (IH s1 s R x I) as [J|(a & J & ->)]; [|right; exists a; split; [destruct e; cbn; auto|reflexivity]].
    pose proof (hp_step ssl s0 e s1 E) as H. destruct e as [a| | | |c n|c| |i]; try (left; rewrite <- H; exact J).
    - cbn [tstep] in E. injection E as <-. destruct (hp_add s0 a) as [X|[X _]]; rewrite X in J; [auto|]. apply in_app_or in J as [J|[<-|[]]]; [auto|]. right. exists a. cbn. auto.
    - cbn [tstep] in E. injection E as <-. destruct J. }
  destruct (G es newMgr s R (thost t, tport t)) as [[]|(a & J & E)]; [unfold hp; apply in_map_iff; exists t; auto|].
  exists a. injection E as -> ->. auto.
Qed.
Print Assumptions C42_only_added.

(** "udp://h:1", "udp://h:2" and "udp://h:2" again: the search by host finds the first only. *)
Definition uh1 : list Z := [117;100;112;58;47;47;104;58;49].
Definition uh2 : list Z := [117;100;112;58;47;47;104;58;50].
Definition hh1 : list Z := [104;116;116;112;58;47;47;104;58;49].
Definition ug1 : list Z := [117;100;112;58;47;47;103;58;49].
Definition hsh : list Z := [104;116;116;112;115;58;47;47;104].

Theorem C42_duplicate_refuted : exists es s i j, trun false newMgr es = Ok s /\ (i < length (mtr s))%nat /\ (j < length (mtr s))%nat /\ i <> j /\
  thost (ent s i) = thost (ent s j) /\ tport (ent s i) = tport (ent s j) /\ tproto (ent s i) = tproto (ent s j) /\ tport (ent s i) <> [].
Proof.
  eexists [TAdd uh1; TAdd uh2; TAdd uh2], _, 1%nat, 2%nat. split; [reflexivity|].
  refine (conj _ (conj _ (conj _ (conj _ (conj _ (conj _ _)))))); vm_compute; try lia; try reflexivity; discriminate.
Qed.
Print Assumptions C42_duplicate_refuted.

(** An https address without a port is added every time. *)
Theorem C42_https_duplicate_refuted : exists s, trun true newMgr [TAdd hsh; TAdd hsh] = Ok s /\ ent s 0 = ent s 1 /\ length (mtr s) = 2%nat.
Proof. eexists. split; [reflexivity|]. now vm_compute. Qed.
Print Assumptions C42_https_duplicate_refuted.

Example C42_unique_meets :
  match trun false newMgr [TAdd uh1; TAdd ug1; TAdd hh1; TStart; TAdd uh1] with
  | Ok s => map thost (mtr s) = [[104]; [103]] /\ map tport (mtr s) = [[49]; [49]]
  | UB => False
  end.
Proof. vm_compute. auto. Qed.

(** ** Back-off *)

(** The delays the code asks for, by the words of the claim: thirty seconds times the number of
    failures since the last success; after a success what the tracker said. *)
Fixpoint delays (c : Z) (es : list tevent) (n : Z) : list (Z * Z) :=
  match es with
  | [] => []
  | TFailed c' :: es' => if c' =? c then (c, 30 * (n + 1)) :: delays c es' (n + 1) else delays c es' n
  | TAnnounced c' iv :: es' => if c' =? c then (c, iv) :: delays c es' 0 else delays c es' n
  | _ :: es' => delays c es' n
  end.

(** Between start and stop, without new trackers. *)
Definition calm (e : tevent) : Prop := match e with TFailed _ | TAnnounced _ _ | TPosted | TTimer _ => True | _ => False end.

Definition ofComm (c : Z) (l : list (Z * Z)) : list (Z * Z) := filter (fun p => fst p =? c) l.

Lemma ofComm_app c l l' : ofComm c (l ++ l') = ofComm c l ++ ofComm c l'.
Proof. apply filter_app. Qed.

(** One event and a tracker without fallback. *)
Lemma calm_step ssl s e s' i c : inv s -> calm e -> mcb s = true -> (i < length (mtr s))%nat -> tcomm (ent s i) = Some c -> tfallback (ent s i) = false ->
  0 <= 30 * (tretry (ent s i) + 1) < 2 ^ 32 -> 0 <= tretry (ent s i) -> tstep ssl s e = Ok s' ->
  mcb s' = true /\ (i < length (mtr s'))%nat /\ tcomm (ent s' i) = Some c /\ tfallback (ent s' i) = false /\
  tretry (ent s' i) = match e with TFailed c' => if c' =? c then tretry (ent s i) + 1 else tretry (ent s i) | TAnnounced c' _ => if c' =? c then 0 else tretry (ent s i) | _ => tretry (ent s i) end /\
  ofComm c (mlog s') = ofComm c (mlog s) ++ match e with TFailed c' => if c' =? c then [(c, 30 * (tretry (ent s i) + 1))] else [] | TAnnounced c' n => if c' =? c then [(c, n)] else [] | _ => [] end.
Proof.
  intros I K CB L C F B B0 H.
  assert (SAME : forall j s', ent s' i = ent s i -> length (mtr s') = length (mtr s) -> mcb s' = true -> (exists l, mlog s' = mlog s ++ l /\ ofComm c l = []) -> j = i \/ j <> i ->
    mcb s' = true /\ (i < length (mtr s'))%nat /\ tcomm (ent s' i) = Some c /\ tfallback (ent s' i) = false /\ tretry (ent s' i) = tretry (ent s i) /\ ofComm c (mlog s') = ofComm c (mlog s) ++ []).
  { clear - L C F. intros _ s' E EL CB (l & G & Z) _. rewrite E, EL, G, ofComm_app, Z. auto 6. }
  assert (START : forall j s1, j <> i -> ent s1 i = ent s i -> mcb s1 = true -> mlog s1 = mlog s -> length (mtr s1) = length (mtr s) -> (j < length (mtr s))%nat ->
     ent (startTracker ssl s1 j) i = ent s i /\ length (mtr (startTracker ssl s1 j)) = length (mtr s) /\ mcb (startTracker ssl s1 j) = true /\ mlog (startTracker ssl s1 j) = mlog s).
  { clear. intros j s1 N E CB G EL L. destruct (ent_start ssl s1 j i ltac:(lia)) as [-> |(_ & _ & _ & E1 & E2 & E3 & E4)]; [auto|].
    rewrite E1, E2, E3, E4. destruct (Nat.eqb_spec i j); [congruence|auto]. }
  destruct e as [a| | | |c' n|c'| |k]; try contradiction; cbn [tstep] in H.
  - injection H as <-. unfold onAnnounced. rewrite CB. cbn [negb]. destruct (findComm c' (mtr s)) as [j|] eqn:FC.
    + destruct (findComm_some _ _ _ FC) as [Lj Cj]. fold (ent s j) in Cj. set (s1 := updTr s j (fun t => setRetry t 0)).
      assert (E1 : ent (schedule s1 c' n) i = if Nat.eqb i j then setRetry (ent s j) 0 else ent s i) by exact (ent_updTr s j (fun t => setRetry t 0) i Lj).
      destruct (Z.eqb_spec c' c) as [->|N].
      * assert (j = i) as -> by (apply (proj1 (proj2 I)) with c; assumption). rewrite Nat.eqb_refl in E1. rewrite E1. cbn [schedule mcb mtr mlog s1 updTr setTr setRetry tcomm tfallback tretry].
        rewrite upd_length, ofComm_app. cbn. rewrite Z.eqb_refl. auto 6.
      * destruct (Nat.eqb_spec i j) as [<-|Nij]; [congruence|]. apply (SAME i); auto; [cbn; now rewrite upd_length|]. exists [(c', n)]. cbn. destruct (Z.eqb_spec c' c); [congruence|auto].
    + destruct (Z.eqb_spec c' c) as [->|N]; [exfalso; eapply findComm_none; [exact FC|exact C]|]. apply (SAME i); auto. exists []. now rewrite app_nil_r.
  - injection H as <-. unfold onTrackerFail. rewrite CB. cbn [negb]. destruct (findComm c' (mtr s)) as [j|] eqn:FC.
    + destruct (findComm_some _ _ _ FC) as [Lj Cj]. fold (ent s j) in Cj. fold (ent s j). cbn zeta.
      destruct (Z.eqb_spec c' c) as [->|N].
      * assert (j = i) as -> by (apply (proj1 (proj2 I)) with c; assumption). rewrite F. cbn [andb].
        assert (u32 (tretry (ent s i) + 1) = tretry (ent s i) + 1) as -> by (unfold u32; rewrite Z.mod_small; lia).
        assert (u32 (30 * (tretry (ent s i) + 1)) = 30 * (tretry (ent s i) + 1)) as -> by (unfold u32; rewrite Z.mod_small; lia).
        set (n := tretry (ent s i) + 1). assert (E1 : ent (schedule (updTr s i (fun t => setRetry t n)) c (30 * n)) i = setRetry (ent s i) n).
        { change (ent (updTr s i (fun t => setRetry t n)) i = setRetry (ent s i) n). rewrite ent_updTr, Nat.eqb_refl by assumption. reflexivity. }
        rewrite E1. cbn [schedule mcb mtr mlog updTr setTr setRetry tcomm tfallback tretry]. rewrite upd_length, ofComm_app. cbn. rewrite Z.eqb_refl. auto 6.
      * assert (Nji : j <> i) by congruence. assert (UE : forall f, ent (updTr s j f) i = ent s i) by (intros f; rewrite ent_updTr by assumption; destruct (Nat.eqb_spec i j); congruence).
        destruct (tfallback _ && negb _ && _).
        -- apply (SAME i); auto; [exact (UE _)|cbn; now rewrite upd_length|exists []; cbn; now rewrite app_nil_r].
        -- destruct (tfallback _ && tused _ && _).
           ++ destruct (START j (updTr s j (fun t => setProto t pUdp (tused t))) Nji (UE _) CB eq_refl ltac:(cbn; now rewrite upd_length) Lj) as (A1 & A2 & A3 & A4).
              apply (SAME i); auto. exists []. now rewrite app_nil_r.
           ++ apply (SAME i); auto; [exact (UE _)|cbn; now rewrite upd_length|]. eexists. split; [reflexivity|]. cbn. destruct (Z.eqb_spec c' c); [congruence|auto].
    + destruct (Z.eqb_spec c' c) as [->|N]; [exfalso; eapply findComm_none; [exact FC|exact C]|]. apply (SAME i); auto. exists []. now rewrite app_nil_r.
  - unfold runPosted in H. destruct (mposted s) as [|[g j] l] eqn:P; [injection H as <-; apply (SAME i); auto; exists []; now rewrite app_nil_r|].
    destruct ((g =? mgen s) && Nat.ltb j (length (mtr s))) eqn:G; [|discriminate]. injection H as <-.
    destruct I as (_ & _ & I3 & _). destruct (I3 g j) as [_ J]; [rewrite P; now left|]. destruct J as [Lj Fj]; [lia|].
    assert (Nji : j <> i) by congruence. set (s1 := {| mtr := mtr s; mcap := _; mgen := _; mnextc := _; mcb := _; mposted := l; mlog := _; mannounced := _ |}).
    assert (UE : ent (updTr s1 j noComm) i = ent s i) by (rewrite ent_updTr by exact Lj; destruct (Nat.eqb_spec i j); [congruence|reflexivity]).
    destruct (START j (updTr s1 j noComm) Nji UE CB eq_refl ltac:(cbn; now rewrite upd_length) Lj) as (A1 & A2 & A3 & A4).
    apply (SAME i); auto. exists []. now rewrite app_nil_r.
  - unfold timerFires in H. destruct (ttimer _); [|injection H as <-; apply (SAME i); auto; exists []; now rewrite app_nil_r]. destruct (_ =? _); [|discriminate]. destruct (tcomm (nth k _ _)); [|discriminate].
    injection H as <-. apply (SAME i); auto. exists []. now rewrite app_nil_r.
Qed.

(** In every reachable state, for a running tracker without an HTTP fallback: whatever happens
    with it and the others until the next start, stop or change of the list, its timer is set
    to thirty seconds times the number of failures in a row, or to what the tracker said. *)
Theorem C42_backoff : forall ssl es0 s i c es1 s',
  trun ssl newMgr es0 = Ok s -> mcb s = true -> (i < length (mtr s))%nat -> tcomm (ent s i) = Some c -> tfallback (ent s i) = false ->
  0 <= tretry (ent s i) -> 30 * (tretry (ent s i) + zlen es1) < 2 ^ 32 ->
  (forall e, In e es1 -> calm e) -> trun ssl s es1 = Ok s' ->
  ofComm c (mlog s') = ofComm c (mlog s) ++ delays c es1 (tretry (ent s i)).
Proof.
  intros ssl es0 s i c es1 s' R0. assert (I : inv s) by (eapply inv_run; [apply inv_new|exact R0]). clear R0. revert s I.
  induction es1 as [|e es1 IH]; intros s I CB L C F B0 B K R; cbn in R; [injection R as <-; now rewrite app_nil_r|].
  destruct (tstep ssl s e) as [s1|] eqn:E; [|discriminate]. cbn [bind] in R.
  assert (Z1 : zlen (e :: es1) = 1 + zlen es1) by (unfold zlen; cbn [length]; lia). pose proof (zlen_nonneg es1).
  destruct (calm_step ssl s e s1 i c I (K e (or_introl eq_refl)) CB L C F ltac:(lia) B0 E) as (A1 & A2 & A3 & A4 & A5 & A6).
  assert (T : 0 <= tretry (ent s1 i) <= tretry (ent s i) + 1) by (rewrite A5; destruct e; try destruct (_ =? _); lia).
  rewrite (IH s1 (inv_step _ _ _ _ I E) A1 A2 A3 A4 (proj1 T) ltac:(lia) (fun e' J => K e' (or_intror J)) R). rewrite A6, <- app_assoc, A5. f_equal.
  destruct e; cbn [delays app]; try reflexivity; destruct (_ =? _); reflexivity.
Qed.
Print Assumptions C42_backoff.

(** So each failure in a row is retried thirty seconds later than the one before. *)
Theorem C42_later : forall c n k, delays c (repeat (TFailed c) k) n = map (fun j => (c, 30 * (n + 1 + Z.of_nat j))) (seq 0 k).
Proof.
  intros c n k. revert n. induction k as [|k IH]; intros n; [reflexivity|]. cbn [repeat delays seq map]. rewrite Z.eqb_refl, IH. f_equal; [f_equal; lia|].
  rewrite <- seq_shift, map_map. apply map_ext. intros j. f_equal. lia.
Qed.
Print Assumptions C42_later.

Example C42_backoff_meets :
  match trun false newMgr [TAdd uh1; TAdd ug1; TStart; TFailed 0] with
  | Ok s => mcb s = true /\ tcomm (ent s 1) = Some 1 /\ tfallback (ent s 1) = false /\
    match trun false s [TFailed 1; TFailed 0; TFailed 1; TTimer 0; TFailed 1; TAnnounced 1 1800; TFailed 1] with
    | Ok s' => mlog s' = [(0, 30); (1, 30); (0, 60); (1, 60); (1, 90); (1, 1800); (1, 30)]
    | UB => False
    end
  | UB => False
  end.
Proof. vm_compute. auto. Qed.

(** ** The HTTP fallback *)

(** A host known by both protocols is asked by UDP; when that fails, by HTTP at once; when that
    fails too, by UDP again at once; then thirty seconds later. *)
Theorem C42_fallback : forall ssl es0 s i c, trun ssl newMgr es0 = Ok s -> mcb s = true -> mposted s = [] -> (i < length (mtr s))%nat -> tcomm (ent s i) = Some c ->
  tfallback (ent s i) = true -> tused (ent s i) = false -> tproto (ent s i) = pUdp ->
  exists s1 s2 s3, trun ssl s [TFailed c; TPosted] = Ok s1 /\ tproto (ent s1 i) = pHttp /\ tcomm (ent s1 i) = Some (mnextc s) /\ mannounced s1 = mannounced s ++ [mnextc s] /\
    trun ssl s1 [TFailed (mnextc s)] = Ok s2 /\ tproto (ent s2 i) = pUdp /\ tcomm (ent s2 i) = Some (mnextc s + 1) /\ mannounced s2 = mannounced s1 ++ [mnextc s + 1] /\
    trun ssl s2 [TFailed (mnextc s + 1)] = Ok s3 /\ mlog s3 = mlog s ++ [(mnextc s + 1, 30)] /\ mannounced s3 = mannounced s2.
Proof.
  intros ssl es0 s i c R0 CB PO L C F U P. assert (I : inv s) by (eapply inv_run; [apply inv_new|exact R0]).
  assert (FIND : forall s c, inv s -> tcomm (ent s i) = Some c -> findComm c (mtr s) = Some i).
  { clear. intros s c I C. destruct (findComm c (mtr s)) as [j|] eqn:E; [|exfalso; eapply findComm_none; [exact E|exact C]].
    destruct (findComm_some _ _ _ E) as [_ D]. f_equal. apply (proj1 (proj2 I)) with c; assumption. }
  assert (FC : findComm c (mtr s) = Some i) by (apply FIND; assumption).
  assert (S1 : exists s1, trun ssl s [TFailed c; TPosted] = Ok s1 /\ mtr s1 = upd i {| tproto := pHttp; thost := thost (ent s i); tport := tport (ent s i); tfull := tfull (ent s i); tcomm := Some (mnextc s);
              ttimer := Some (mgen s); tfallback := true; tused := true; tretry := 0 |} (mtr s) /\ mnextc s1 = mnextc s + 1 /\ mannounced s1 = mannounced s ++ [mnextc s] /\ mlog s1 = mlog s /\ mcb s1 = true /\ mposted s1 = []).
  { eexists. split.
    - cbn [trun tstep bind]. unfold onTrackerFail. rewrite CB, FC. cbn [negb]. fold (ent s i). rewrite F, U, P. cbn zeta. cbn [andb negb]. change (list_eqb pUdp pUdp) with true. cbn [andb]. cbv iota.
      unfold runPosted. cbn [mposted]. cbn [updTr setTr mposted mgen mtr mcap mnextc mcb mlog mannounced]. rewrite PO. cbn [app]. rewrite Z.eqb_refl, upd_length. 
      assert (Nat.ltb i (length (mtr s)) = true) as -> by now apply Nat.ltb_lt. cbn [andb bind]. reflexivity.
    - unfold startTracker. cbn [updTr setTr mtr mposted mgen mnextc mannounced mcb mlog]. rewrite !nth_upd_same by (rewrite ?upd_length; exact L). cbn [noComm setProto tproto].
      change (list_eqb pHttp pUdp || list_eqb pHttp pHttp || (ssl && list_eqb pHttp pHttps)) with true. cbv iota. cbn [mtr mnextc mannounced mlog mcb mposted noComm setProto thost tport tfull tfallback tused].
      rewrite !upd_upd_same. unfold ent in *. rewrite F. auto 7. }
  destruct S1 as (s1 & R1 & M1 & N1 & AN1 & LG1 & CB1 & PO1).
  assert (L1 : (i < length (mtr s1))%nat) by now rewrite M1, upd_length.
  assert (E1 : ent s1 i = {| tproto := pHttp; thost := thost (ent s i); tport := tport (ent s i); tfull := tfull (ent s i); tcomm := Some (mnextc s);
              ttimer := Some (mgen s); tfallback := true; tused := true; tretry := 0 |}) by (unfold ent at 1; rewrite M1; now apply nth_upd_same).
  assert (I1 : inv s1) by (eapply inv_run; eassumption).
  assert (C1 : tcomm (ent s1 i) = Some (mnextc s)) by now rewrite E1.
  assert (S2 : exists s2, trun ssl s1 [TFailed (mnextc s)] = Ok s2 /\ mtr s2 = upd i {| tproto := pUdp; thost := thost (ent s i); tport := tport (ent s i); tfull := tfull (ent s i); tcomm := Some (mnextc s1);
              ttimer := Some (mgen s1); tfallback := true; tused := true; tretry := 0 |} (mtr s1) /\ mannounced s2 = mannounced s1 ++ [mnextc s1] /\ mlog s2 = mlog s1 /\ mcb s2 = true).
  { eexists. split; [reflexivity|]. unfold onTrackerFail. rewrite CB1, (FIND s1 _ I1 C1). cbn [negb]. fold (ent s1 i). rewrite E1. cbn zeta. cbn [tfallback tused tproto negb andb].
    change (list_eqb pHttp pHttp) with true. cbv iota. unfold startTracker. cbn [updTr setTr mtr mgen mnextc mannounced mcb mlog]. rewrite !nth_upd_same by exact L1. fold (ent s1 i). rewrite E1. cbn [setProto tproto].
    change (list_eqb pUdp pUdp || list_eqb pUdp pHttp || (ssl && list_eqb pUdp pHttps)) with true. cbv iota. cbn [mtr mannounced mlog mcb thost tport tfull tfallback tused]. rewrite upd_upd_same. auto. }
  destruct S2 as (s2 & R2 & M2 & AN2 & LG2 & CB2). rewrite N1 in M2, AN2.
  assert (E2 : ent s2 i = {| tproto := pUdp; thost := thost (ent s i); tport := tport (ent s i); tfull := tfull (ent s i); tcomm := Some (mnextc s + 1);
              ttimer := Some (mgen s1); tfallback := true; tused := true; tretry := 0 |}) by (unfold ent at 1; rewrite M2; now apply nth_upd_same).
  assert (I2 : inv s2) by (eapply inv_run; [exact I1|exact R2]).
  assert (C2 : tcomm (ent s2 i) = Some (mnextc s + 1)) by now rewrite E2.
  exists s1, s2. eexists. rewrite E1, E2. cbn [tproto tcomm].
  refine (conj R1 (conj eq_refl (conj eq_refl (conj AN1 (conj R2 (conj eq_refl (conj eq_refl (conj AN2 (conj eq_refl _))))))))).
  cbn [tstep]. unfold onTrackerFail. rewrite CB2, (FIND s2 _ I2 C2). cbn [negb]. fold (ent s2 i). rewrite E2. cbn zeta. cbn [tfallback tused tproto negb andb tretry].
  change (list_eqb pUdp pHttp) with false. cbv iota. cbn [schedule mlog mannounced updTr setTr]. rewrite LG2, LG1. auto.
Qed.
Print Assumptions C42_fallback.

Example C42_fallback_meets :
  match trun false newMgr [TAdd uh1; TAdd hh1; TStart] with
  | Ok s => mcb s = true /\ mposted s = [] /\ findComm 0 (mtr s) = Some 0%nat /\ tfallback (ent s 0) = true /\ tused (ent s 0) = false /\ tproto (ent s 0) = pUdp
  | UB => False
  end.
Proof. vm_compute. auto 6. Qed.

(** ** Safety *)

Definition gens (s : tmgr) : Prop := (forall i g, ttimer (ent s i) = Some g -> g = mgen s) /\ (forall g j, In (g, j) (mposted s) -> g = mgen s).

Lemma gens_upd s i f : (i < length (mtr s))%nat -> (forall t, ttimer (f t) = ttimer t) -> gens s -> gens (updTr s i f).
Proof.
  intros L F [A B]. split; [|exact B]. intros k g. rewrite ent_updTr by assumption. destruct (Nat.eqb_spec k i) as [->|]; [rewrite F|]; apply A.
Qed.

Lemma gens_start ssl s i : (i < length (mtr s))%nat -> gens s -> gens (startTracker ssl s i).
Proof.
  intros L [A B]. destruct (ent_start ssl s i 0 L) as [-> |(N & G & P & _)]; [now split|]. split; [|rewrite P, G; exact B].
  intros k g. rewrite G. destruct (ent_start ssl s i k L) as [X|(_ & _ & _ & _ & _ & _ & ->)]; [rewrite X in N; lia|].
  destruct (Nat.eqb k i); [cbn; congruence|apply A].
Qed.

Lemma gens_startFrom ssl n : forall s i, (i + n <= length (mtr s))%nat -> gens s -> gens (startFrom ssl s i n).
Proof.
  induction n; intros s i L I; [exact I|]. cbn. apply IHn; [|apply gens_start; [lia|exact I]].
  destruct (ent_start ssl s i 0 ltac:(lia)) as [-> |(_ & _ & _ & -> & _)]; lia.
Qed.

Lemma fixed_step ssl s e : inv s -> gens s -> (match e with TAdd _ | TRemove => False | _ => True end) -> exists s', tstep ssl s e = Ok s' /\ gens s'.
Proof.
  intros I G K. destruct e as [a| | | |c n|c| |k]; try contradiction; cbn [tstep].
  - eexists. split; [reflexivity|]. unfold startAll. apply gens_startFrom; [cbn; lia|exact G].
  - eexists. split; [reflexivity|]. split; [|exact (proj2 G)]. intros i g. unfold ent, stopAll. cbn [mtr]. set (f := fun t => _). destruct (Nat.ltb_spec i (length (mtr s))) as [L|L].
    + rewrite nth_indep with (d' := f noInfo) by now rewrite map_length. rewrite map_nth. discriminate.
    + rewrite nth_overflow by (rewrite map_length; lia). discriminate.
  - eexists. split; [reflexivity|]. unfold onAnnounced. destruct (negb _); [exact G|]. destruct (findComm c (mtr s)) as [j|] eqn:FC; [|exact G].
    destruct (findComm_some _ _ _ FC) as [L _]. apply (gens_upd s j (fun t => setRetry t 0) L); auto.
  - eexists. split; [reflexivity|]. unfold onTrackerFail. destruct (negb _); [exact G|]. destruct (findComm c (mtr s)) as [j|] eqn:FC; [|exact G].
    destruct (findComm_some _ _ _ FC) as [L _]. cbn zeta. destruct (_ && _ && _).
    + destruct (gens_upd s j (fun t => setProto t pHttp true) L (fun _ => eq_refl) G) as [A B]. split; [exact A|]. cbn [mposted mgen updTr setTr]. intros g i J.
      apply in_app_or in J as [J|[J|[]]]; [now apply (proj2 G) with i|]. now injection J as <- _.
    + destruct (tfallback _ && tused _ && _); [apply gens_start; [unfold updTr, setTr; cbn [mtr]; now rewrite upd_length|]; apply gens_upd; auto|].
      apply (gens_upd s j (fun t => setRetry t (u32 (tretry (nth j (mtr s) noInfo) + 1))) L); auto.
  - unfold runPosted. destruct (mposted s) as [|[g j] l] eqn:P; [eexists; split; [reflexivity|exact G]|].
    destruct G as [G1 G2]. destruct I as (_ & _ & I3 & _). destruct (I3 g j) as [_ J]; [rewrite P; now left|].
    assert (g = mgen s) as -> by (apply (G2 g j); rewrite P; now left). destruct (J eq_refl) as [L _]. rewrite Z.eqb_refl. assert (Nat.ltb j (length (mtr s)) = true) as -> by now apply Nat.ltb_lt.
    eexists. split; [reflexivity|]. apply gens_start; [unfold updTr, setTr; cbn [mtr]; now rewrite upd_length|]. apply gens_upd; auto. split; [exact G1|]. cbn. intros g i X. apply (G2 g i). rewrite P. now right.
  - unfold timerFires. destruct (ttimer (nth k (mtr s) noInfo)) as [g|] eqn:T; [|eexists; split; [reflexivity|exact G]].
    rewrite (proj1 G k g T), Z.eqb_refl. destruct I as (_ & _ & _ & I4 & _). destruct (tcomm (nth k (mtr s) noInfo)) eqn:C; [|exfalso; eapply (I4 k g); assumption].
    eexists. split; [reflexivity|exact G].
Qed.

(** With a list that was complete before the first start and is not changed after, no sequence
    of starts, stops, answers, failures, posted functions and timers uses a pointer to an entry
    that is gone. What is missing: lists that change while the trackers run, see below. *)
Theorem C42_safe_partial : forall ssl as_ es,
  (forall e, In e es -> match e with TAdd _ | TRemove => False | _ => True end) ->
  exists s, trun ssl newMgr (map TAdd as_ ++ es) = Ok s.
Proof.
  intros ssl as_ es K.
  assert (A : forall s, inv s -> gens s -> mposted s = [] -> (forall i, ttimer (ent s i) = None) -> exists s', trun ssl s (map TAdd as_) = Ok s' /\ inv s' /\ gens s').
  { induction as_ as [|a l IH]; intros s I G P T; [exists s; auto|]. cbn [map trun tstep bind]. apply IH.
    - eapply (inv_step ssl s (TAdd a)); [exact I|reflexivity].
    - split.
      + intros i g X. exfalso. revert X. unfold addTracker. cbn zeta. destruct (negb _); [destruct (findHost _ _) as [k|] eqn:F|].
        * destruct (findHost_some _ _ _ F) as [L _]. destruct (list_eqb _ _); [destruct (_ && _ && _)|rewrite ent_push; destruct (Nat.eqb _ _); [discriminate|rewrite T; discriminate]].
          -- rewrite ent_updTr by assumption. destruct (Nat.eqb _ _); cbn; rewrite T; discriminate.
          -- rewrite T. discriminate.
        * rewrite ent_push. destruct (Nat.eqb _ _); [discriminate|rewrite T; discriminate].
        * destruct (list_eqb _ _); [rewrite ent_push; destruct (Nat.eqb _ _); [discriminate|rewrite T; discriminate]|rewrite T; discriminate].
      + intros g j J. exfalso. revert J. unfold addTracker. cbn zeta. destruct (negb _); [destruct (findHost _ _) as [k|]|]; repeat destruct (list_eqb _ _); try destruct (_ && _ && _); cbn; rewrite P; auto.
    - unfold addTracker. cbn zeta. destruct (negb _); [destruct (findHost _ _) as [k|]|]; repeat destruct (list_eqb _ _); try destruct (_ && _ && _); cbn; rewrite P; auto.
    - intros i. unfold addTracker. cbn zeta. destruct (negb _); [destruct (findHost _ _) as [k|] eqn:F|].
      + destruct (findHost_some _ _ _ F) as [L _]. destruct (list_eqb _ _); [destruct (_ && _ && _)|rewrite ent_push; destruct (Nat.eqb _ _); [reflexivity|apply T]].
        * rewrite ent_updTr by assumption. destruct (Nat.eqb _ _); cbn; apply T.
        * apply T.
      + rewrite ent_push. destruct (Nat.eqb _ _); [reflexivity|apply T].
      + destruct (list_eqb _ _); [rewrite ent_push; destruct (Nat.eqb _ _); [reflexivity|apply T]|apply T]. }
  destruct (A newMgr inv_new) as (s1 & R1 & I1 & G1); try (split; [intros [|[]]; discriminate|easy]); auto; try (intros [|[]]; reflexivity).
  assert (R : forall es s, (forall e, In e es -> match e with TAdd _ | TRemove => False | _ => True end) -> inv s -> gens s -> exists s', trun ssl s es = Ok s').
  { clear. induction es as [|e es IH]; intros s K I G; [exists s; reflexivity|]. destruct (fixed_step ssl s e I G (K e (or_introl eq_refl))) as (s1 & E & G1). cbn [trun]. rewrite E. cbn [bind].
    apply IH; [intros e' J; apply K; now right|eapply inv_step; eassumption|exact G1]. }
  destruct (R es s1 K I1 G1) as (s2 & R2). exists s2.
  revert R1 R2. clear. generalize newMgr. induction (map TAdd as_) as [|e l IH]; intros s R1 R2; cbn in R1 |- *; [injection R1 as ->; exact R2|].
  destruct (tstep ssl s e); [|discriminate]. cbn [bind] in R1 |- *. now apply IH.
Qed.
Print Assumptions C42_safe_partial.

(** A tracker is added while another runs (a magnet link's torrent file arrives, a tracker is
    added by the user): the vector moves and the running tracker's timer keeps the old address. *)
Theorem C42_dangling_refuted : trun false newMgr [TAdd uh1; TStart; TAdd ug1; TTimer 0] = UB.
Proof. reflexivity. Qed.
Print Assumptions C42_dangling_refuted.

(** The list is cleared between a failure and the function it posted. *)
Theorem C42_removed_refuted : trun false newMgr [TAdd uh1; TAdd hh1; TStart; TFailed 0; TRemove; TPosted] = UB.
Proof. reflexivity. Qed.
Print Assumptions C42_removed_refuted.

(** A UDP tracker fails, the torrent is stopped, the posted function runs: the tracker is asked
    although the torrent is stopped. *)
Theorem C42_restart_after_stop_refuted :
  match trun false newMgr [TAdd uh1; TAdd hh1; TStart; TFailed 0; TStop] with
  | Ok s => mcb s = false /\ match tstep false s TPosted with Ok s' => mannounced s' = mannounced s ++ [1] /\ tcomm (ent s' 0) = Some 1 | UB => False end
  | UB => False
  end.
Proof. vm_compute. auto. Qed.
Print Assumptions C42_restart_after_stop_refuted.
