(** Proofs about the ports mapped on the routers: a router that serves, and the settings *)
From Verif Require Import Base BaseLemmas UpnpModel UpnpSpec UpnpProofs.

(** ** One router that serves *)
Definition Fresh (g : list Z) (s : upnp) : Prop := Forall (fun q => qHost q = g /\ if qAdd q then wanted s (qPort q) (qType q) /\ ~ is_mapped s g (qPort q) (qType q)
  else ~ wanted s (qPort q) (qType q) /\ is_mapped s g (qPort q) (qType q)) (uPending s).

Definition miss (g : list Z) (s : upnp) (w : want) : bool := negb (existsb (fun m => foundOn g m w) (uMapped s)).
Definition extra (g : list Z) (s : upnp) (m : mapped) : bool := negb (existsb (fun w => foundOn g m w) (uMapping s)).
Definition work (g : list Z) (s : upnp) : nat := (length (filter (miss g s) (uMapping s)) + length (filter (extra g s) (uMapped s)))%nat.

Lemma filter_le {A} (f h : A -> bool) l : (forall x, In x l -> f x = true -> h x = true) -> (length (filter f l) <= length (filter h l))%nat.
Proof.
  induction l as [|x l IH]; intros H; [cbn; lia|]. cbn. specialize (IH (fun y Y => H y (or_intror Y))). specialize (H x (or_introl eq_refl)). destruct (f x), (h x); cbn; try lia; specialize (H eq_refl); discriminate.
Qed.

Lemma filter_lt {A} (f h : A -> bool) l x : (forall x, In x l -> f x = true -> h x = true) -> In x l -> f x = false -> h x = true -> (length (filter f l) < length (filter h l))%nat.
Proof.
  induction l as [|y l IH]; intros H X F T; [contradiction|]. assert (LE : (length (filter f l) <= length (filter h l))%nat) by (apply filter_le; intros z Z; apply H; now right).
  cbn. destruct X as [->|X].
  - rewrite F, T. cbn. lia.
  - specialize (IH (fun z Z => H z (or_intror Z)) X F T). specialize (H y (or_introl eq_refl)). destruct (f y), (h y); cbn; try lia; specialize (H eq_refl); discriminate.
Qed.

Lemma mapped_found s g w : existsb (fun m => foundOn g m w) (uMapped s) = true <-> is_mapped s g (wPort w) (wType w).
Proof.
  rewrite existsb_exists. unfold is_mapped. split; intros (m & M1 & M2); exists m; [apply foundOn_spec in M2; tauto|split; [exact M1|apply foundOn_spec; tauto]].
Qed.

Lemma wanted_found s g m : mGateway m = g -> existsb (fun w => foundOn g m w) (uMapping s) = true <-> wanted s (mPort m) (mType m).
Proof.
  intros G. rewrite existsb_exists. unfold wanted. split.
  - intros (w & W1 & W2). apply foundOn_spec in W2. destruct W2 as (_ & -> & ->). now destruct w.
  - intros W. eexists. split; [exact W|]. apply foundOn_spec. auto.
Qed.

Lemma filter_cons_t {A} (f : A -> bool) x l : f x = true -> filter f (x :: l) = x :: filter f l.
Proof. intros E. cbn. now rewrite E. Qed.

Lemma find_head q l : find (fun x => qId x =? qId q) (q :: l) = Some q.
Proof. cbn. now rewrite Z.eqb_refl. Qed.

(** The state before the loop, in [serve] *)
Definition done (s : upnp) (q : request) (l : list request) : upnp :=
  setPending l (if qAdd q then setMapped (uMapped s ++ [{| mGateway := qHost q; mGwPort := qGwPort q; mPort := qPort q; mType := qType q |}]) s
                else setMapped (eraseMapped (qHost q) (qPort q) (qType q) (uMapped s)) s).

Lemma mark_other id l : ~ In id (map qId l) -> markAnswered id l = l.
Proof.
  unfold markAnswered. induction l as [|q l IH]; [reflexivity|]. cbn. intros N. destruct (Z.eqb_spec (qId q) id); [exfalso; apply N; now left|]. rewrite IH; tauto.
Qed.

Lemma serve_done s q l : uPending s = q :: l -> NoDup (map qId (uPending s)) -> uActive s = true -> serve s = refreshMapping (done s q l).
Proof.
  intros P N A. unfold serve. rewrite P in N. cbn [map] in N. inversion N; subst. rewrite P. cbn [ustep]. unfold answered. rewrite P, find_head. cbn [negb].
  assert (M : markAnswered (qId q) (q :: l) = {| qId := qId q; qAdd := qAdd q; qHost := qHost q; qGwPort := qGwPort q; qClient := qClient q; qPort := qPort q; qType := qType q; qAnswered := true |} :: l).
  { change (markAnswered (qId q) (q :: l)) with ((if qId q =? qId q then {| qId := qId q; qAdd := qAdd q; qHost := qHost q; qGwPort := qGwPort q; qClient := qClient q; qPort := qPort q; qType := qType q; qAnswered := true |} else q) :: markAnswered (qId q) l). rewrite Z.eqb_refl, mark_other by assumption. reflexivity. }
  rewrite M. unfold closed, done. destruct (qAdd q); cbn [setPending setMapped uPending existsb qId orb erasePending uActive]; rewrite Z.eqb_refl; cbn [orb]; rewrite A; reflexivity.
Qed.

Lemma work_done g s q l : qHost q = g -> (if qAdd q then wanted s (qPort q) (qType q) /\ ~ is_mapped s g (qPort q) (qType q) else ~ wanted s (qPort q) (qType q) /\ is_mapped s g (qPort q) (qType q)) ->
  (work g (done s q l) < work g s)%nat.
Proof.
  intros G C. unfold work, done. destruct (qAdd q).
  - destruct C as (W & N). cbn [uMapping uMapped setPending setMapped].
    set (m := {| mGateway := qHost q; mGwPort := qGwPort q; mPort := qPort q; mType := qType q |}). set (s2 := setPending l (setMapped (uMapped s ++ [m]) s)).
    assert (E : filter (extra g s2) (uMapped s ++ [m]) = filter (extra g s) (uMapped s)).
    { rewrite filter_app. change (filter (extra g s2) (uMapped s)) with (filter (extra g s) (uMapped s)). cbn [filter].
      assert (X : extra g s2 m = false). { unfold extra. apply negb_false_iff. apply wanted_found; [exact G|exact W]. } rewrite X. apply app_nil_r. }
    rewrite E. apply Nat.add_lt_mono_r. apply (filter_lt _ _ _ {| wPort := qPort q; wType := qType q |}); [|exact W| |].
    + intros w _. unfold miss. cbn [uMapped s2 setPending setMapped]. rewrite existsb_app. rewrite !negb_true_iff. intros X. now apply orb_false_iff in X.
    + unfold miss. apply negb_false_iff. cbn [uMapped s2 setPending setMapped]. rewrite existsb_app. apply orb_true_iff. right. cbn. rewrite orb_false_r. apply foundOn_spec. cbn. auto.
    + unfold miss. apply negb_true_iff. destruct (existsb _ _) eqn:X; [|reflexivity]. exfalso. apply N. now apply mapped_found in X.
  - destruct C as (W & I). cbn [uMapping uMapped setPending setMapped].
    set (s2 := setPending l (setMapped (eraseMapped (qHost q) (qPort q) (qType q) (uMapped s)) s)).
    assert (L1 : (length (filter (miss g s2) (uMapping s)) <= length (filter (miss g s) (uMapping s)))%nat).
    { apply filter_le. intros w Ww. unfold miss. rewrite !negb_true_iff. intros X. destruct (existsb (fun m => foundOn g m w) (uMapped s)) eqn:Y; [|reflexivity]. exfalso.
      apply existsb_exists in Y. destruct Y as (m & M1 & M2).
      assert (Z0 : In m (eraseMapped (qHost q) (qPort q) (qType q) (uMapped s))).
      { assert (NE : list_eqb (mGateway m) (qHost q) && (mPort m =? qPort q) && ptypeEq (mType m) (qType q) = false).
        { destruct (list_eqb (mGateway m) (qHost q) && (mPort m =? qPort q) && ptypeEq (mType m) (qType q)) eqn:Q; [|reflexivity]. exfalso. apply W. apply andb_true_iff in Q. destruct Q as (Q1 & Q3). apply andb_true_iff in Q1. destruct Q1 as (Q1 & Q2). apply Z.eqb_eq in Q2. apply ptypeEq_spec in Q3.
          apply foundOn_spec in M2. destruct M2 as (_ & M3 & M4). unfold wanted. rewrite <- Q2, <- Q3, M3, M4. now destruct w. }
        clear - M1 NE. induction (uMapped s) as [|y l IH]; [contradiction|]. cbn. destruct M1 as [->|M1]; [rewrite NE; now left|]. destruct (list_eqb (mGateway y) (qHost q) && (mPort y =? qPort q) && ptypeEq (mType y) (qType q)); [exact M1|right; auto]. }
      assert (V : existsb (fun m => foundOn g m w) (uMapped s2) = true) by (apply existsb_exists; exists m; auto). congruence. }
    assert (L2 : (length (filter (extra g s2) (eraseMapped (qHost q) (qPort q) (qType q) (uMapped s))) < length (filter (extra g s) (uMapped s)))%nat).
    { change (extra g s2) with (extra g s). destruct I as (m & M1 & M2 & M3 & M4).
      assert (XM : forall y, list_eqb (mGateway y) (qHost q) && (mPort y =? qPort q) && ptypeEq (mType y) (qType q) = true -> extra g s y = true).
      { intros y Q. apply andb_true_iff in Q. destruct Q as (Q1 & Q3). apply andb_true_iff in Q1. destruct Q1 as (Q1 & Q2). apply list_eqb_spec in Q1. apply Z.eqb_eq in Q2. apply ptypeEq_spec in Q3.
        unfold extra. apply negb_true_iff. destruct (existsb _ _) eqn:E; [|reflexivity]. apply wanted_found in E; [|congruence]. exfalso. apply W. rewrite <- Q2, <- Q3. exact E. }
      clear - M1 M2 M3 M4 XM G. revert M1. generalize (uMapped s). intros l0. induction l0 as [|y l0 IH]; intros M1; [contradiction|]. cbn [eraseMapped].
      destruct (list_eqb (mGateway y) (qHost q) && (mPort y =? qPort q) && ptypeEq (mType y) (qType q)) eqn:Q; [cbn; rewrite (XM y Q); cbn; lia|]. destruct M1 as [->|M1].
      - exfalso. rewrite M2, M3, M4, G, list_eqb_refl, Z.eqb_refl in Q. destruct (qType q); discriminate.
      - specialize (IH M1). cbn. destruct (extra g s y); cbn; lia. }
    lia.
Qed.

Lemma work_refresh g s : work g (refreshMapping s) = work g s.
Proof.
  unfold refreshMapping. destruct (refreshFrom_ok (uDevices s) s) as (new & S). destruct S. unfold work, miss, extra. now rewrite t_mapping, t_mapped.
Qed.

Record One (g : list Z) (s : upnp) : Prop := { n_inv : Inv s; n_active : uActive s = true; n_dev : uDevices s <> []; n_gate : one_gateway g s }.

Lemma One_step g s e : One g s -> (match e with UAnswer _ _ | UClosed _ => True | _ => False end) -> One g (ustep s e).
Proof.
  intros [A B C D] E. assert (F : uDevices (ustep s e) = uDevices s /\ uActive (ustep s e) = uActive s).
  { rewrite step_pre. assert (P : uDevices (fst (pre s e)) = uDevices s /\ uActive (fst (pre s e)) = uActive s).
    { destruct e; cbn [pre]; try contradiction.
      - unfold answered. destruct (find _ _); [|auto]. cbn zeta. destruct (negb _); [auto|]. destruct (qAdd r); auto.
      - destruct (existsb _ _); auto. }
    destruct (snd (pre s e)); [|exact P]. unfold refreshMapping. destruct (refreshFrom_ok (uDevices (fst (pre s e))) (fst (pre s e))) as (new & S). destruct S. rewrite t_devices, t_active. exact P. }
  destruct F as (F1 & F2). split; [now apply Inv_step|congruence|congruence|]. unfold one_gateway. now rewrite F1.
Qed.

Lemma One_serve g s : One g s -> One g (serve s).
Proof. intros O. unfold serve. destruct (uPending s); [exact O|]. apply One_step; [|exact I]. now apply One_step. Qed.

Lemma hosts_one g s : One g s -> Forall (fun q => qHost q = g) (uPending s) /\ Forall (fun m => mGateway m = g) (uMapped s).
Proof.
  intros [A _ _ D]. unfold one_gateway in D. rewrite Forall_forall in D. destruct A as [_ _ _ H G].
  split; eapply Forall_impl; try eassumption; cbn; intros x X; apply in_map_iff in X; destruct X as (v & <- & V); auto.
Qed.

Lemma refresh_stop g s q l : one_gateway g s -> uDevices s <> [] -> uPending s = q :: l -> qHost q = g -> refreshMapping s = s.
Proof.
  intros O D P H. unfold refreshMapping. destruct (uDevices s) as [|v vs] eqn:E; [contradiction|]. unfold one_gateway in O. rewrite E in O. inversion O; subst. cbn [refreshFrom]. rewrite P. cbn [existsb]. rewrite <- H2, list_eqb_refl. reflexivity.
Qed.

Lemma Fresh_refresh g s : one_gateway g s -> Forall (fun m => mGateway m = g) (uMapped s) -> uPending s = [] -> Fresh g (refreshMapping s).
Proof.
  intros O M P. unfold refreshMapping. destruct (refreshFrom_ok (uDevices s) s) as (new & S). destruct S. unfold Fresh, wanted, is_mapped. rewrite t_pending, t_mapping, t_mapped, P. cbn [app].
  eapply Forall_impl; [|exact t_reason]. intros q [(v & V1 & V2 & _) W _ _]. unfold one_gateway in O. rewrite Forall_forall in O, M. pose proof (O v V1) as HV. assert (HG : qHost q = g) by congruence.
  split; [exact HG|]. rewrite HG in W. destruct (qAdd q); [exact W|]. destruct W as (m & M1 & M2 & M3 & M4). pose proof (M m M1) as MG. split; [intros X; apply M4; auto|]. exists m. auto.
Qed.

Lemma done_facts s q l : uPending (done s q l) = l /\ uDevices (done s q l) = uDevices s /\ uMapping (done s q l) = uMapping s /\ uActive (done s q l) = uActive s.
Proof. unfold done. destruct (qAdd q); auto. Qed.

Lemma done_gates g s q l : qHost q = g -> Forall (fun m => mGateway m = g) (uMapped s) -> Forall (fun m => mGateway m = g) (uMapped (done s q l)).
Proof.
  intros H F. unfold done. destruct (qAdd q); cbn.
  - apply Forall_app. split; [exact F|]. repeat constructor. exact H.
  - eapply sublist_Forall; [apply eraseMapped_incl|exact F].
Qed.

Lemma Fresh_serve g s : One g s -> Fresh g s -> uPending s <> [] -> Fresh g (serve s) /\ (work g (serve s) < work g s)%nat.
Proof.
  intros O F NE. destruct (uPending s) as [|q l] eqn:P; [contradiction|]. unfold Fresh in F. rewrite P in F. destruct (Forall_inv F) as (HG & C). pose proof (Forall_inv_tail F) as H2. clear F. subst g.
  rewrite (serve_done s q l P (v_nodup _ (n_inv _ _ O)) (n_active _ _ O)). rewrite work_refresh. split; [|now apply work_done].
  destruct (done_facts s q l) as (D1 & D2 & D3 & D4). pose proof (hosts_one _ s O) as (HO & GO).
  assert (OD : one_gateway (qHost q) (done s q l)) by (unfold one_gateway; rewrite D2; apply O).
  destruct l as [|q2 l].
  - apply Fresh_refresh; [exact OD|now apply done_gates|exact D1].
  - destruct (Forall_inv H2) as (HG2 & C2).
    rewrite (refresh_stop (qHost q) (done s q (q2 :: l)) q2 l); [|exact OD|rewrite D2; apply O|exact D1|exact HG2].
    assert (CNT : forall b, (length (waiting (qHost q) b (uPending s)) <= 1)%nat) by (intros b; apply (v_count _ (n_inv _ _ O))).
    assert (ALL : forall x, In x (q2 :: l) -> qAdd x <> qAdd q).
    { intros x X E. rewrite P in CNT. specialize (CNT (qAdd q)). assert (HX : qHost x = qHost q) by (rewrite P in HO; rewrite Forall_forall in HO; apply HO; now right).
      assert (W1 : In x (waiting (qHost q) (qAdd q) (q2 :: l))) by (rewrite <- HX, <- E; now apply in_waiting).
      assert (WQ : waiting (qHost q) (qAdd q) (q :: q2 :: l) = q :: waiting (qHost q) (qAdd q) (q2 :: l)) by (unfold waiting at 1; rewrite (filter_cons_t _ q) by (now rewrite list_eqb_refl, eqb_reflx); reflexivity). rewrite WQ in CNT.
      destruct (waiting (qHost q) (qAdd q) (q2 :: l)); [contradiction|cbn in CNT; lia]. }
    unfold Fresh. rewrite D1. rewrite Forall_forall in *. intros x X. destruct (H2 x X) as (X1 & X2). split; [exact X1|]. specialize (ALL x X).
    unfold wanted in *. rewrite D3. unfold is_mapped, done in *. destruct (qAdd q) eqn:AQ, (qAdd x) eqn:AX; try congruence; cbn [setPending setMapped uMapped].
    + destruct X2 as (Y1 & m & Y2 & Y3). split; [exact Y1|]. exists m. split; [apply in_or_app; now left|exact Y3].
    + destruct X2 as (Y1 & Y2). split; [exact Y1|]. intros (m & M1 & M2). apply eraseMapped_incl in M1. apply Y2. exists m. auto.
Qed.

Lemma fresh_ends g : forall k s, One g s -> Fresh g s -> (work g s <= k)%nat -> exists j, uPending (serves j s) = [] /\ One g (serves j s).
Proof.
  induction k as [|k IH]; intros s O F W; (destruct (uPending s) as [|q l] eqn:P; [exists 0%nat; auto|]); destruct (Fresh_serve g s O F ltac:(congruence)) as (F2 & W2); [lia|].
  destruct (IH (serve s)) as (j & J); [now apply One_serve|exact F2|lia|]. exists (S j). exact J.
Qed.

Lemma stale_ends g : forall k s, One g s -> (length (uPending s) <= k)%nat -> exists j, Fresh g (serves j s) /\ One g (serves j s).
Proof.
  induction k as [|k IH]; intros s O L; (destruct (uPending s) as [|q l] eqn:P; [exists 0%nat; split; [unfold Fresh; cbn; rewrite P; constructor|exact O]|]); [cbn in L; lia|].
  pose proof (serve_done s q l P (v_nodup _ (n_inv _ _ O)) (n_active _ _ O)) as E. pose proof (hosts_one g s O) as (HO & GO). rewrite P in HO. pose proof (Forall_inv HO) as HG. pose proof (Forall_inv_tail HO) as H2. cbv beta in HG. subst g.
  destruct (done_facts s q l) as (D1 & D2 & D3 & D4). assert (OD : one_gateway (qHost q) (done s q l)) by (unfold one_gateway; rewrite D2; apply O).
  destruct l as [|q2 l].
  - exists 1%nat. cbn [serves]. split; [|now apply One_serve]. rewrite E. apply Fresh_refresh; [exact OD|now apply done_gates|exact D1].
  - rewrite (refresh_stop (qHost q) (done s q (q2 :: l)) q2 l) in E; [|exact OD|rewrite D2; apply O|exact D1|exact (Forall_inv H2)].
    destruct (IH (serve s)) as (j & J); [now apply One_serve|rewrite E, D1; cbn in L; cbn; lia|]. exists (S j). exact J.
Qed.

Lemma serves_add a b s : serves (a + b) s = serves b (serves a s).
Proof. revert s. induction a as [|a IH]; intros s; [reflexivity|]. cbn. apply IH. Qed.

Lemma served_ends g s : One g s -> exists k, uPending (serves k s) = [] /\ One g (serves k s).
Proof.
  intros O. destruct (stale_ends g _ s O (le_n _)) as (a & F & OA). destruct (fresh_ends g _ (serves a s) OA F (le_n _)) as (b & J). exists (a + b)%nat. now rewrite serves_add.
Qed.

Lemma serves_run : forall k s, exists es, serves k s = urun es s /\ Forall served es.
Proof.
  induction k as [|k IH]; intros s; [exists []; split; [reflexivity|constructor]|]. cbn [serves]. destruct (IH (serve s)) as (es & E & F). unfold serve in *. destruct (uPending s) as [|q l].
  - exists es. auto.
  - exists (UAnswer (qId q) true :: UClosed (qId q) :: es). split; [exact E|]. repeat constructor. exact F.
Qed.

Lemma served_mapping es : forall s, Forall served es -> uMapping (urun es s) = uMapping s.
Proof.
  induction es as [|e es IH]; intros s F; [reflexivity|]. inversion F; subst. cbn. fold (urun es (ustep s e)). rewrite IH by assumption. destruct (step_sent s e) as (old & new & _ & _ & _ & _ & M & _). rewrite M.
  destruct e; cbn in H1; try contradiction; cbn [pre].
  - unfold answered. destruct (find _ _); [|reflexivity]. cbn zeta. destruct (negb _); [reflexivity|]. destruct (qAdd r); reflexivity.
  - destruct (existsb _ _); reflexivity.
Qed.

(** ** The settings *)
Definition asked_ports (a : mapper) (w : want) : Prop := aEnabled a = true /\ (w = {| wPort := aTcp a; wType := Tcp |} \/ w = {| wPort := aUdp a; wType := Udp |}).

Record Ports (a : mapper) : Prop := { p_nodup : NoDup (uMapping (aUpnp a)); p_in : forall w, In w (uMapping (aUpnp a)) <-> asked_ports a w }.

Lemma refresh_mapping s : uMapping (refreshMapping s) = uMapping s.
Proof. unfold refreshMapping. destruct (refreshFrom_ok (uDevices s) s) as (new & S). now destruct S. Qed.

Lemma map_mapping p t s : NoDup (uMapping s) -> NoDup (uMapping (mapActiveAdapters p t s)) /\ forall w, In w (uMapping (mapActiveAdapters p t s)) <-> In w (uMapping s) \/ w = {| wPort := p; wType := t |}.
Proof.
  intros N. unfold mapActiveAdapters. destruct (existsb (wantEq p t) (uMapping s)) eqn:E.
  - split; [exact N|]. intros w. split; [auto|]. intros [X| ->]; [exact X|]. apply existsb_exists in E. destruct E as (w & W1 & W2). apply wantEq_spec in W2. congruence.
  - rewrite refresh_mapping. cbn [uMapping setMapping]. split.
    + apply NoDup_app_i'; [exact N|repeat constructor; intros []|]. intros w W [<-|[]]. pose proof (existsb_false _ _ E _ W) as X. assert (Y : wantEq p t {| wPort := p; wType := t |} = true) by now apply wantEq_spec. congruence.
    + intros w. rewrite in_app_iff. cbn. firstorder.
Qed.

Lemma erase_in p t l w : NoDup l -> In w (eraseWant p t l) <-> In w l /\ w <> {| wPort := p; wType := t |}.
Proof.
  induction l as [|x l IH]; cbn; [tauto|]. intros N. inversion N; subst. destruct (wantEq p t x) eqn:E.
  - apply wantEq_spec in E. subst x. split; [intros X; split; [now right|intros ->; contradiction]|]. intros ([X|X] & Y); [congruence|exact X].
  - assert (NE : x <> {| wPort := p; wType := t |}) by (intros X; apply wantEq_spec in X; congruence). cbn. rewrite (IH H2). split; [intros [X|X]; [subst; auto|tauto]|]. intros ([X|X] & Y); tauto.
Qed.

Lemma erase_nodup p t l : NoDup l -> NoDup (eraseWant p t l).
Proof.
  induction l as [|x l IH]; cbn; [auto|]. intros N. inversion N; subst. destruct (wantEq p t x); [assumption|]. constructor; [|auto]. rewrite erase_in by assumption. tauto.
Qed.

Lemma unmap_mapping p t s : NoDup (uMapping s) -> NoDup (uMapping (unmapMappedAdapters p t s)) /\ forall w, In w (uMapping (unmapMappedAdapters p t s)) <-> In w (uMapping s) /\ w <> {| wPort := p; wType := t |}.
Proof. intros N. unfold unmapMappedAdapters. rewrite refresh_mapping. cbn [uMapping setMapping]. split; [now apply erase_nodup|]. intros w. now apply erase_in. Qed.

Lemma both_mapping c s : NoDup (uMapping s) -> NoDup (uMapping (mapBoth c s)) /\ forall w, In w (uMapping (mapBoth c s)) <-> In w (uMapping s) \/ w = {| wPort := cTcp c; wType := Tcp |} \/ w = {| wPort := cUdp c; wType := Udp |}.
Proof.
  intros N. unfold mapBoth. destruct (map_mapping (cTcp c) Tcp s N) as (A & B). destruct (map_mapping (cUdp c) Udp _ A) as (C & D). split; [exact C|]. intros w. rewrite D, B. tauto.
Qed.

Lemma other_mapping s e : (match e with UDevice _ | UAnswer _ _ | UClosed _ => True | _ => False end) -> uMapping (ustep s e) = uMapping s.
Proof.
  intros E. destruct (step_sent s e) as (old & new & _ & _ & _ & _ & M & _). rewrite M. destruct e; try contradiction; cbn [pre].
  - destruct (existsb _ _); reflexivity.
  - unfold answered. destruct (find _ _); [|reflexivity]. cbn zeta. destruct (negb _); [reflexivity|]. destruct (qAdd r); reflexivity.
  - destruct (existsb _ _); reflexivity.
Qed.

Lemma Ports_start c : Ports (startMapper c).
Proof.
  destruct (both_mapping c newUpnp (NoDup_nil _)) as (A & B). unfold startMapper. split; unfold asked_ports; cbn [aUpnp aEnabled aTcp aUdp]; destruct (cEnabled c); cbn [uMapping newUpnp]; try exact A; try constructor.
  - intros H. apply B in H. cbn in H. tauto.
  - intros (_ & X). apply B. now right.
  - contradiction.
  - intros (X & _). discriminate X.
Qed.

Lemma Ports_step a e : Ports a -> Ports (mstep a e).
Proof.
  intros [N P]. destruct e as [c|v|id b|id]; cbn [mstep].
  2: change (deviceFound v (aUpnp a)) with (ustep (aUpnp a) (UDevice v)); split; unfold asked_ports; cbn [aUpnp aEnabled aTcp aUdp]; rewrite (other_mapping (aUpnp a) (UDevice v) I); [exact N|exact P].
  2: change (answered id b (aUpnp a)) with (ustep (aUpnp a) (UAnswer id b)); split; unfold asked_ports; cbn [aUpnp aEnabled aTcp aUdp]; rewrite (other_mapping (aUpnp a) (UAnswer id b) I); [exact N|exact P].
  2: change (closed id (aUpnp a)) with (ustep (aUpnp a) (UClosed id)); split; unfold asked_ports; cbn [aUpnp aEnabled aTcp aUdp]; rewrite (other_mapping (aUpnp a) (UClosed id) I); [exact N|exact P].
  unfold settingsChanged, asked_ports in *. destruct (cEnabled c) eqn:C, (aEnabled a) eqn:A; cbn [Bool.eqb negb].
  - set (u1 := if negb (aUdp a =? cUdp c) then _ else _).
    assert (H1 : NoDup (uMapping u1) /\ forall w, In w (uMapping u1) <-> w = {| wPort := aTcp a; wType := Tcp |} \/ w = {| wPort := cUdp c; wType := Udp |}).
    { unfold u1. destruct (Z.eqb_spec (aUdp a) (cUdp c)) as [E|E]; cbn [negb]; [split; [exact N|]; intros w; rewrite P, E; tauto|].
      destruct (unmap_mapping (aUdp a) Udp (aUpnp a) N) as (X1 & X2). destruct (map_mapping (cUdp c) Udp _ X1) as (Y1 & Y2). split; [exact Y1|]. intros w. rewrite Y2, X2, P.
      split; [intros [((_ & [Q|Q]) & R)|Q]; auto; contradiction|]. intros [Q|Q]; [left; split; [auto|subst; discriminate]|auto]. }
    destruct H1 as (N1 & P1). split; unfold asked_ports; cbn [aUpnp aEnabled aTcp aUdp].
    + destruct (negb (aTcp a =? cTcp c)); [|exact N1]. destruct (unmap_mapping (aTcp a) Tcp u1 N1) as (X1 & X2). apply (map_mapping (cTcp c) Tcp _ X1).
    + intros w. destruct (Z.eqb_spec (aTcp a) (cTcp c)) as [E|E]; cbn [negb]; [rewrite P1, E; tauto|].
      destruct (unmap_mapping (aTcp a) Tcp u1 N1) as (X1 & X2). destruct (map_mapping (cTcp c) Tcp _ X1) as (Y1 & Y2). rewrite Y2, X2, P1.
      split; [intros [([Q|Q] & R)|Q]; auto; contradiction|]. intros (_ & [Q|Q]); [auto|left; split; [auto|subst; discriminate]].
  - destruct (both_mapping c (aUpnp a) N) as (X1 & X2). split; unfold asked_ports; cbn [aUpnp aEnabled aTcp aUdp]; [exact X1|]. intros w. rewrite X2, P. split; [intros [(Q & _)|Q]; [discriminate|auto]|]. intros (_ & Q). now right.
  - split; unfold asked_ports; cbn [aUpnp aEnabled aTcp aUdp]; unfold unmapAllMappedAdapters; rewrite refresh_mapping; cbn [uMapping setMapping]; [constructor|]. intros w. split; [contradiction|intros (Q & _); discriminate].
  - split; unfold asked_ports; cbn [aUpnp aEnabled aTcp aUdp]; [exact N|]. intros w. rewrite P. split; intros (Q & _); discriminate.
Qed.
