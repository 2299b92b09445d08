(** Proofs about the ports mapped on the routers *)
From Coq Require Import Permutation.
From Verif Require Import Base BaseLemmas UpnpModel UpnpSpec.

Lemma NoDup_app_i' {A} (a b : list A) : NoDup a -> NoDup b -> (forall x, In x a -> ~ In x b) -> NoDup (a ++ b).
Proof.
  induction a as [|x a IH]; cbn; [auto|]. intros N M D. inversion N; subst. constructor; [|apply IH; auto; intros y Y; apply D; now right]. intros X. apply in_app_or in X. destruct X as [X|X]; [contradiction|]. now apply (D x (or_introl eq_refl)).
Qed.

Lemma ptypeEq_spec a b : ptypeEq a b = true <-> a = b.
Proof. destruct a, b; cbn; split; congruence. Qed.

Lemma foundOn_spec g m w : foundOn g m w = true <-> mGateway m = g /\ mPort m = wPort w /\ mType m = wType w.
Proof. unfold foundOn. rewrite !andb_true_iff, list_eqb_spec, Z.eqb_eq, ptypeEq_spec. tauto. Qed.

Lemma wantEq_spec p t w : wantEq p t w = true <-> w = {| wPort := p; wType := t |}.
Proof. unfold wantEq. rewrite andb_true_iff, Z.eqb_eq, ptypeEq_spec. destruct w; cbn. split; [intros (-> & ->)|intros E; injection E]; auto. Qed.

(** ** The loop over the devices *)
Record Reason (vs : list device) (s : upnp) (q : request) : Prop := {
  r_dev : exists v, In v vs /\ vGateway v = qHost q /\ vPort v = qGwPort q /\ (qAdd q = true -> vClient v = qClient q);
  r_why : if qAdd q then wanted s (qPort q) (qType q) /\ ~ is_mapped s (qHost q) (qPort q) (qType q)
          else exists m, In m (uMapped s) /\ mPort m = qPort q /\ mType m = qType q /\ ~ (mGateway m = qHost q /\ wanted s (qPort q) (qType q));
  r_new : qAnswered q = false;
  r_free : ~ In (qHost q) (map qHost (uPending s)) }.

Record Sent (vs : list device) (s s' : upnp) (new : list request) : Prop := {
  t_pending : uPending s' = uPending s ++ new;
  t_sent : uSent s' = uSent s ++ new;
  t_mapping : uMapping s' = uMapping s; t_devices : uDevices s' = uDevices s; t_mapped : uMapped s' = uMapped s; t_active : uActive s' = uActive s;
  t_next : uNext s' = uNext s + zlen new;
  t_ids : map qId new = map (fun k => uNext s + Z.of_nat k) (seq 0 (length new));
  t_reason : Forall (Reason vs s) new;
  t_count : forall g b, (length (waiting g b new) <= 1)%nat }.

Lemma find_None {A} (f : A -> bool) l : find f l = None -> forall x, In x l -> f x = false.
Proof. intros F x X. now apply (find_none f l F). Qed.

Lemma missing_some v s w : firstMissing v s = Some w -> wanted s (wPort w) (wType w) /\ ~ is_mapped s (vGateway v) (wPort w) (wType w).
Proof.
  intros F. apply find_some in F. destruct F as (F1 & F2). apply negb_true_iff in F2. split; [unfold wanted; now destruct w|].
  intros (m & M1 & M2 & M3 & M4). assert (X : existsb (fun m => foundOn (vGateway v) m w) (uMapped s) = true) by (apply existsb_exists; exists m; split; [exact M1|]; apply foundOn_spec; auto). congruence.
Qed.

Lemma missing_none v s : firstMissing v s = None -> forall p t, wanted s p t -> is_mapped s (vGateway v) p t.
Proof.
  intros F p t W. pose proof (find_None _ _ F _ W) as X. apply negb_false_iff, existsb_exists in X. destruct X as (m & M1 & M2). apply foundOn_spec in M2. exists m. tauto.
Qed.

Lemma extra_some v s m : firstExtra v s = Some m -> In m (uMapped s) /\ ~ (mGateway m = vGateway v /\ wanted s (mPort m) (mType m)).
Proof.
  intros F. apply find_some in F. destruct F as (F1 & F2). apply negb_true_iff in F2. split; [exact F1|].
  intros (G & W). assert (X : existsb (fun w => foundOn (vGateway v) m w) (uMapping s) = true) by (apply existsb_exists; eexists; split; [exact W|]; apply foundOn_spec; auto). congruence.
Qed.

Lemma extra_none v s : firstExtra v s = None -> forall m, In m (uMapped s) -> mGateway m = vGateway v /\ wanted s (mPort m) (mType m).
Proof.
  intros F m M. pose proof (find_None _ _ F _ M) as X. apply negb_false_iff, existsb_exists in X. destruct X as (w & W1 & W2). apply foundOn_spec in W2. destruct W2 as (A & B & C). split; [exact A|]. unfold wanted. rewrite B, C. now destruct w.
Qed.

Lemma Sent_nil vs s : Sent vs s s [].
Proof. split; rewrite ?app_nil_r; try reflexivity; [unfold zlen; cbn; lia|constructor|intros; cbn; lia]. Qed.

Lemma Reason_more vs v s q : Reason vs s q -> Reason (v :: vs) s q.
Proof. intros [(w & W) B C D]. split; auto. exists w. split; [now right|apply W]. Qed.

Lemma existsb_false {A} (f : A -> bool) l : existsb f l = false -> forall x, In x l -> f x = false.
Proof. intros E x X. destruct (f x) eqn:F; [|reflexivity]. rewrite <- E. symmetry. apply existsb_exists. eauto. Qed.

(** What is sent to one device *)
Definition toDevice (v : device) (s : upnp) : upnp :=
  let s1 := match firstMissing v s with Some w => mapPort v w s | None => s end in
  match firstExtra v s1 with Some m => unmapPort v m s1 | None => s1 end.

Lemma extra_send v q s : firstExtra v (send q s) = firstExtra v s.
Proof. reflexivity. Qed.

Lemma toDevice_ok v s : existsb (fun q => list_eqb (qHost q) (vGateway v)) (uPending s) = false ->
  exists new, Sent [v] s (toDevice v s) new /\ Forall (fun q => qHost q = vGateway v) new /\ (new = [] -> firstMissing v s = None /\ firstExtra v s = None).
Proof.
  intros P. assert (FR : ~ In (vGateway v) (map qHost (uPending s))).
  { intros X. apply in_map_iff in X. destruct X as (q & E & Q). apply (existsb_false _ _ P) in Q. rewrite E, list_eqb_refl in Q. discriminate. }
  assert (FL : list_eqb (vGateway v) (vGateway v) = true) by apply list_eqb_refl.
  unfold toDevice. destruct (firstMissing v s) as [w|] eqn:M.
  - unfold mapPort. rewrite extra_send. set (qa := {| qId := uNext s; qAdd := true |}). apply missing_some in M. destruct M as (M1 & M2).
    assert (RA : Reason [v] s qa) by (split; cbn; [exists v; cbn; auto|auto|reflexivity|exact FR]).
    destruct (firstExtra v s) as [m|] eqn:X.
    + apply extra_some in X. destruct X as (X1 & X2). unfold unmapPort. set (qb := {| qId := uNext (send qa s); qAdd := false |}).
      assert (RB : Reason [v] s qb). { split; cbn; [exists v; split; [now left|]; repeat split; discriminate|exists m; auto|reflexivity|exact FR]. }
      exists [qa; qb]. split; [|split; [repeat constructor|discriminate]]. split; cbn [uPending uSent uMapping uDevices uMapped uActive uNext send]; rewrite <- ?app_assoc; try reflexivity.
      * unfold zlen. cbn. lia.
      * cbn. now rewrite Z.add_0_r.
      * repeat (apply Forall_cons; [assumption|]); apply Forall_nil.
      * intros g b. unfold waiting. cbn [filter qa qb qHost qAdd]. destruct (list_eqb (vGateway v) g), b; cbn; lia.
    + exists [qa]. split; [|split; [repeat constructor|discriminate]]. split; cbn [uPending uSent uMapping uDevices uMapped uActive uNext send]; try reflexivity.
      * cbn. now rewrite Z.add_0_r.
      * repeat (apply Forall_cons; [assumption|]); apply Forall_nil.
      * intros g b. unfold waiting. cbn [filter]. destruct (_ && _); cbn; lia.
  - destruct (firstExtra v s) as [m|] eqn:X.
    + apply extra_some in X. destruct X as (X1 & X2). unfold unmapPort. set (qb := {| qId := uNext s; qAdd := false |}).
      assert (RB : Reason [v] s qb). { split; cbn; [exists v; split; [now left|]; repeat split; discriminate|exists m; auto|reflexivity|exact FR]. }
      exists [qb]. split; [|split; [repeat constructor|discriminate]]. split; cbn [uPending uSent uMapping uDevices uMapped uActive uNext send]; try reflexivity.
      * cbn. now rewrite Z.add_0_r.
      * repeat (apply Forall_cons; [assumption|]); apply Forall_nil.
      * intros g b. unfold waiting. cbn [filter]. destruct (_ && _); cbn; lia.
    + exists []. split; [apply Sent_nil|]. split; [constructor|]. auto.
Qed.

Lemma waiting_app g b a c : waiting g b (a ++ c) = waiting g b a ++ waiting g b c.
Proof. apply filter_app. Qed.

Lemma waiting_none g b l : ~ In g (map qHost l) -> waiting g b l = [].
Proof.
  intros N. unfold waiting. induction l as [|q l IH]; [reflexivity|]. cbn in *. destruct (list_eqb (qHost q) g) eqn:E; cbn [andb]; [apply list_eqb_spec in E; exfalso; apply N; now left|]. apply IH. tauto.
Qed.

Lemma Reason_same vs s s2 q : uMapping s2 = uMapping s -> uMapped s2 = uMapped s -> incl (map qHost (uPending s)) (map qHost (uPending s2)) -> Reason vs s2 q -> Reason vs s q.
Proof.
  intros A B C [D E F G]. unfold wanted, is_mapped in *. rewrite A, B in E. split; auto.
Qed.

Lemma refreshFrom_ok : forall vs s, exists new, Sent vs s (refreshFrom vs s) new.
Proof.
  induction vs as [|v vs IH]; intros s; cbn [refreshFrom]; [exists []; apply Sent_nil|].
  destruct (existsb _ (uPending s)) eqn:P; [exists []; apply Sent_nil|]. fold (toDevice v s).
  destruct (toDevice_ok v s P) as (n1 & S1 & H1 & _). destruct (IH (toDevice v s)) as (n2 & S2). exists (n1 ++ n2).
  destruct S1 as [A1 A2 A3 A4 A5 A6 A7 A8 A9 A10], S2 as [B1 B2 B3 B4 B5 B6 B7 B8 B9 B10].
  assert (F2 : Forall (fun q => ~ In (qHost q) (map qHost n1)) n2).
  { rewrite Forall_forall in *. intros q Q X. apply (r_free _ _ _ (B9 q Q)). rewrite A1, map_app. apply in_or_app. now right. }
  split; rewrite ?B1, ?B2, ?B3, ?B4, ?B5, ?B6, ?B7, ?A1, ?A2, ?A3, ?A4, ?A5, ?A6, ?A7, ?app_assoc; try reflexivity.
  - rewrite zlen_app. lia.
  - rewrite map_app, app_length, seq_app, map_app, A8, B8, A7. f_equal. cbn [Nat.add]. generalize (length n2). intros n. clear. unfold zlen. revert n. generalize (length n1). intros m n. revert m.
    assert (G : forall n a m, map (fun k => uNext s + Z.of_nat m + Z.of_nat k) (seq a n) = map (fun k => uNext s + Z.of_nat k) (seq (m + a) n)).
    { induction n0 as [|k IH]; intros a m; [reflexivity|]. cbn [seq map]. rewrite IH. replace (m + S a)%nat with (S (m + a)) by lia. f_equal. lia. }
    intros m. rewrite G. now rewrite Nat.add_0_r.
  - apply Forall_app. split; rewrite Forall_forall in *.
    + intros q Q. destruct (A9 q Q) as [(w & [<-|[]] & W2) X1 X2 X3]. split; auto. exists v. split; [now left|exact W2].
    + intros q Q. apply Reason_more. eapply Reason_same; [exact A3|exact A5| |exact (B9 q Q)]. rewrite A1, map_app. intros x X. apply in_or_app. now left.
  - intros g b. rewrite waiting_app, app_length.
    destruct (in_dec (list_eq_dec Z.eq_dec) g (map qHost n2)) as [I|I]; [|rewrite (waiting_none g b n2 I); cbn; specialize (A10 g b); lia].
    rewrite (waiting_none g b n1); [cbn; apply B10|]. apply in_map_iff in I. destruct I as (q & <- & Q). rewrite Forall_forall in F2. now apply F2.
Qed.

(** ** One event: what it does itself, and whether the loop follows *)
Definition pre (s : upnp) (e : uevent) : upnp * bool :=
  match e with
  | UMap p t => if existsb (wantEq p t) (uMapping s) then (s, false) else (setMapping (uMapping s ++ [{| wPort := p; wType := t |}]) s, true)
  | UUnmap p t => (setMapping (eraseWant p t (uMapping s)) s, true)
  | UUnmapAll => (setMapping [] s, true)
  | UDevice v => if existsb (fun d => list_eqb (vClient d) (vClient v) && list_eqb (vGateway d) (vGateway v) && (vPort d =? vPort v)) (uDevices s) then (s, false) else (setDevices (uDevices s ++ [v]) s, true)
  | UAnswer id b => (answered id b s, false)
  | UClosed id => if existsb (fun q => qId q =? id) (uPending s) then (setPending (erasePending id (uPending s)) s, uActive s) else (s, false)
  | UGone => (setActive false s, false)
  end.

Lemma step_pre s e : ustep s e = if snd (pre s e) then refreshMapping (fst (pre s e)) else fst (pre s e).
Proof.
  destruct e as [p t|p t| |v|id b|id|]; cbn [ustep pre]; unfold mapActiveAdapters, unmapMappedAdapters, unmapAllMappedAdapters, deviceFound, closed; try reflexivity.
  - now destruct (existsb _ _).
  - now destruct (existsb _ _).
  - destruct (existsb _ _); [|reflexivity]. cbn [fst snd setPending uActive]. now destruct (uActive s).
Qed.

Lemma pre_frame s e : uNext (fst (pre s e)) = uNext s /\ uSent (fst (pre s e)) = uSent s /\ (uActive (fst (pre s e)) = true -> uActive s = true) /\ incl (uDevices s) (uDevices (fst (pre s e))).
Proof.
  assert (I : incl (uDevices s) (uDevices s)) by apply incl_refl.
  destruct e as [p t|p t| |v|id b|id|]; cbn [pre].
  - destruct (existsb _ _); auto.
  - auto.
  - auto.
  - destruct (existsb _ _); [auto|]. cbn. split; [reflexivity|]. split; [reflexivity|]. split; [auto|]. now apply incl_appl.
  - unfold answered. destruct (find _ _); cbn [fst]; [|auto]. destruct (negb b); [auto|]. destruct (qAdd r); auto.
  - destruct (existsb _ _); auto.
  - cbn. split; [reflexivity|]. split; [reflexivity|]. split; [discriminate|exact I].
Qed.

Lemma step_sent s e : exists old new, uPending (ustep s e) = old ++ new /\ uSent (ustep s e) = uSent s ++ new /\ old = uPending (fst (pre s e)) /\
  Forall (Reason (uDevices (ustep s e)) (fst (pre s e))) new /\ uMapping (ustep s e) = uMapping (fst (pre s e)) /\ uMapped (ustep s e) = uMapped (fst (pre s e)).
Proof.
  rewrite step_pre. destruct (pre_frame s e) as (F1 & F2 & _). destruct (snd (pre s e)).
  - set (r := fst (pre s e)) in *. destruct (refreshFrom_ok (uDevices r) r) as (new & S). fold (refreshMapping r) in S. exists (uPending r), new. destruct S. rewrite t_sent0, F2. rewrite t_devices0. auto 10.
  - exists (uPending (fst (pre s e))), []. rewrite app_nil_r. rewrite F2, app_nil_r. repeat split. constructor.
Qed.

Lemma Reason_reason vs s s' q : uMapping s' = uMapping s -> uMapped s' = uMapped s -> uDevices s' = vs -> Reason vs s q -> reason s' q.
Proof. intros A B C [D E _ _]. unfold reason, wanted, is_mapped in *. rewrite A, B, C. auto. Qed.

(** ** The invariant *)
Record Inv (s : upnp) : Prop := {
  v_nodup : NoDup (map qId (uPending s));
  v_ids : Forall (fun q => qId q < uNext s) (uPending s);
  v_count : forall g b, (length (waiting g b (uPending s)) <= 1)%nat;
  v_hosts : Forall (fun q => In (qHost q) (map vGateway (uDevices s))) (uPending s);
  v_gates : Forall (fun m => In (mGateway m) (map vGateway (uDevices s))) (uMapped s) }.

Lemma sublist_Forall {A} (P : A -> Prop) l l' : incl l' l -> Forall P l -> Forall P l'.
Proof. rewrite !Forall_forall. auto. Qed.

Lemma erasePending_incl id l : incl (erasePending id l) l.
Proof. induction l as [|q l IH]; cbn; [apply incl_refl|]. destruct (qId q =? id); [apply incl_tl, incl_refl|]. intros x [<-|X]; [now left|right; now apply IH]. Qed.

Lemma erasePending_nodup id l : NoDup (map qId l) -> NoDup (map qId (erasePending id l)).
Proof.
  induction l as [|q l IH]; cbn; [auto|]. intros N. inversion N; subst. destruct (qId q =? id); [assumption|]. cbn. constructor; [|auto]. intros X. apply H1. apply in_map_iff in X. destruct X as (x & <- & X). apply in_map. now apply erasePending_incl in X.
Qed.

Lemma erasePending_waiting id g b l : (length (waiting g b (erasePending id l)) <= length (waiting g b l))%nat.
Proof. unfold waiting. induction l as [|q l IH]; cbn; [lia|]. destruct (qId q =? id); cbn; destruct (_ && _); cbn; lia. Qed.

Lemma eraseMapped_incl g p t l : incl (eraseMapped g p t l) l.
Proof. induction l as [|q l IH]; cbn; [apply incl_refl|]. destruct (_ && _); [apply incl_tl, incl_refl|]. intros x [<-|X]; [now left|right; now apply IH]. Qed.

Lemma mark_map {B} (f : request -> B) id l : (forall q, f {| qId := qId q; qAdd := qAdd q; qHost := qHost q; qGwPort := qGwPort q; qClient := qClient q; qPort := qPort q; qType := qType q; qAnswered := true |} = f q) ->
  map f (markAnswered id l) = map f l.
Proof. intros H. unfold markAnswered. rewrite map_map. apply map_ext. intros q. destruct (qId q =? id); auto. Qed.

Lemma mark_in id l q : In q (markAnswered id l) -> exists q0, In q0 l /\ qId q0 = qId q /\ qAdd q0 = qAdd q /\ qHost q0 = qHost q /\ qPort q0 = qPort q /\ qType q0 = qType q /\ (qAnswered q = false -> q0 = q /\ qId q <> id).
Proof.
  unfold markAnswered. intros X. apply in_map_iff in X. destruct X as (q0 & E & X). exists q0. split; [exact X|]. destruct (Z.eqb_spec (qId q0) id) as [Y|Y]; subst q; cbn; auto 10. repeat split; auto; discriminate.
Qed.

Lemma mark_waiting id g b l : length (waiting g b (markAnswered id l)) = length (waiting g b l).
Proof.
  unfold waiting, markAnswered. induction l as [|q l IH]; [reflexivity|]. cbn [map filter]. destruct (qId q =? id); cbn [qHost qAdd]; destruct (_ && _); cbn [length]; congruence.
Qed.

Lemma Inv_pre s e : Inv s -> Inv (fst (pre s e)).
Proof.
  intros I. destruct e as [p t|p t| |v|id b|id|]; cbn [pre].
  - destruct (existsb _ _); [exact I|]. now destruct I.
  - now destruct I.
  - now destruct I.
  - destruct (existsb _ _); [exact I|]. destruct I as [A B C D E]. split; cbn; auto; rewrite map_app; eapply Forall_impl; try eassumption; intros x X; apply in_or_app; now left.
  - unfold answered. destruct (find _ (uPending s)) as [q|] eqn:F; [|exact I]. apply find_some in F. destruct F as (F1 & F2).
    assert (J : Inv (setPending (markAnswered id (uPending s)) s)).
    { destruct I as [A B C D E]. split; cbn [uPending uNext uDevices uMapped setPending]; [now rewrite mark_map| | |  |exact E].
      - apply Forall_forall. intros x X. apply mark_in in X. destruct X as (q0 & X1 & X2 & _). rewrite <- X2. rewrite Forall_forall in B. now apply B.
      - intros g b0. rewrite mark_waiting. apply C.
      - apply Forall_forall. intros x X. apply mark_in in X. destruct X as (q0 & X1 & _ & _ & X2 & _). rewrite <- X2. rewrite Forall_forall in D. now apply D. }
    cbn zeta. destruct (negb b); [exact J|]. destruct (qAdd q) eqn:QA; destruct J as [A B C D E]; split; auto; cbn [setMapped uMapped uDevices setPending] in *.
    + apply Forall_app. split; [exact E|]. constructor; [|constructor]. cbn. pose proof (v_hosts _ I) as H. rewrite Forall_forall in H. now apply H.
    + eapply sublist_Forall; [apply eraseMapped_incl|exact E].
  - destruct (existsb _ _); [|exact I]. destruct I as [A B C D E]. split; cbn [uPending uNext uDevices uMapped setPending]; [now apply erasePending_nodup| | | |exact E].
    + eapply sublist_Forall; [apply erasePending_incl|exact B].
    + intros g b. eapply Nat.le_trans; [apply erasePending_waiting|apply C].
    + eapply sublist_Forall; [apply erasePending_incl|exact D].
  - now destruct I.
Qed.

Lemma Inv_refresh s : Inv s -> Inv (refreshMapping s).
Proof.
  intros [A B C D E]. unfold refreshMapping. destruct (refreshFrom_ok (uDevices s) s) as (new & S). set (s' := refreshFrom (uDevices s) s) in *. destruct S as [S1 S2 S3 S4 S5 S6 S7 S8 S9 S10].
  assert (IDS : Forall (fun q => uNext s <= qId q < uNext s + zlen new) new).
  { apply Forall_forall. intros q Q. apply (in_map qId) in Q. rewrite S8 in Q. apply in_map_iff in Q. destruct Q as (k & <- & K). apply in_seq in K. unfold zlen. lia. }
  split; rewrite ?S1, ?S4, ?S5, ?S7.
  - rewrite map_app. apply NoDup_app_i'; [exact A| |].
    + rewrite S8. apply FinFun.Injective_map_NoDup; [intros x y X; lia|apply seq_NoDup].
    + intros x X Y. apply in_map_iff in X, Y. destruct X as (q & <- & Q), Y as (q2 & Y & Q2). rewrite Forall_forall in B, IDS. apply B in Q. apply IDS in Q2. lia.
  - apply Forall_app. pose proof (zlen_nonneg new). split; [eapply Forall_impl; [|exact B]|eapply Forall_impl; [|exact IDS]]; cbn beta; intros q Q; lia.
  - intros g b. rewrite waiting_app, app_length. destruct (in_dec (list_eq_dec Z.eq_dec) g (map qHost new)) as [I|I]; [|rewrite (waiting_none g b new I); cbn; specialize (C g b); lia].
    rewrite (waiting_none g b (uPending s)); [cbn; apply S10|]. apply in_map_iff in I. destruct I as (q & <- & Q). rewrite Forall_forall in S9. apply (r_free _ _ _ (S9 q Q)).
  - apply Forall_app. split; [exact D|]. eapply Forall_impl; [|exact S9]. intros q [(v & V1 & V2 & _) _ _ _]. rewrite <- V2. now apply in_map.
  - exact E.
Qed.

Lemma Inv_step s e : Inv s -> Inv (ustep s e).
Proof. intros I. rewrite step_pre. destruct (snd (pre s e)); [apply Inv_refresh|]; now apply Inv_pre. Qed.

Lemma Inv_new : Inv newUpnp.
Proof. split; cbn; try constructor. intros. lia. Qed.

Lemma urun_app a b s : urun (a ++ b) s = urun b (urun a s).
Proof. apply fold_left_app. Qed.

Lemma Inv_run es : forall s, Inv s -> Inv (urun es s).
Proof. induction es as [|e es IH]; intros s I; [exact I|]. cbn. apply IH, Inv_step, I. Qed.

(** ** Answered once *)
Record Once (s : upnp) : Prop := {
  o_nodup : NoDup (map key (uMapped s));
  o_free : forall q, In q (uPending s) -> qAdd q = true -> qAnswered q = false -> ~ is_mapped s (qHost q) (qPort q) (qType q) }.

Lemma short_eq {A} (l : list A) x y : (length l <= 1)%nat -> In x l -> In y l -> x = y.
Proof. destruct l as [|a [|b l]]; cbn; intros L X Y; [contradiction| |lia]. destruct X as [<-|[]], Y as [<-|[]]. reflexivity. Qed.

Lemma in_waiting q l : In q l -> In q (waiting (qHost q) (qAdd q) l).
Proof. intros Q. apply filter_In. split; [exact Q|]. rewrite list_eqb_refl, eqb_reflx. reflexivity. Qed.

Lemma eraseMapped_nodup g p t l : NoDup (map key l) -> NoDup (map key (eraseMapped g p t l)).
Proof.
  induction l as [|q l IH]; cbn; [auto|]. intros N. inversion N; subst. destruct (_ && _); [assumption|]. cbn. constructor; [|auto]. intros X. apply H1. apply in_map_iff in X. destruct X as (x & E & X). rewrite <- E. apply in_map. now apply eraseMapped_incl in X.
Qed.

Lemma Once_pre s e : Inv s -> Once s -> fresh_answer s e -> Once (fst (pre s e)).
Proof.
  intros I O F. destruct e as [p t|p t| |v|id b|id|]; cbn [pre].
  - destruct (existsb _ _); [exact O|]. now destruct O.
  - now destruct O.
  - now destruct O.
  - destruct (existsb _ _); [exact O|]. now destruct O.
  - cbn [fresh_answer] in F. unfold answered. destruct (find _ (uPending s)) as [q|] eqn:FI; [|exact O]. apply find_some in FI. destruct FI as (F1 & F2). apply Z.eqb_eq in F2.
    rewrite Forall_forall in F. pose proof (F q F1 F2) as QA. destruct O as [O1 O2]. cbn zeta.
    destruct (negb b); [|destruct (qAdd q) eqn:AD].
    + split; cbn [fst uPending uNext uDevices uMapped setPending]; [exact O1|]. intros x X A B. apply mark_in in X. destruct X as (q0 & X1 & _ & _ & _ & _ & _ & X2). destruct (X2 B) as (-> & _). now apply O2.
    + split; cbn [fst setMapped setPending uMapped uPending].
      * rewrite map_app. apply NoDup_app_i'; [exact O1|repeat constructor; intros []|]. intros x X [<-|[]]. apply in_map_iff in X. destruct X as (m & E & M). apply (O2 q F1 AD QA). exists m. unfold key in E. cbn in E. injection E. auto.
      * intros x X A B. apply mark_in in X. destruct X as (q0 & X1 & _ & _ & _ & _ & _ & X2). destruct (X2 B) as (-> & NI).
        intros (m & M1 & M2 & M3 & M4). cbn [fst setMapped uMapped] in M1. apply in_app_or in M1. destruct M1 as [M1|[<-|[]]]; [apply (O2 x X1 A B); exists m; auto|].
        cbn in M2. assert (x = q); [|congruence]. eapply short_eq; [apply (v_count _ I (qHost q) true)| |]; [rewrite M2, <- A|rewrite <- AD]; now apply in_waiting.
    + split; cbn [fst setMapped setPending uMapped uPending].
      * now apply eraseMapped_nodup.
      * intros x X A B. apply mark_in in X. destruct X as (q0 & X1 & _ & _ & _ & _ & _ & X2). destruct (X2 B) as (-> & NI).
        intros (m & M1 & M2). cbn [fst setMapped uMapped] in M1. apply eraseMapped_incl in M1. apply (O2 x X1 A B). exists m. auto.
  - destruct (existsb _ _); [|exact O]. destruct O as [O1 O2]. split; cbn [fst uPending uNext uDevices uMapped setPending]; [exact O1|]. intros q Q. apply erasePending_incl in Q. now apply O2.
  - now destruct O.
Qed.

Lemma Once_refresh s : Once s -> Once (refreshMapping s).
Proof.
  intros [O1 O2]. unfold refreshMapping. destruct (refreshFrom_ok (uDevices s) s) as (new & S). set (s' := refreshFrom (uDevices s) s) in *. destruct S as [S1 S2 S3 S4 S5 S6 S7 S8 S9 S10].
  assert (IM : forall g p t, is_mapped s' g p t <-> is_mapped s g p t) by (intros; unfold is_mapped; now rewrite S5).
  split; [now rewrite S5|]. intros q Q A B. rewrite IM. rewrite S1 in Q. apply in_app_or in Q. destruct Q as [Q|Q]; [now apply O2|]. rewrite Forall_forall in S9. destruct (S9 q Q) as [_ W _ _]. rewrite A in W. apply W.
Qed.

Lemma once_run es : forall s, Inv s -> Once s -> answered_once s es -> Once (urun es s).
Proof.
  induction es as [|e es IH]; intros s I O A; [exact O|]. cbn in *. destruct A as (A1 & A2). apply IH; [now apply Inv_step| |exact A2].
  rewrite step_pre. destruct (snd (pre s e)); [apply Once_refresh|]; now apply Once_pre.
Qed.

(** ** Settled *)
Definition Settled (s : upnp) : Prop := forall g, uActive s = true -> uDevices s <> [] -> one_gateway g s -> uPending s = [] ->
  (forall p t, wanted s p t -> is_mapped s g p t) /\ (forall m, In m (uMapped s) -> mGateway m = g /\ wanted s (mPort m) (mType m)).

Lemma Settled_refresh s : Settled (refreshMapping s).
Proof.
  intros g A D G P. unfold refreshMapping in *. destruct (refreshFrom_ok (uDevices s) s) as (new & S).
  assert (E : uDevices (refreshFrom (uDevices s) s) = uDevices s /\ uMapping (refreshFrom (uDevices s) s) = uMapping s /\ uMapped (refreshFrom (uDevices s) s) = uMapped s) by (destruct S; auto). destruct E as (E1 & E2 & E3).
  assert (P0 : uPending s = []) by (destruct S; rewrite t_pending0 in P; now apply app_eq_nil in P).
  unfold wanted, is_mapped, one_gateway in *. rewrite E1 in D, G. rewrite E2, E3. clear S A new E1 E2 E3.
  destruct (uDevices s) as [|v vs]; [contradiction|]. inversion G; subst. cbn [refreshFrom] in P. rewrite P0 in P at 1. cbn [existsb] in P. fold (toDevice v s) in P.
  destruct (toDevice_ok v s) as (n1 & S1 & _ & Q); [now rewrite P0|]. destruct (refreshFrom_ok vs (toDevice v s)) as (n2 & S2).
  assert (N1 : n1 = []). { destruct S1, S2. rewrite t_pending1, t_pending0 in P. apply app_eq_nil in P. destruct P as (P & _). apply app_eq_nil in P. apply P. }
  destruct (Q N1) as (Q1 & Q2). split; [exact (missing_none v s Q1)|exact (extra_none v s Q2)].
Qed.

Lemma Settled_pre s e : Settled s -> snd (pre s e) = false -> Settled (fst (pre s e)).
Proof.
  intros S. destruct e as [p t|p t| |v|id b|id|]; cbn [pre]; try discriminate.
  - destruct (existsb _ _); [auto|discriminate].
  - destruct (existsb _ _); [auto|discriminate].
  - intros _. unfold answered. destruct (find _ (uPending s)) as [q|] eqn:F; [|exact S]. apply find_some in F. destruct F as (F1 & _).
    assert (N : markAnswered id (uPending s) <> []) by (destruct (uPending s); [contradiction|discriminate]).
    cbn zeta. destruct (negb b); [|destruct (qAdd q)]; intros g A D G P; cbn in P; contradiction.
  - destruct (existsb _ _); [|auto]. intros X g A. cbn in *. congruence.
Qed.

Lemma Settled_run es : forall s, Settled s -> Settled (urun es s).
Proof.
  induction es as [|e es IH]; intros s S; [exact S|]. cbn. apply IH. rewrite step_pre. destruct (snd (pre s e)) eqn:E; [apply Settled_refresh|]. now apply Settled_pre.
Qed.
