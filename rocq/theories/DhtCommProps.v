(** C86: Lookups of peers in the DHT begin, end and report for the torrent that asked. *)
From Verif Require Import Base BaseLemmas DhtCommModel DhtCommProofs.

Section Runs.
Variable hashOf : Z -> list Z.
Variable interval : Z.
Notation step := (dstep hashOf interval).
Notation run := (drun hashOf interval).

Lemma run_cons s e es s' o : run s (e :: es) = (s', o) -> exists s1 o1 o2, step s e = (s1, o1) /\ run s1 es = (s', o2) /\ o = o1 ++ o2.
Proof. cbn [drun]. destruct (step s e) as [s1 o1] eqn:E1. destruct (run s1 es) as [s2 o2] eqn:E2. intros H. injection H as <- <-. exists s1, o1, o2. auto. Qed.

(** a fact about every prefix of a history and its log *)
Lemma run_prefix (P : list devt -> dcomm -> list dout -> Prop) s0 :
  P [] s0 [] ->
  (forall es e s o s1 o1, run s0 es = (s, o) -> P es s o -> step s e = (s1, o1) -> P (es ++ [e]) s1 (o ++ o1)) ->
  forall es s o, run s0 es = (s, o) -> P es s o.
Proof.
  intros Z0 S es. induction es as [|e es IH] using rev_ind; intros s o H; [cbn in H; injection H as <- <-; exact Z0|].
  rewrite drun_app in H. destruct (run s0 es) as [s1 o1] eqn:E1. cbn [fst snd drun] in H. destruct (step s1 e) as [s2 o2] eqn:E2. cbn [fst snd] in H. injection H as <- <-. rewrite app_nil_r.
  apply (S es e s1 o1 s2 o2 E1 (IH s1 o1 eq_refl) E2).
Qed.

Lemma finished_out s q h c now s' o : finding_finished interval s q h c now = (s', o) -> 
  (o = [] /\ s' = s /\ find (isHash h) (dcEntries s) = None) \/ exists e, find (isHash h) (dcEntries s) = Some e /\ o = [OReported q (enFor e) c] /\ dcRun s' = dcRun s /\ dcEntries s' = eraseHash h (dcEntries s) /\ dcNew s' = dcNew s.
Proof. unfold finding_finished. destruct (find _ _) as [e|]; intros H; injection H as <- <-; [right; exists e; auto|left; auto]. Qed.

(** every lookup that runs was begun for a torrent of its hash *)
Lemma runs_started on es s o : run (dcInit on) es = (s, o) -> forall l, In l (dcRun s) -> exists t, In (OStarted (lkQ l) t) o /\ lkHash l = hashOf t.
Proof.
  revert s o. apply (run_prefix (fun _ s o => forall l, In l (dcRun s) -> exists t, In (OStarted (lkQ l) t) o /\ lkHash l = hashOf t)); [intros l []|]. clear es.
  intros es e s o s1 o1 _ IH E.
  assert (W : forall x, (forall l, In l (dcRun x) -> In l (dcRun s)) -> forall l, In l (dcRun x) -> exists t, In (OStarted (lkQ l) t) (o ++ o1) /\ lkHash l = hashOf t).
  { intros x Hx l Il. destruct (IH l (Hx l Il)) as (t & I & Q). exists t. split; [apply in_or_app; now left|exact Q]. }
  assert (CF : forall x t nodes now, dcRun x = dcRun s -> comm_find hashOf interval x t nodes now = (s1, o1) -> forall l, In l (dcRun s1) -> exists t, In (OStarted (lkQ l) t) (o ++ o1) /\ lkHash l = hashOf t).
  { intros x t nodes now Hx H. unfold comm_find in H. destruct (existsb _ _); [injection H as <- <-; apply W; rewrite Hx; auto|]. destruct nodes.
    - injection H as <- <-. cbn. intros l Il. apply in_app_or in Il as [Il|[<-|[]]]; [rewrite Hx in Il; destruct (IH l Il) as (t' & I & Q); exists t'; split; [apply in_or_app; now left|exact Q]|].
      exists t. split; [apply in_or_app; right; left; reflexivity|reflexivity].
    - destruct (finding_finished _ _ _ _ _ _) as [s2 o2] eqn:F. injection H as <- <-. apply W. apply finished_out in F as [(_ & -> & _)|(e' & _ & _ & -> & _ & _)]; cbn; rewrite Hx; auto. }
  assert (SF : forall t nodes now, src_find hashOf interval s t nodes now = (s1, o1) -> forall l, In l (dcRun s1) -> exists t, In (OStarted (lkQ l) t) (o ++ o1) /\ lkHash l = hashOf t).
  { intros t nodes now H. unfold src_find in H. destruct (_ && _); [|injection H as <- <-; now apply W]. exact (CF (setSrc s t _) _ _ _ eq_refl H). }
  destruct e; cbn [dstep] in E.
  - injection E as <- <-. apply W. unfold src_start. destruct (_ =? _); auto.
  - injection E as <- <-. apply W. auto.
  - unfold src_update in E. destruct (_ && _); [|injection E as <- <-; now apply W]. destruct done; [injection E as <- <-; now apply W|]. exact (SF _ _ _ E).
  - exact (SF _ _ _ E).
  - unfold found in E. destruct (find (fun l => lkQ l =? q) (dcRun s)) as [l|] eqn:Fl; [|injection E as <- <-; now apply W].
    assert (M : forall f l', In l' (map (fun x => if lkQ x =? q then {| lkQ := q; lkHash := lkHash x; lkCount := f x |} else x) (dcRun s)) -> exists t, In (OStarted (lkQ l') t) (o ++ o1) /\ lkHash l' = hashOf t).
    { intros f l' Il. apply in_map_iff in Il as (x & <- & Ix). destruct (IH x Ix) as (t & I & Q). exists t. destruct (Z.eqb_spec (lkQ x) q) as [Qx|Qx]; cbn; (split; [apply in_or_app; left; congruence|exact Q]). }
    destruct (find (isHash (lkHash l)) (dcEntries s)) as [e|]; injection E as <- E1; cbn; intros l' Il; exact (M _ l' Il).
  - unfold ended in E. destruct (find _ (dcRun s)) as [l|]; [|injection E as <- <-; now apply W]. apply W. intros x Ix. apply finished_out in E as [(_ & -> & _)|(e' & _ & _ & E & _)]; [|rewrite E in Ix]; cbn in Ix; now apply filter_In in Ix as [Ix _].
  - injection E as <- <-. now apply W.
  - injection E as <- <-. intros l [].
  - injection E as <- <-. now apply W.
  - destruct (existsb _ _); injection E as <- <-; now apply W.
  - injection E as <- E. apply W; auto.
Qed.

Lemma step_new s e s1 o1 : step s e = (s1, o1) -> dcNew s <= dcNew s1 /\ forall q t, In (OStarted q t) o1 -> q = dcNew s /\ dcNew s1 = q + 1.
Proof.
  intros E.
  assert (FF : forall x q h c now s' o, finding_finished interval x q h c now = (s', o) -> dcNew s' = dcNew x /\ forall q' t, ~ In (OStarted q' t) o).
  { intros x q h c now s' o H. apply finished_out in H as [(-> & -> & _)|(e' & _ & -> & _ & _ & ->)]; (split; [reflexivity|]); [intros q' t []|intros q' t [Q|[]]; discriminate]. }
  assert (CF : forall x t nodes now, dcNew x = dcNew s -> comm_find hashOf interval x t nodes now = (s1, o1) -> dcNew s <= dcNew s1 /\ forall q t, In (OStarted q t) o1 -> q = dcNew s /\ dcNew s1 = q + 1).
  { intros x t nodes now Hx H. unfold comm_find in H. destruct (existsb _ _); [injection H as <- <-; split; [lia|intros q t' []]|]. destruct nodes.
    - injection H as <- <-. cbn. split; [lia|]. intros q t' [Q|[]]. injection Q as <- <-. auto.
    - destruct (finding_finished _ _ _ _ _ _) as [s2 o2] eqn:F. injection H as <- <-. apply FF in F as [F1 F2]. cbn in F1. split; [lia|]. intros q t' [Q|Q]; [injection Q as <- <-; auto|now apply F2 in Q]. }
  assert (SF : forall t nodes now, src_find hashOf interval s t nodes now = (s1, o1) -> dcNew s <= dcNew s1 /\ forall q t, In (OStarted q t) o1 -> q = dcNew s /\ dcNew s1 = q + 1).
  { intros t nodes now H. unfold src_find in H. destruct (_ && _); [|injection H as <- <-; split; [lia|intros q t' []]]. exact (CF (setSrc s t _) _ _ _ eq_refl H). }
  assert (N : o1 = [] -> dcNew s1 = dcNew s -> dcNew s <= dcNew s1 /\ forall q t, In (OStarted q t) o1 -> q = dcNew s /\ dcNew s1 = q + 1).
  { intros -> ->. split; [lia|intros q t []]. }
  destruct e; cbn [dstep] in E.
  - injection E as <- <-. apply N; [reflexivity|]. unfold src_start. destruct (_ =? _); reflexivity.
  - injection E as <- <-. now apply N.
  - unfold src_update in E. destruct (_ && _); [|injection E as <- <-; now apply N]. destruct done; [injection E as <- <-; now apply N|]. exact (SF _ _ _ E).
  - exact (SF _ _ _ E).
  - unfold found in E. destruct (find _ (dcRun s)) as [l|]; [|injection E as <- <-; now apply N]. destruct (find _ (dcEntries s)) as [e|]; injection E as <- <-; cbn; (split; [lia|]); [intros q' t [Q|[]]; discriminate|intros q' t []].
  - unfold ended in E. destruct (find _ (dcRun s)) as [l|]; [|injection E as <- <-; now apply N]. apply FF in E as [E1 E2]. cbn in E1. split; [lia|]. intros q' t Q. now apply E2 in Q.
  - injection E as <- <-. now apply N.
  - injection E as <- <-. now apply N.
  - injection E as <- <-. now apply N.
  - destruct (existsb _ _); injection E as <- <-; cbn; (split; [lia|]); [intros q' t [Q|[]]; discriminate|intros q' t []].
  - injection E as <- <-. cbn. split; [lia|]. destruct (dcHears s); [intros q' t [Q|[]]; discriminate|intros q' t []].
Qed.

Lemma started_old on es s o : run (dcInit on) es = (s, o) -> forall q t, In (OStarted q t) o -> q < dcNew s.
Proof.
  revert s o. apply (run_prefix (fun _ s o => forall q t, In (OStarted q t) o -> q < dcNew s)); [intros q t []|]. clear es.
  intros es e s o s1 o1 _ IH E q t I. destruct (step_new s e s1 o1 E) as [L N]. apply in_app_or in I as [I|I]; [specialize (IH q t I); lia|]. destruct (N q t I). lia.
Qed.

(** what a step that hands out peers was *)
Lemma step_found s e s1 o1 q t h v : step s e = (s1, o1) -> In (OFound q t h v) o1 -> exists a l en, e = DFound q v a /\ In l (dcRun s) /\ lkQ l = q /\ lkHash l = h /\ In en (dcEntries s) /\ enHash en = h /\ enFor en = t.
Proof.
  intros E I.
  assert (FF : forall x q h c now s' o, finding_finished interval x q h c now = (s', o) -> ~ In (OFound q t h v) o /\ forall q' h', ~ In (OFound q' t h' v) o).
  { intros x q' h' c now s' o H. apply finished_out in H as [(-> & _)|(e' & _ & -> & _)]; (split; [|intros ? ?]); cbn; try tauto; intros [Q|[]]; discriminate. }
  assert (SF : forall t' nodes now, src_find hashOf interval s t' nodes now = (s1, o1) -> False).
  { intros t' nodes now H. unfold src_find in H. destruct (_ && _); [|injection H as <- <-; destruct I]. unfold comm_find in H. destruct (existsb _ _); [injection H as <- <-; destruct I|]. destruct nodes.
    - injection H as <- <-. destruct I as [I|[]]; discriminate.
    - destruct (finding_finished _ _ _ _ _ _) as [s2 o2] eqn:F. injection H as <- <-. destruct I as [I|I]; [discriminate|]. apply FF in F as [_ F]. now apply F in I. }
  destruct e; cbn [dstep] in E; try (injection E as <- <-; now destruct I).
  - unfold src_update in E. destruct (_ && _); [|injection E as <- <-; now destruct I]. destruct done; [injection E as <- <-; now destruct I|]. now apply SF in E.
  - now apply SF in E.
  - unfold found in E. destruct (find (fun l => lkQ l =? q0) (dcRun s)) as [l|] eqn:Fl; [|injection E as <- <-; now destruct I].
    destruct (find (isHash (lkHash l)) (dcEntries s)) as [en|] eqn:Fe; injection E as <- <-; [|now destruct I]. destruct I as [I|[]]. injection I as <- <- <- <-.
    apply find_some in Fl as [Il Ql]. apply Z.eqb_eq in Ql. apply find_hash in Fe as [Ie He]. exists added, l, en. auto 9.
  - unfold ended in E. destruct (find _ (dcRun s)) as [l|]; [|injection E as <- <-; now destruct I]. apply FF in E as [_ E]. now apply E in I.
  - destruct (existsb _ _); injection E as <- <-; [destruct I as [I|[]]; discriminate|now destruct I].
  - injection E as <- <-. destruct (dcHears s); [destruct I as [I|[]]; discriminate|now destruct I].
Qed.

Lemma reach_inv on es s o : run (dcInit on) es = (s, o) -> inv hashOf s.
Proof. intros H. exact (drun_inv hashOf interval es _ s o (init_inv hashOf on) H). Qed.

(** Peers are handed to a torrent only as they came in an answer to a lookup that was begun for this torrent. *)
Theorem C86_home on es s o q t h v : (forall a b, hashOf a = hashOf b -> a = b) -> run (dcInit on) es = (s, o) -> In (OFound q t h v) o ->
  h = hashOf t /\ In (OStarted q t) o /\ exists a, In (DFound q v a) es.
Proof.
  intros Inj. revert s o. apply (run_prefix (fun es s o => In (OFound q t h v) o -> h = hashOf t /\ In (OStarted q t) o /\ exists a, In (DFound q v a) es)); [intros []|]. clear es.
  intros es e s o s1 o1 R IH E I. apply in_app_or in I as [I|I].
  - destruct (IH I) as (A & B & a & C). split; [exact A|]. split; [apply in_or_app; now left|exists a; apply in_or_app; now left].
  - destruct (step_found s e s1 o1 q t h v E I) as (a & l & en & -> & Il & Ql & Hl & Ie & He & Fe). pose proof (reach_inv on es s o R) as V. pose proof (iv_own _ _ V en Ie) as O. rewrite He, Fe in O.
    split; [exact O|]. destruct (runs_started on es s o R l Il) as (t' & S & Q). assert (t' = t) as -> by (apply Inj; congruence). rewrite Ql in S. split; [apply in_or_app; now left|]. exists a. apply in_or_app. right. now left.
Qed.

(** A torrent waits for a lookup only while the lookup is listed for it. Without the DHT switched off: *)
Lemma waits_listed on es s o : (forall a b, hashOf a = hashOf b -> a = b) -> ~ In DOff es -> run (dcInit on) es = (s, o) ->
  forall t, dsState (dcSrc s t) = stAnnouncing -> exists e, In e (dcEntries s) /\ enFor e = t.
Proof.
  intros Inj No R. revert No. revert s o R. apply (run_prefix (fun es s o => ~ In DOff es -> forall t, dsState (dcSrc s t) = stAnnouncing -> exists e, In e (dcEntries s) /\ enFor e = t)); [intros _ t H; discriminate H|]. clear es.
  intros es e s o s1 o1 R IH E No. assert (V := reach_inv on es s o R). assert (IH' := IH ltac:(intros Q; apply No; apply in_or_app; now left)). clear IH.
  assert (Noff : e <> DOff) by (intros ->; apply No; apply in_or_app; right; now left). clear No.
  assert (FF : forall x q h c now o, NoDup (map enHash (dcEntries x)) -> (forall e, In e (dcEntries x) -> enHash e = hashOf (enFor e)) -> finding_finished interval x q h c now = (s1, o) -> (forall t, dsState (dcSrc x t) = stAnnouncing -> exists e, In e (dcEntries x) /\ enFor e = t) -> forall t, dsState (dcSrc s1 t) = stAnnouncing -> exists e, In e (dcEntries s1) /\ enFor e = t).
  { intros x q h c now o' D1 D2 H K t S. unfold finding_finished in H. destruct (find (isHash h) (dcEntries x)) as [en|] eqn:Fe; injection H as <- <-; [|now apply K].
    cbn in S |- *. destruct (t =? enFor en) eqn:Q; [discriminate S|apply Z.eqb_neq in Q]. destruct (K t S) as (e' & I' & F'). exists e'. split; [|exact F']. apply erase_in; [exact D1|]. split; [exact I'|].
    intros Q'. apply find_hash in Fe as [Ie He]. apply Q. apply Inj. rewrite <- F', <- (D2 e' I'), <- (D2 en Ie). congruence. }
  assert (SF : forall t' nodes now, src_find hashOf interval s t' nodes now = (s1, o1) -> forall t, dsState (dcSrc s1 t) = stAnnouncing -> exists e, In e (dcEntries s1) /\ enFor e = t).
  { intros t' nodes now H. unfold src_find in H. destruct (dcOn s && negb (dsState (dcSrc s t') =? stAnnouncing)) eqn:X; [|injection H as <- <-; exact IH'].
    apply andb_prop in X as [_ X]. apply Bool.negb_true_iff, Z.eqb_neq in X. unfold comm_find in H. cbn [setSrc dcEntries dcRun dcSrc dcOn dcHears dcWait dcNew] in H.
    assert (Nn : forall e, In e (dcEntries s) -> enHash e <> hashOf t'). { intros e' I' Q. apply (not_waiting _ s t' V X e' I'). apply Inj. rewrite <- (iv_own _ _ V e' I'). exact Q. }
    destruct (existsb (isHash (hashOf t')) (dcEntries s)) eqn:Y. { exfalso. apply existsb_exists in Y as (e' & I' & Q). apply isHash_spec in Q. exact (Nn e' I' Q). }
    assert (K : forall t, dsState (if t =? t' then {| dsState := stAnnouncing; dsNext := 0; dsLast := dsLast (dcSrc s t'); dsPeers := dsPeers (dcSrc s t') |} else dcSrc s t) = stAnnouncing -> exists e, In e (dcEntries s ++ [{| enQ := dcNew s; enHash := hashOf t'; enFor := t' |}]) /\ enFor e = t).
    { intros t S. destruct (t =? t') eqn:Q; [apply Z.eqb_eq in Q; rewrite Q; eexists; split; [apply in_or_app; right; left; reflexivity|reflexivity]|]. destruct (IH' t S) as (e' & I' & F'). exists e'. split; [apply in_or_app; now left|exact F']. }
    destruct nodes; [injection H as <- <-; exact K|]. destruct (finding_finished _ _ _ _ _ _) as [s2 o2] eqn:F. injection H as <- <-. refine (FF _ _ _ _ _ _ _ _ F K); cbn.
    - rewrite map_app. cbn [map]. apply NoDup_Add with (a := hashOf t') (l := map enHash (dcEntries s)); [rewrite <- (app_nil_r (map enHash (dcEntries s))) at 1; apply Add_app|]. split; [apply (iv_hash _ _ V)|]. intros Q. apply in_map_iff in Q as (e' & Q & Ie). exact (Nn e' Ie Q).
    - intros e' I'. apply in_app_or in I' as [I'|[<-|[]]]; [now apply (iv_own _ _ V)|reflexivity]. }
  destruct e; cbn [dstep] in E; try congruence.
  - injection E as <- <-. unfold src_start. destruct (Z.eqb_spec (dsState (dcSrc s t)) stClear) as [Q|Q]; [|exact IH']. cbn. intros t' S. destruct (t' =? t); [discriminate S|now apply IH'].
  - injection E as <- <-. unfold src_stop. cbn. intros t' S. destruct (t' =? t) eqn:Q; [discriminate S|apply Z.eqb_neq in Q]. destruct (IH' t' S) as (e' & I' & F'). exists e'. split; [|exact F']. apply erase_in; [apply (iv_hash _ _ V)|]. split; [exact I'|]. intros Q'. apply Q. apply Inj. rewrite <- F', <- (iv_own _ _ V e' I'). exact Q'.
  - unfold src_update in E. destruct ((dsNext (dcSrc s t) <=? now) && (dsState (dcSrc s t) =? stConnected)); [|injection E as <- <-; exact IH']. destruct done; [|exact (SF _ _ _ E)]. injection E as <- <-. cbn. intros t' S. apply IH'. destruct (t' =? t) eqn:Q; [apply Z.eqb_eq in Q; rewrite Q|]; exact S.
  - exact (SF _ _ _ E).
  - unfold found in E. destruct (find _ (dcRun s)) as [l|]; [|injection E as <- <-; exact IH']. destruct (find (isHash (lkHash l)) (dcEntries s)) as [en|]; injection E as <- <-; [|exact IH']. cbn. intros t' S. apply IH'. destruct (t' =? enFor en) eqn:Q; [apply Z.eqb_eq in Q; rewrite Q|]; exact S.
  - unfold ended in E. destruct (find _ (dcRun s)) as [l|]; [|injection E as <- <-; exact IH']. refine (FF _ _ _ _ _ _ _ _ E _); [apply (iv_hash _ _ V)|apply (iv_own _ _ V)|exact IH'].
  - injection E as <- <-. exact IH'.
  - injection E as <- <-. exact IH'.
  - destruct (existsb _ _); injection E as <- <-; exact IH'.
  - injection E as <- <-. exact IH'.
Qed.

(** Without the DHT switched off, every torrent that waits has a lookup under way, and the end of that lookup is reported to it
    and makes it ready for the next one. *)
Theorem C86_ends_partial on es s o t : (forall a b, hashOf a = hashOf b -> a = b) -> ~ In DOff es -> run (dcInit on) es = (s, o) -> dsState (dcSrc s t) = stAnnouncing ->
  exists q, In q (map lkQ (dcRun s)) /\ forall now, exists s2 c, step s (DEnd q now) = (s2, [OReported q t c]) /\ dsState (dcSrc s2 t) = stConnected /\ dsNext (dcSrc s2 t) = now + interval /\ dsLast (dcSrc s2 t) = now.
Proof.
  intros Inj No R S. destruct (waits_listed on es s o Inj No R t S) as (e & Ie & Fe). assert (V := reach_inv on es s o R). destruct (iv_runs _ _ V e Ie) as (l & Il & Ql & Hl).
  exists (lkQ l). split; [now apply in_map|]. intros now. cbn [dstep]. unfold ended. destruct (find (fun x => lkQ x =? lkQ l) (dcRun s)) as [m|] eqn:Fm; [|pose proof (find_none _ _ Fm l Il) as Q; cbn in Q; rewrite Z.eqb_refl in Q; discriminate].
  apply find_some in Fm as [Im Qm]. apply Z.eqb_eq in Qm. assert (m = l) as -> by (apply (q_once hashOf s); assumption). unfold finding_finished. cbn.
  destruct (find (isHash (lkHash l)) (dcEntries s)) as [e'|] eqn:Fe'; [|exfalso; apply (find_hash_none s _ Fe' e Ie); congruence]. apply find_hash in Fe' as [Ie' He'].
  assert (enFor e' = t) as Q by (apply Inj; rewrite <- (iv_own _ _ V e' Ie'), <- Fe, <- (iv_own _ _ V e Ie); congruence). rewrite Q. do 2 eexists. split; [reflexivity|]. cbn. rewrite Z.eqb_refl. auto.
Qed.

(** [t] waits and no lookup is listed for it *)
Definition lost (t : Z) (s : dcomm) : Prop := dsState (dcSrc s t) = stAnnouncing /\ forall e, In e (dcEntries s) -> enFor e <> t.

Lemma erase_from h l e : In e (eraseHash h l) -> In e l.
Proof. induction l as [|x l IH]; [intros []|]. cbn [eraseHash]. destruct (isHash h x); [now right|]. intros [->|I]; [now left|right; now apply IH]. Qed.

Lemma lost_finished t s q h c now s' o : lost t s -> finding_finished interval s q h c now = (s', o) -> lost t s' /\ (forall q c, ~ In (OReported q t c) o) /\ (forall q, ~ In (OStarted q t) o).
Proof.
  intros [A B] H. unfold finding_finished in H. destruct (find (isHash h) (dcEntries s)) as [e|] eqn:Fe; injection H as <- <-; [|repeat split; try assumption; [intros ? ? []|intros ? []]].
  apply find_hash in Fe as [Ie _]. assert (Q := B e Ie). split; [|split; [intros q' c' [X|[]]; injection X; congruence|intros q' [X|[]]; discriminate]]. split; cbn.
  - destruct (Z.eqb_spec t (enFor e)); [congruence|exact A].
  - intros e' I'. apply B. now apply erase_from in I'.
Qed.

Lemma lost_step t s e s' o : lost t s -> e <> DStop t -> step s e = (s', o) -> lost t s' /\ (forall q c, ~ In (OReported q t c) o) /\ (forall q, ~ In (OStarted q t) o).
Proof.
  intros L Ne E. assert (A := proj1 L). assert (B := proj2 L).
  assert (N : forall x, lost t x -> lost t x /\ (forall q c, ~ In (OReported q t c) []) /\ (forall q, ~ In (OStarted q t) [])). { intros x Lx. split; [exact Lx|]. split; [intros ? ? []|intros ? []]. }
  assert (SF : forall t' nodes now, src_find hashOf interval s t' nodes now = (s', o) -> lost t s' /\ (forall q c, ~ In (OReported q t c) o) /\ (forall q, ~ In (OStarted q t) o)).
  { intros t' nodes now H. unfold src_find in H. destruct (dcOn s && negb (dsState (dcSrc s t') =? stAnnouncing)) eqn:X; [|injection H as <- <-; now apply N].
    apply andb_prop in X as [_ X]. apply Bool.negb_true_iff, Z.eqb_neq in X. assert (t' <> t) as Q by (intros ->; now apply X).
    assert (L1 : lost t (setSrc s t' {| dsState := stAnnouncing; dsNext := 0; dsLast := dsLast (dcSrc s t'); dsPeers := dsPeers (dcSrc s t') |})). { split; [cbn; destruct (Z.eqb_spec t t'); [congruence|exact A]|exact B]. }
    unfold comm_find in H. destruct (existsb _ _); [injection H as <- <-; now apply N|]. cbn [setSrc dcEntries dcRun dcSrc dcOn dcHears dcWait dcNew] in H.
    assert (L2 : lost t {| dcEntries := dcEntries s ++ [{| enQ := dcNew s; enHash := hashOf t'; enFor := t' |}]; dcRun := if nodes then dcRun s ++ [{| lkQ := dcNew s; lkHash := hashOf t'; lkCount := 0 |}] else dcRun s;
       dcSrc := fun x => if x =? t' then {| dsState := stAnnouncing; dsNext := 0; dsLast := dsLast (dcSrc s t'); dsPeers := dsPeers (dcSrc s t') |} else dcSrc s x; dcOn := dcOn s; dcHears := dcHears s; dcWait := dcWait s; dcNew := dcNew s + 1 |}).
    { split; [exact (proj1 L1)|]. cbn. intros e' I'. apply in_app_or in I' as [I'|[<-|[]]]; [now apply B|exact Q]. }
    destruct nodes; [injection H as <- <-; split; [exact L2|split; [intros q c [Y|[]]; discriminate|intros q [Y|[]]; injection Y; congruence]]|].
    destruct (finding_finished _ _ _ _ _ _) as [s2 o2] eqn:F. injection H as <- <-. destruct (lost_finished t _ _ _ _ _ _ _ L2 F) as (L3 & F1 & F2). split; [exact L3|].
    split; [intros q c [Y|Y]; [discriminate|now apply F1 in Y]|intros q [Y|Y]; [injection Y; congruence|now apply F2 in Y]]. }
  destruct e; cbn [dstep] in E.
  - injection E as <- <-. unfold src_start. destruct (Z.eqb_spec (dsState (dcSrc s t0)) stClear) as [Q|Q]; [|now apply N]. apply N. split; [|exact B]. cbn. destruct (Z.eqb_spec t t0) as [<-|Q']; [rewrite A in Q; discriminate|exact A].
  - injection E as <- <-. apply N. split; cbn; [destruct (Z.eqb_spec t t0) as [<-|Q]; [now destruct Ne|exact A]|]. intros e' I'. apply B. now apply erase_from in I'.
  - unfold src_update in E. destruct ((dsNext (dcSrc s t0) <=? now) && (dsState (dcSrc s t0) =? stConnected)) eqn:X; [|injection E as <- <-; now apply N]. destruct done; [|exact (SF _ _ _ E)]. injection E as <- <-. apply N. split; [|exact B]. cbn. destruct (Z.eqb_spec t t0) as [<-|Q]; exact A.
  - exact (SF _ _ _ E).
  - unfold found in E. destruct (find _ (dcRun s)) as [l|]; [|injection E as <- <-; now apply N]. destruct (find (isHash (lkHash l)) (dcEntries s)) as [en|] eqn:Fe; injection E as <- <-.
    + split; [split; cbn; [|exact B]|split; [intros q' c [Y|[]]; discriminate|intros q' [Y|[]]; discriminate]]. destruct (Z.eqb_spec t (enFor en)) as [<-|Q]; exact A.
    + apply N. split; [exact A|exact B].
  - unfold ended in E. destruct (find _ (dcRun s)) as [l|]; [|injection E as <- <-; now apply N]. refine (lost_finished t _ _ _ _ _ _ _ _ E). exact L.
  - injection E as <- <-. apply N. exact L.
  - injection E as <- <-. apply N. split; [exact A|intros e' []].
  - injection E as <- <-. apply N. exact L.
  - destruct (existsb _ _); injection E as <- <-; [|now apply N]. split; [exact L|]. split; [intros q c [Y|[]]; discriminate|intros q [Y|[]]; discriminate].
  - injection E as <- <-. split; [exact L|]. destruct (dcHears s); [split; [intros q c [Y|[]]; discriminate|intros q [Y|[]]; discriminate]|split; [intros ? ? []|intros ? []]].
Qed.

Lemma lost_run t es : forall s s' o, lost t s -> ~ In (DStop t) es -> run s es = (s', o) -> lost t s' /\ (forall q c, ~ In (OReported q t c) o) /\ (forall q, ~ In (OStarted q t) o).
Proof.
  induction es as [|e es IH]; intros s s' o L No H; [cbn in H; injection H as <- <-; split; [exact L|split; [intros ? ? []|intros ? []]]|].
  apply run_cons in H as (s1 & o1 & o2 & E & R & ->). destruct (lost_step t s e s1 o1 L ltac:(intros ->; apply No; now left) E) as (L1 & A & B).
  destruct (IH s1 s' o2 L1 ltac:(intros Q; apply No; now right) R) as (L2 & C & D). split; [exact L2|]. split; [intros q c Q|intros q Q]; apply in_app_or in Q as [Q|Q]; [now apply A in Q|now apply C in Q|now apply B in Q|now apply D in Q].
Qed.

(** A torrent that waits for a lookup when the DHT is switched off waits forever: whatever happens then, the DHT switched on
    again included, no lookup is begun for it and no end is reported to it until the torrent itself is stopped. *)
Theorem C86_off_forgets s es t s' o : dsState (dcSrc s t) = stAnnouncing -> ~ In (DStop t) es -> run s (DOff :: es) = (s', o) ->
  dsState (dcSrc s' t) = stAnnouncing /\ (forall q, ~ In (OStarted q t) o) /\ (forall q c, ~ In (OReported q t c) o).
Proof.
  intros S No H. apply run_cons in H as (s1 & o1 & o2 & E & R & ->). cbn in E. injection E as <- <-. cbn.
  destruct (lost_run t es _ s' o2 (conj S (fun e (I : In e []) => match I with end) : lost t (comm_stop s)) No R) as ((A & _) & B & C). auto.
Qed.

(** After the DHT was switched off once no unexpected packet is handed on any more, to uTP or to the DHT. *)
Theorem C86_deaf_refuted s es s' o : run s (DOff :: es) = (s', o) -> ~ In OPacket o.
Proof.
  intros H. apply run_cons in H as (s1 & o1 & o2 & E & R & ->). cbn in E. injection E as <- <-. cbn.
  assert (G : forall es x x' o, dcHears x = false -> run x es = (x', o) -> ~ In OPacket o); [|exact (G es (comm_stop s) _ _ eq_refl R)]. clear.
  induction es as [|e es IH]; intros x x' o Hx H; [cbn in H; injection H as <- <-; intros []|]. apply run_cons in H as (s1 & o1 & o2 & E & R & ->).
  assert (FF : forall y q h c now s' o, finding_finished interval y q h c now = (s', o) -> dcHears s' = dcHears y /\ ~ In OPacket o). { intros y q h c now s' o H. unfold finding_finished in H. destruct (find _ _); injection H as <- <-; cbn; (split; [reflexivity|]); intuition discriminate. }
  assert (SF : forall t nodes now, src_find hashOf interval x t nodes now = (s1, o1) -> dcHears s1 = false /\ ~ In OPacket o1).
  { intros t nodes now H. unfold src_find in H. destruct (_ && _); [|injection H as <- <-; auto]. unfold comm_find in H. destruct (existsb _ _); [injection H as <- <-; auto|]. destruct nodes; [injection H as <- <-; cbn; split; [exact Hx|intros [Q|[]]; discriminate]|].
    destruct (finding_finished _ _ _ _ _ _) as [s2 o3] eqn:F. injection H as <- <-. apply FF in F as [F1 F2]. cbn in F1. split; [congruence|]. intros [Q|Q]; [discriminate|now apply F2]. }
  assert (K : dcHears s1 = false /\ ~ In OPacket o1).
  { clear IH R. destruct e; cbn [dstep] in E; try (injection E as <- <-; split; [exact Hx|intros []]; fail).
    - injection E as <- <-. unfold src_start. destruct (_ =? _); split; auto.
    - unfold src_update in E. destruct (_ && _); [|injection E as <- <-; auto]. destruct done; [injection E as <- <-; auto|]. exact (SF _ _ _ E).
    - exact (SF _ _ _ E).
    - unfold found in E. destruct (find _ (dcRun x)) as [l|]; [|injection E as <- <-; auto]. destruct (find _ (dcEntries x)); injection E as <- <-; (split; [exact Hx|]); [intros [Q|[]]; discriminate|intros []].
    - unfold ended in E. destruct (find _ (dcRun x)) as [l|]; [|injection E as <- <-; auto]. apply FF in E as [E1 E2]. cbn in E1. split; [congruence|exact E2].
    - injection E as <- <-. split; [reflexivity|intros []].
    - destruct (existsb _ _); injection E as <- <-; (split; [exact Hx|]); [intros [Q|[]]; discriminate|intros []].
    - injection E as <- <-. rewrite Hx. auto. }
  intros Q. apply in_app_or in Q as [Q|Q]; [now apply (proj2 K)|]. exact (IH s1 x' o2 (proj1 K) R Q).
Qed.

(** how many unexpected packets came, and how many were handed on *)
Definition packets (es : list devt) : nat := length (filter (fun e => match e with DPacket => true | _ => false end) es).
Definition handed (o : list dout) : nat := length (filter (fun e => match e with OPacket => true | _ => false end) o).

Lemma handed_app a b : handed (a ++ b) = (handed a + handed b)%nat.
Proof. unfold handed. rewrite filter_app, app_length. reflexivity. Qed.

Lemma step_hears s e s1 o1 : e <> DOff -> step s e = (s1, o1) -> dcHears s1 = dcHears s /\ handed o1 = match e with DPacket => if dcHears s then 1%nat else 0%nat | _ => 0%nat end.
Proof.
  intros Ne E.
  assert (FF : forall y q h c now s' o, finding_finished interval y q h c now = (s', o) -> dcHears s' = dcHears y /\ handed o = 0%nat). { intros y q h c now s' o H. unfold finding_finished in H. destruct (find _ _); injection H as <- <-; split; reflexivity. }
  assert (SF : forall t nodes now, src_find hashOf interval s t nodes now = (s1, o1) -> dcHears s1 = dcHears s /\ handed o1 = 0%nat).
  { intros t nodes now H. unfold src_find in H. destruct (_ && _); [|injection H as <- <-; split; reflexivity]. unfold comm_find in H. destruct (existsb _ _); [injection H as <- <-; split; reflexivity|]. destruct nodes; [injection H as <- <-; split; reflexivity|].
    destruct (finding_finished _ _ _ _ _ _) as [s2 o3] eqn:F. injection H as <- <-. apply FF in F as [F1 F2]. cbn in F1. split; [exact F1|exact F2]. }
  destruct e; cbn [dstep] in E; try congruence; try (injection E as <- <-; split; reflexivity).
  - injection E as <- <-. unfold src_start. destruct (_ =? _); split; reflexivity.
  - unfold src_update in E. destruct (_ && _); [|injection E as <- <-; split; reflexivity]. destruct done; [injection E as <- <-; split; reflexivity|]. exact (SF _ _ _ E).
  - exact (SF _ _ _ E).
  - unfold found in E. destruct (find _ (dcRun s)) as [l|]; [|injection E as <- <-; split; reflexivity]. destruct (find _ (dcEntries s)); injection E as <- <-; split; reflexivity.
  - unfold ended in E. destruct (find _ (dcRun s)) as [l|]; [|injection E as <- <-; split; reflexivity]. apply FF in E as [E1 E2]. split; [exact E1|exact E2].
  - destruct (existsb _ _); injection E as <- <-; split; reflexivity.
  - injection E as <- <-. split; [reflexivity|]. destruct (dcHears s); reflexivity.
Qed.

(** Without the DHT switched off every unexpected packet is handed on. *)
Theorem C86_hears_partial on es s o : ~ In DOff es -> run (dcInit on) es = (s, o) -> handed o = packets es.
Proof.
  assert (G : forall es x x' o, dcHears x = true -> ~ In DOff es -> run x es = (x', o) -> handed o = packets es).
  { clear. induction es as [|e es IH]; intros x x' o Hx No H; [cbn in H; injection H as <- <-; reflexivity|]. apply run_cons in H as (s1 & o1 & o2 & E & R & ->).
    destruct (step_hears x e s1 o1 ltac:(intros ->; apply No; now left) E) as [E1 E2]. rewrite handed_app, E2, (IH s1 x' o2 ltac:(congruence) ltac:(intros Q; apply No; now right) R), Hx. unfold packets. destruct e; reflexivity. }
  intros No R. exact (G es (dcInit on) s o eq_refl No R).
Qed.

Lemma step_wait s e s1 o1 : e <> DOff -> step s e = (s1, o1) ->
  forall k, (In k (dcWait s) -> In k (dcWait s1) \/ In (OAnswered k) o1) /\ (In (OAnswered k) o1 -> e = DAnswer k /\ In k (dcWait s)) /\ (In k (dcWait s1) -> In k (dcWait s) \/ e = DAsk k).
Proof.
  intros Ne E k.
  assert (FF : forall y q h c now s' o, finding_finished interval y q h c now = (s', o) -> dcWait s' = dcWait y /\ ~ In (OAnswered k) o). { intros y q h c now s' o H. unfold finding_finished in H. destruct (find _ _); injection H as <- <-; cbn; (split; [reflexivity|]); intuition discriminate. }
  assert (D : dcWait s1 = dcWait s -> ~ In (OAnswered k) o1 -> (In k (dcWait s) -> In k (dcWait s1) \/ In (OAnswered k) o1) /\ (In (OAnswered k) o1 -> e = DAnswer k /\ In k (dcWait s)) /\ (In k (dcWait s1) -> In k (dcWait s) \/ e = DAsk k)).
  { intros -> N. repeat split; try tauto. }
  assert (SF : forall t nodes now, src_find hashOf interval s t nodes now = (s1, o1) -> dcWait s1 = dcWait s /\ ~ In (OAnswered k) o1).
  { intros t nodes now H. unfold src_find in H. destruct (_ && _); [|injection H as <- <-; auto]. unfold comm_find in H. destruct (existsb _ _); [injection H as <- <-; auto|]. destruct nodes; [injection H as <- <-; cbn; split; [reflexivity|intros [Q|[]]; discriminate]|].
    destruct (finding_finished _ _ _ _ _ _) as [s2 o3] eqn:F. injection H as <- <-. apply FF in F as [F1 F2]. cbn in F1. split; [exact F1|]. intros [Q|Q]; [discriminate|now apply F2]. }
  destruct e; cbn [dstep] in E; try congruence.
  - injection E as <- <-. apply D; [unfold src_start; destruct (_ =? _); reflexivity|intros []].
  - injection E as <- <-. apply D; [reflexivity|intros []].
  - unfold src_update in E. destruct (_ && _); [|injection E as <- <-; apply D; [reflexivity|intros []]]. destruct done; [injection E as <- <-; apply D; [reflexivity|intros []]|]. apply D; apply (SF _ _ _ E).
  - apply D; apply (SF _ _ _ E).
  - unfold found in E. destruct (find _ (dcRun s)) as [l|]; [|injection E as <- <-; apply D; [reflexivity|intros []]]. destruct (find _ (dcEntries s)); injection E as <- <-; apply D; try reflexivity; [intros [Q|[]]; discriminate|intros []].
  - unfold ended in E. destruct (find _ (dcRun s)) as [l|]; [|injection E as <- <-; apply D; [reflexivity|intros []]]. destruct (FF _ _ _ _ _ _ _ E) as [E1 E2]. now apply D.
  - injection E as <- <-. apply D; [reflexivity|intros []].
  - injection E as <- <-. cbn. split; [tauto|]. split; [intros []|]. intros [->|I]; auto.
  - destruct (existsb (Z.eqb k0) (dcWait s)) eqn:X; injection E as <- <-; [|apply D; [reflexivity|intros []]]. apply existsb_exists in X as (x & Ix & Q). apply Z.eqb_eq in Q. subst x. cbn. repeat split.
    + intros I. destruct (Z.eqb_spec k k0) as [Q|Q]; [right; left; congruence|left; apply filter_In; split; [exact I|now apply Bool.negb_true_iff, Z.eqb_neq]].
    + destruct H as [H|[]]; congruence.
    + destruct H as [H|[]]; congruence.
    + intros I. apply filter_In in I as [I _]. now left.
  - injection E as <- <-. apply D; [reflexivity|]. destruct (dcHears s); [intros [Q|[]]; discriminate|intros []].
Qed.

(** Without the DHT switched off a request of anyone else on the same socket is answered or still waits. *)
Theorem C86_answered_partial on es s o k : ~ In DOff es -> run (dcInit on) es = (s, o) -> In (DAsk k) es -> In k (dcWait s) \/ In (OAnswered k) o.
Proof.
  intros No R. revert No. revert s o R. apply (run_prefix (fun es s o => ~ In DOff es -> In (DAsk k) es -> In k (dcWait s) \/ In (OAnswered k) o)); [intros _ []|]. clear es.
  intros es e s o s1 o1 R IH E No I. assert (No1 : ~ In DOff es) by (intros Q; apply No; apply in_or_app; now left). assert (Ne : e <> DOff) by (intros ->; apply No; apply in_or_app; right; now left).
  destruct (step_wait s e s1 o1 Ne E k) as (A & _ & _). apply in_app_or in I as [I|[I|[]]].
  - destruct (IH No1 I) as [J|J]; [destruct (A J) as [K|K]; [now left|right; apply in_or_app; now right]|right; apply in_or_app; now left].
  - subst e. cbn in E. injection E as <- <-. left. now left.
Qed.

(** Switching the DHT off drops the requests of everyone: none is answered unless asked again. *)
Theorem C86_dropped_refuted s es s' o k : ~ In (DAsk k) es -> run s (DOff :: es) = (s', o) -> ~ In (OAnswered k) o.
Proof.
  intros No H. apply run_cons in H as (s1 & o1 & o2 & E & R & ->). cbn in E. injection E as <- <-. cbn.
  assert (G : forall es x x' o, ~ In k (dcWait x) -> ~ In (DAsk k) es -> run x es = (x', o) -> ~ In (OAnswered k) o); [|exact (G es (comm_stop s) _ _ (fun Q : In k [] => Q) No R)]. clear.
  induction es as [|e es IH]; intros x x' o Hx No H; [cbn in H; injection H as <- <-; intros []|]. apply run_cons in H as (s1 & o1 & o2 & E & R & ->).
  assert (K : ~ In k (dcWait s1) /\ ~ In (OAnswered k) o1).
  { assert (De : e = DOff \/ e <> DOff) by (destruct e; (now left) || (right; discriminate)). destruct De as [->|De].
    - cbn in E. injection E as <- <-. split; intros [].
    - destruct (step_wait x e s1 o1 De E k) as (_ & B & C). split; [intros Q; destruct (C Q) as [Q'|Q']; [exact (Hx Q')|apply No; now left]|intros Q; destruct (B Q) as [_ Q']; exact (Hx Q')]. }
  intros Q. apply in_app_or in Q as [Q|Q]; [now apply (proj2 K)|]. exact (IH s1 x' o2 (proj1 K) ltac:(intros Q'; apply No; now right) R Q).
Qed.

(** every lookup that runs is listed, while no torrent stops and the DHT stays on, and it is the last one begun for its torrent *)
Lemma listed_last on es s o : (forall a b, hashOf a = hashOf b -> a = b) -> ~ In DOff es -> (forall t, ~ In (DStop t) es) -> run (dcInit on) es = (s, o) ->
  (forall l, In l (dcRun s) -> exists e, In e (dcEntries s) /\ enQ e = lkQ l /\ enHash e = lkHash l) /\ (forall e q, In e (dcEntries s) -> In (OStarted q (enFor e)) o -> q <= enQ e).
Proof.
  intros Inj No Ns R. revert No Ns. revert s o R. apply (run_prefix (fun es s o => ~ In DOff es -> (forall t, ~ In (DStop t) es) ->
    (forall l, In l (dcRun s) -> exists e, In e (dcEntries s) /\ enQ e = lkQ l /\ enHash e = lkHash l) /\ (forall e q, In e (dcEntries s) -> In (OStarted q (enFor e)) o -> q <= enQ e))); [intros _ _; split; [intros l []|intros e q []]|]. clear es.
  intros es e s o s1 o1 R IH E No Ns. assert (V := reach_inv on es s o R). assert (Old := started_old on es s o R).
  destruct (IH ltac:(intros Q; apply No; apply in_or_app; now left) ltac:(intros t Q; apply (Ns t); apply in_or_app; now left)) as [A B]. clear IH.
  assert (Noff : e <> DOff) by (intros ->; apply No; apply in_or_app; right; now left). assert (Nst : forall t, e <> DStop t) by (intros t ->; apply (Ns t); apply in_or_app; right; now left). clear No Ns.
  set (P := fun (x : dcomm) (l : list dout) => (forall l, In l (dcRun x) -> exists e, In e (dcEntries x) /\ enQ e = lkQ l /\ enHash e = lkHash l) /\ (forall e q, In e (dcEntries x) -> In (OStarted q (enFor e)) l -> q <= enQ e)).
  change (P s1 (o ++ o1)).
  assert (U : forall o2 x, (forall q t, ~ In (OStarted q t) o2) -> P x o -> P x (o ++ o2)).
  { intros o2 x N [C D]. split; [exact C|]. intros e' q Ie I. apply in_app_or in I as [I|I]; [exact (D e' q Ie I)|now apply N in I]. }
  assert (Same : forall x, dcRun x = dcRun s -> dcEntries x = dcEntries s -> P x o). { intros x Q1 Q2. split; [rewrite Q1, Q2; exact A|rewrite Q2; exact B]. }
  assert (SF : forall t nodes now, src_find hashOf interval s t nodes now = (s1, o1) -> P s1 (o ++ o1)).
  { intros t nodes now H. unfold src_find in H. destruct (dcOn s && negb (dsState (dcSrc s t) =? stAnnouncing)) eqn:X; [|injection H as <- <-; rewrite app_nil_r; now apply Same].
    apply andb_prop in X as [_ X]. apply Bool.negb_true_iff, Z.eqb_neq in X. unfold comm_find in H. cbn [setSrc dcEntries dcRun dcSrc dcOn dcHears dcWait dcNew] in H.
    destruct (existsb _ _) eqn:Y; [injection H as <- <-; rewrite app_nil_r; now apply Same|].
    assert (Nn : forall e, In e (dcEntries s) -> enHash e <> hashOf t). { intros e' I' Q. apply (not_waiting _ s t V X e' I'). apply Inj. rewrite <- (iv_own _ _ V e' I'). exact Q. }
    assert (Nt : forall e, In e (dcEntries s) -> enFor e <> t). { intros e' I' Q. apply (Nn e' I'). rewrite (iv_own _ _ V e' I'), Q. reflexivity. }
    destruct nodes.
    - injection H as <- <-. split; cbn.
      + intros l Il. apply in_app_or in Il as [Il|[<-|[]]]; [destruct (A l Il) as (e' & I' & Q); exists e'; split; [apply in_or_app; now left|exact Q]|]. eexists. split; [apply in_or_app; right; left; reflexivity|]. split; reflexivity.
      + intros e' q Ie I. apply in_app_or in I as [I|[I|[]]].
        * apply in_app_or in Ie as [Ie|[<-|[]]]; [exact (B e' q Ie I)|]. cbn in I |- *. specialize (Old q t I). lia.
        * injection I as <- Q. apply in_app_or in Ie as [Ie|[<-|[]]]; [now destruct (Nt e' Ie)|cbn; lia].
    - destruct (finding_finished _ _ _ _ _ _) as [s2 o2] eqn:F. injection H as <- <-. unfold finding_finished in F. cbn [dcEntries dcRun dcSrc dcOn dcHears dcWait dcNew] in F.
      assert (K : find (isHash (hashOf t)) (dcEntries s ++ [{| enQ := dcNew s; enHash := hashOf t; enFor := t |}]) = Some {| enQ := dcNew s; enHash := hashOf t; enFor := t |} /\ eraseHash (hashOf t) (dcEntries s ++ [{| enQ := dcNew s; enHash := hashOf t; enFor := t |}]) = dcEntries s).
      { clear - Nn. induction (dcEntries s) as [|x r IH]; cbn [app find eraseHash].
        - assert (isHash (hashOf t) {| enQ := dcNew s; enHash := hashOf t; enFor := t |} = true) as -> by now apply isHash_spec. auto.
        - destruct (isHash (hashOf t) x) eqn:Q; [apply isHash_spec in Q; now destruct (Nn x (or_introl eq_refl))|]. destruct IH as [I1 I2]; [intros e I; apply Nn; now right|]. rewrite I2. split; [exact I1|reflexivity]. }
      destruct K as [K1 K2]. rewrite K1, K2 in F. injection F as <- <-. split; cbn.
      + exact A.
      + intros e' q Ie I. apply in_app_or in I as [I|[I|[I|[]]]]; [exact (B e' q Ie I)| |discriminate]. injection I as <- Q. now destruct (Nt e' Ie). }
  destruct e; cbn [dstep] in E; try congruence.
  - injection E as <- <-. rewrite app_nil_r. apply Same; unfold src_start; destruct (_ =? _); reflexivity.
  - unfold src_update in E. destruct (_ && _); [|injection E as <- <-; rewrite app_nil_r; now apply Same]. destruct done; [injection E as <- <-; rewrite app_nil_r; now apply Same|]. exact (SF _ _ _ E).
  - exact (SF _ _ _ E).
  - unfold found in E. destruct (find _ (dcRun s)) as [l|]; [|injection E as <- <-; rewrite app_nil_r; now apply Same].
    destruct (find _ (dcEntries s)) as [en|]; injection E as <- <-; (apply U; [cbn; intros q' t'; intuition discriminate|]); (split; [cbn; intros l' Il; apply in_map_iff in Il as (x & <- & Ix); destruct (A x Ix) as (e' & I' & Q1 & Q2); exists e'; split; [exact I'|]; destruct (Z.eqb_spec (lkQ x) q); cbn; (split; [congruence|exact Q2])|exact B]).
  - unfold ended in E. destruct (find (fun l => lkQ l =? q) (dcRun s)) as [l|] eqn:Fl; [|injection E as <- <-; rewrite app_nil_r; now apply Same]. apply find_some in Fl as [Il Ql]. apply Z.eqb_eq in Ql.
    destruct (A l Il) as (el & Iel & Qel & Hel). unfold finding_finished in E. cbn [setLists dcEntries dcRun] in E.
    destruct (find (isHash (lkHash l)) (dcEntries s)) as [en|] eqn:Fe; [|exfalso; exact (find_hash_none s _ Fe el Iel Hel)]. injection E as <- <-. apply U; [cbn; intros q' t'; intuition discriminate|]. split; cbn.
    + intros l' Il'. apply filter_In in Il' as [Il' N']. apply Bool.negb_true_iff, Z.eqb_neq in N'. destruct (A l' Il') as (e' & I' & Q1 & Q2). exists e'. split; [|auto]. apply erase_in; [apply (iv_hash _ _ V)|]. split; [exact I'|]. intros Q.
      assert (e' = el). { pose proof (iv_hash _ _ V) as Nd. clear - Nd I' Iel Q Hel. assert (enHash e' = enHash el) as W by congruence. clear Q Hel. induction (dcEntries s) as [|x r IHr]; [destruct I'|]. cbn [map] in Nd. apply NoDup_cons_iff in Nd as [Nx Nd].
        destruct I' as [->|I'], Iel as [->|Iel]; [reflexivity|exfalso; apply Nx; rewrite W; now apply in_map|exfalso; apply Nx; rewrite <- W; now apply in_map|now apply IHr]. }
      subst e'. apply N'. congruence.
    + intros e' q' I'. apply erase_from in I'. now apply B.
  - injection E as <- <-. rewrite app_nil_r. now apply Same.
  - injection E as <- <-. rewrite app_nil_r. now apply Same.
  - destruct (existsb _ _); injection E as <- <-; (apply U; [cbn; intros q' t'; intuition discriminate|now apply Same]).
  - injection E as <- <-. apply U; [destruct (dcHears s); cbn; intros q' t'; intuition discriminate|now apply Same].
Qed.

(** While no torrent stops and the DHT stays on, the end that is reported to a torrent is the end of the last lookup begun for it. *)
Theorem C86_report_partial on es s o q now s2 t c : (forall a b, hashOf a = hashOf b -> a = b) -> ~ In DOff es -> (forall t, ~ In (DStop t) es) -> run (dcInit on) es = (s, o) ->
  step s (DEnd q now) = (s2, [OReported q t c]) -> In (OStarted q t) o /\ forall q', In (OStarted q' t) o -> q' <= q.
Proof.
  intros Inj No Ns R E. assert (V := reach_inv on es s o R). destruct (listed_last on es s o Inj No Ns R) as [A B]. cbn [dstep] in E. unfold ended in E.
  destruct (find (fun l => lkQ l =? q) (dcRun s)) as [l|] eqn:Fl; [|discriminate E]. apply find_some in Fl as [Il Ql]. apply Z.eqb_eq in Ql. unfold finding_finished in E. cbn [setLists dcEntries dcRun] in E.
  destruct (find (isHash (lkHash l)) (dcEntries s)) as [en|] eqn:Fe; [|discriminate E]. apply find_hash in Fe as [Ie He]. injection E as _ Et _.
  destruct (A l Il) as (el & Iel & Qel & Hel). assert (enFor el = t) as Ft by (rewrite <- Et; apply Inj; rewrite <- (iv_own _ _ V el Iel), <- (iv_own _ _ V en Ie); congruence). split.
  - destruct (runs_started on es s o R l Il) as (t' & S & Q). assert (t' = t) as -> by (apply Inj; rewrite <- Ft, <- (iv_own _ _ V el Iel); congruence). congruence.
  - intros q' I. rewrite <- Ft in I. specialize (B el q' Iel I). lia.
Qed.

(** [t] is ready for its next lookup at [n] and none is listed for it *)
Definition rests (t n : Z) (s : dcomm) : Prop := dsState (dcSrc s t) = stConnected /\ dsNext (dcSrc s t) = n /\ forall e, In e (dcEntries s) -> enFor e <> t.

Lemma rests_finished t n s q h c now s' o : rests t n s -> finding_finished interval s q h c now = (s', o) -> rests t n s' /\ (forall q, ~ In (OStarted q t) o).
Proof.
  intros (A & A' & B) H. unfold finding_finished in H. destruct (find (isHash h) (dcEntries s)) as [e|] eqn:Fe; injection H as <- <-; [|split; [split; [exact A|split; assumption]|intros ? []]].
  apply find_hash in Fe as [Ie _]. assert (Q := B e Ie). split; [|intros q' [X|[]]; discriminate]. unfold rests. cbn. destruct (Z.eqb_spec t (enFor e)); [congruence|]. split; [exact A|]. split; [exact A'|].
  intros e' I'. apply B. now apply erase_from in I'.
Qed.

Lemma rests_step t n s e s' o : rests t n s -> e <> DStop t -> (forall now nodes, e <> DRefresh t now nodes) -> (forall now d nodes, e = DUpdate t now d nodes -> now < n) -> step s e = (s', o) -> rests t n s' /\ (forall q, ~ In (OStarted q t) o).
Proof.
  intros L Ne Nr Nu E. destruct L as (A & A' & B).
  assert (N : forall x, rests t n x -> rests t n x /\ (forall q, ~ In (OStarted q t) [])). { intros x Lx. split; [exact Lx|intros ? []]. }
  assert (L : rests t n s) by (split; [exact A|split; assumption]).
  assert (SF : forall t' nodes now, t' <> t -> src_find hashOf interval s t' nodes now = (s', o) -> rests t n s' /\ (forall q, ~ In (OStarted q t) o)).
  { intros t' nodes now Q H. unfold src_find in H. destruct (dcOn s && negb (dsState (dcSrc s t') =? stAnnouncing)) eqn:X; [|injection H as <- <-; now apply N].
    unfold comm_find in H. cbn [setSrc dcEntries dcRun dcSrc dcOn dcHears dcWait dcNew] in H.
    assert (G : forall x, dcSrc x = (fun y => if y =? t' then {| dsState := stAnnouncing; dsNext := 0; dsLast := dsLast (dcSrc s t'); dsPeers := dsPeers (dcSrc s t') |} else dcSrc s y) -> (forall e, In e (dcEntries x) -> enFor e <> t) -> rests t n x).
    { intros x Qx Ex. unfold rests. rewrite Qx. destruct (Z.eqb_spec t t'); [congruence|]. auto. }
    destruct (existsb _ _); [injection H as <- <-; apply N; apply G; [reflexivity|exact B]|].
    assert (Ex : forall e, In e (dcEntries s ++ [{| enQ := dcNew s; enHash := hashOf t'; enFor := t' |}]) -> enFor e <> t). { intros e' I'. apply in_app_or in I' as [I'|[<-|[]]]; [now apply B|exact Q]. }
    destruct nodes; [injection H as <- <-; split; [apply G; [reflexivity|exact Ex]|intros q [Y|[]]; injection Y; congruence]|].
    destruct (finding_finished _ _ _ _ _ _) as [s2 o2] eqn:F. injection H as <- <-. match type of F with finding_finished _ ?x _ _ _ _ = _ => destruct (rests_finished t n x _ _ _ _ _ _ (G x eq_refl Ex) F) as (L3 & F2) end. split; [exact L3|].
    intros q [Y|Y]; [injection Y; congruence|now apply F2 in Y]. }
  destruct e; cbn [dstep] in E.
  - injection E as <- <-. unfold src_start. destruct (Z.eqb_spec (dsState (dcSrc s t0)) stClear) as [Q|Q]; [|now apply N]. apply N. unfold rests. cbn. destruct (Z.eqb_spec t t0) as [Q'|Q']; [rewrite <- Q', A in Q; discriminate|]. auto.
  - injection E as <- <-. apply N. unfold rests. cbn. destruct (Z.eqb_spec t t0) as [Q|Q]; [congruence|]. split; [exact A|]. split; [exact A'|]. intros e' I'. apply B. now apply erase_from in I'.
  - unfold src_update in E. destruct (Z.eqb_spec t0 t) as [Q|Q].
    + subst t0. specialize (Nu now done nodes eq_refl). destruct (Z.leb_spec (dsNext (dcSrc s t)) now); [lia|]. cbn in E. injection E as <- <-. now apply N.
    + destruct ((dsNext (dcSrc s t0) <=? now) && (dsState (dcSrc s t0) =? stConnected)); [|injection E as <- <-; now apply N]. destruct done; [|exact (SF _ _ _ Q E)]. injection E as <- <-. apply N. unfold rests. cbn. destruct (Z.eqb_spec t t0) as [Q'|Q']; [congruence|]. auto.
  - destruct (Z.eqb_spec t0 t) as [Q|Q]; [subst t0; now destruct (Nr now nodes)|exact (SF _ _ _ Q E)].
  - unfold found in E. destruct (find _ (dcRun s)) as [l|]; [|injection E as <- <-; now apply N]. destruct (find (isHash (lkHash l)) (dcEntries s)) as [en|] eqn:Fe; injection E as <- <-.
    + apply find_hash in Fe as [Ie _]. specialize (B en Ie) as Q. split; [|intros q' [Y|[]]; discriminate]. unfold rests. cbn. destruct (Z.eqb_spec t (enFor en)); [congruence|]. auto.
    + now apply N.
  - unfold ended in E. destruct (find _ (dcRun s)) as [l|]; [|injection E as <- <-; now apply N]. refine (rests_finished t n _ _ _ _ _ _ _ _ E). exact L.
  - injection E as <- <-. now apply N.
  - injection E as <- <-. apply N. split; [exact A|]. split; [exact A'|intros e' []].
  - injection E as <- <-. now apply N.
  - destruct (existsb _ _); injection E as <- <-; [|now apply N]. split; [exact L|]. intros q [Y|[]]; discriminate.
  - injection E as <- <-. split; [exact L|]. destruct (dcHears s); [intros q [Y|[]]; discriminate|intros ? []].
Qed.

Lemma rests_run t n es : forall s s' o, rests t n s -> ~ In (DStop t) es -> (forall now nodes, ~ In (DRefresh t now nodes) es) -> (forall now d nodes, In (DUpdate t now d nodes) es -> now < n) -> run s es = (s', o) -> rests t n s' /\ (forall q, ~ In (OStarted q t) o).
Proof.
  induction es as [|e es IH]; intros s s' o L Ns Nr Nu H; [cbn in H; injection H as <- <-; split; [exact L|intros ? []]|].
  apply run_cons in H as (s1 & o1 & o2 & E & R & ->).
  destruct (rests_step t n s e s1 o1 L ltac:(intros ->; apply Ns; now left) ltac:(intros now nodes ->; apply (Nr now nodes); now left) ltac:(intros now d nodes ->; apply (Nu now d nodes); now left) E) as (L1 & A).
  destruct (IH s1 s' o2 L1 ltac:(intros Q; apply Ns; now right) ltac:(intros now nodes Q; apply (Nr now nodes); now right) ltac:(intros now d nodes Q; apply (Nu now d nodes); now right) R) as (L2 & C).
  split; [exact L2|]. intros q Q. apply in_app_or in Q as [Q|Q]; [now apply A in Q|now apply C in Q].
Qed.

(** After the end of a lookup is reported to a torrent, its timer begins the next one only when the interval is over, unless
    the torrent stops or the user asks. *)
Theorem C86_interval on es s o q t c r s1 fs s' o' : run (dcInit on) es = (s, o) -> step s (DEnd q r) = (s1, [OReported q t c]) ->
  ~ In (DStop t) fs -> (forall now nodes, ~ In (DRefresh t now nodes) fs) -> (forall now d nodes, In (DUpdate t now d nodes) fs -> now < r + interval) ->
  run s1 fs = (s', o') -> forall q', ~ In (OStarted q' t) o'.
Proof.
  intros R E Ns Nr Nu F. assert (V := reach_inv on es s o R).
  assert (L : rests t (r + interval) s1).
  { cbn [dstep] in E. unfold ended in E. destruct (find _ (dcRun s)) as [l|]; [|discriminate E]. unfold finding_finished in E. cbn [setLists dcEntries dcRun dcSrc] in E. destruct (find (isHash (lkHash l)) (dcEntries s)) as [en|] eqn:Fe; [|discriminate E].
    apply find_hash in Fe as [Ie He]. injection E as <- Et _. unfold rests. cbn. rewrite Et, Z.eqb_refl. cbn. split; [reflexivity|]. split; [reflexivity|]. intros e' I' Q. apply erase_in in I' as [I' Ne]; [|apply (iv_hash _ _ V)].
    apply Ne. rewrite (iv_own _ _ V e' I'), Q, <- Et, <- (iv_own _ _ V en Ie). exact He. }
  exact (proj2 (rests_run t (r + interval) fs s1 s' o' L Ns Nr Nu F)).
Qed.

(** the sum of the totals after each of the answers, from the total p on *)
Fixpoint totals (p : Z) (l : list (list Z * Z)) : Z := match l with [] => 0 | (_, a) :: l' => (p + a) + totals (p + a) l' end.

(** What a lookup reports as found: not the peers it found, but the sum, over its answers, of all peers the DHT ever found for the
    torrent, as far as numbers of 32 bits go. *)
Theorem C86_count es0 on s o t l0 en l now : run (dcInit on) es0 = (s, o) -> In l0 (dcRun s) -> In en (dcEntries s) -> enQ en = lkQ l0 -> enFor en = t ->
  exists s2 o2 c, run s (map (fun va => DFound (lkQ l0) (fst va) (snd va)) l ++ [DEnd (lkQ l0) now]) = (s2, o2 ++ [OReported (lkQ l0) t c])
    /\ c mod 2^32 = (lkCount l0 + totals (dsPeers (dcSrc s t)) l) mod 2^32.
Proof.
  intros R. pose proof (reach_inv on es0 s o R) as V. clear R o es0 on. remember (lkCount l0 + totals (dsPeers (dcSrc s t)) l) as n eqn:En.
  assert (Hn : (lkCount l0 + totals (dsPeers (dcSrc s t)) l) mod 2^32 = n mod 2^32) by now rewrite En. clear En. revert s l0 en V Hn.
  induction l as [|[v a] l IH]; intros s l0 en V Hn Il Ie Qe Fe.
  - cbn [map app drun dstep]. unfold ended. destruct (iv_runs _ _ V en Ie) as (m & Im & Qm & Hm). assert (m = l0) as -> by (apply (q_once hashOf s); try assumption; congruence).
    destruct (find (fun x => lkQ x =? lkQ l0) (dcRun s)) as [x|] eqn:Fx; [|pose proof (find_none _ _ Fx l0 Il) as Q; cbn in Q; rewrite Z.eqb_refl in Q; discriminate].
    apply find_some in Fx as [Ix Qx]. apply Z.eqb_eq in Qx. assert (x = l0) as -> by (apply (q_once hashOf s); assumption). unfold finding_finished. cbn [setLists dcEntries dcRun dcSrc].
    destruct (find (isHash (lkHash l0)) (dcEntries s)) as [e'|] eqn:Fe'; [|exfalso; apply (find_hash_none s _ Fe' en Ie); congruence]. apply find_hash in Fe' as [Ie' He'].
    assert (e' = en) as ->. { pose proof (iv_hash _ _ V) as Nd. assert (enHash e' = enHash en) as W by congruence. clear - Nd W Ie Ie'. induction (dcEntries s) as [|x r IHr]; [destruct Ie|]. cbn [map] in Nd. apply NoDup_cons_iff in Nd as [Nx Nd].
      destruct Ie' as [->|I'], Ie as [->|Ie]; [reflexivity|exfalso; apply Nx; rewrite W; now apply in_map|exfalso; apply Nx; rewrite <- W; now apply in_map|now apply IHr]. }
    rewrite Fe. eexists _, [], _. split; [reflexivity|]. cbn [totals] in Hn. rewrite Z.add_0_r in Hn. exact Hn.
  - destruct (iv_runs _ _ V en Ie) as (m & Im & Qm & Hm). assert (m = l0) as -> by (apply (q_once hashOf s); try assumption; congruence). clear Im Qm.
    destruct (step s (DFound (lkQ l0) v a)) as [s1 o1] eqn:E. pose proof (dstep_inv hashOf interval s _ s1 o1 V E) as V1. pose proof E as E'. cbn [dstep] in E. unfold found in E.
    destruct (find (fun x => lkQ x =? lkQ l0) (dcRun s)) as [x|] eqn:Fx; [|pose proof (find_none _ _ Fx l0 Il) as Q; cbn in Q; rewrite Z.eqb_refl in Q; discriminate].
    apply find_some in Fx as [Ix Qx]. apply Z.eqb_eq in Qx. assert (x = l0) as -> by (apply (q_once hashOf s); assumption).
    destruct (find (isHash (lkHash l0)) (dcEntries s)) as [e'|] eqn:Fe'; [|exfalso; apply (find_hash_none s _ Fe' en Ie); congruence]. apply find_hash in Fe' as [Ie' He'].
    assert (e' = en) as ->. { pose proof (iv_hash _ _ V) as Nd. assert (enHash e' = enHash en) as W by congruence. clear - Nd W Ie Ie'. induction (dcEntries s) as [|x r IHr]; [destruct Ie|]. cbn [map] in Nd. apply NoDup_cons_iff in Nd as [Nx Nd].
      destruct Ie' as [->|I'], Ie as [->|Ie]; [reflexivity|exfalso; apply Nx; rewrite W; now apply in_map|exfalso; apply Nx; rewrite <- W; now apply in_map|now apply IHr]. }
    rewrite Fe in E. injection E as <- <-.
    set (p := u32 (dsPeers (dcSrc s t) + a)) in *. set (l1 := {| lkQ := lkQ l0; lkHash := lkHash l0; lkCount := u32 (lkCount l0 + p) |}).
    match type of V1 with inv _ ?x => destruct (IH x l1 en V1) as (s2 & o2 & c & R2 & C2) end.
    + cbn. rewrite Z.eqb_refl. cbn. cbn [totals] in Hn. rewrite <- Hn. unfold u32 in p. assert (T : forall l p p', p mod 2^32 = p' mod 2^32 -> totals p l mod 2^32 = totals p' l mod 2^32).
      { clear. induction l as [|[v a] l IHl]; intros p p' Q; [reflexivity|]. cbn [totals]. assert (W : (p + a) mod 2^32 = (p' + a) mod 2^32) by (rewrite (Z.add_mod p), (Z.add_mod p'), Q by lia; reflexivity). rewrite (Z.add_mod (p + a)), (Z.add_mod (p' + a)) by lia. rewrite W, (IHl _ _ W). reflexivity. }
      assert (W : p mod 2^32 = (dsPeers (dcSrc s t) + a) mod 2^32) by (unfold p; rewrite Z.mod_mod by lia; reflexivity). unfold u32.
      rewrite (Z.add_mod (_ mod _)), Z.mod_mod, (T l _ _ W), <- Z.add_mod by lia. rewrite Z.add_assoc. rewrite (Z.add_mod (lkCount l0 + p)), (Z.add_mod (lkCount l0 + _)) by lia. f_equal. f_equal. rewrite (Z.add_mod (lkCount l0)), (Z.add_mod (lkCount l0) (_ + _)), W by lia. reflexivity.
    + cbn. apply in_map_iff. exists l0. rewrite Z.eqb_refl. auto.
    + exact Ie.
    + exact Qe.
    + exact Fe.
    + change (lkQ l1) with (lkQ l0) in R2. exists s2, (OFound (lkQ l0) t (lkHash l0) v :: o2), c. split; [|exact C2]. cbn [map fst snd app drun]. rewrite E', R2. reflexivity.
Qed.

End Runs.

Print Assumptions C86_home.
Print Assumptions C86_ends_partial.
Print Assumptions C86_off_forgets.
Print Assumptions C86_deaf_refuted.
Print Assumptions C86_hears_partial.
Print Assumptions C86_answered_partial.
Print Assumptions C86_dropped_refuted.
Print Assumptions C86_report_partial.
Print Assumptions C86_interval.
Print Assumptions C86_count.

(** two torrents with different hashes *)
Definition hash2 (t : Z) : list Z := [t].

(** Non-vacuity: two torrents look for peers at once; the peers and the end of each lookup reach the one that asked. *)
Example C86_example : let r := drun hash2 300 (dcInit true) [DStart 7; DStart 8; DUpdate 7 1000 false true; DUpdate 8 1001 false true; DFound 1 [91; 92] 2; DFound 0 [93] 1; DPacket; DAsk 5; DEnd 0 1010; DAnswer 5; DUpdate 7 1200 false true; DUpdate 7 1310 false true] in
  snd r = [OStarted 0 7; OStarted 1 8; OFound 1 8 [8] [91; 92]; OFound 0 7 [7] [93]; OPacket; OReported 0 7 1; OAnswered 5; OStarted 2 7]
  /\ dsState (dcSrc (fst r) 8) = stAnnouncing /\ (forall a b, hash2 a = hash2 b -> a = b).
Proof. split; [vm_compute; reflexivity|]. split; [vm_compute; reflexivity|]. intros a b H. now injection H. Qed.

(** Switched off while a lookup ran and on again, the DHT never looks for peers of this torrent again; other torrents go on. *)
Theorem C86_off_refuted : exists es, let s := fst (drun hash2 300 (dcInit true) (es ++ [DOff; DOn])) in dcOn s = true /\ dsState (dcSrc s 7) = stAnnouncing /\ dcRun s = [] /\
  (forall fs s' o', ~ In (DStop 7) fs -> drun hash2 300 s fs = (s', o') -> dsState (dcSrc s' 7) = stAnnouncing /\ forall q, ~ In (OStarted q 7) o') /\
  snd (drun hash2 300 s [DUpdate 7 5000 false true; DStart 8; DUpdate 8 5000 false true]) = [OStarted 1 8].
Proof.
  exists [DStart 7; DUpdate 7 1000 false true]. cbv zeta. split; [vm_compute; reflexivity|]. split; [vm_compute; reflexivity|]. split; [vm_compute; reflexivity|]. split; [|vm_compute; reflexivity].
  intros fs s' o' No H. assert (L : lost 7 (fst (drun hash2 300 (dcInit true) ([DStart 7; DUpdate 7 1000 false true] ++ [DOff; DOn])))). { split; [vm_compute; reflexivity|]. vm_compute. intros e []. }
  destruct (lost_run hash2 300 7 fs _ s' o' L No H) as ((A & _) & _ & C). auto.
Qed.
Print Assumptions C86_off_refuted.

(** A torrent stopped and started again while its lookup runs: the end of the old lookup is reported as the end of the new one,
    whose own end is reported to nobody. *)
Theorem C86_stale_refuted : exists es, let s := fst (drun hash2 300 (dcInit true) es) in let s1 := fst (dstep hash2 300 s (DEnd 0 1020)) in
  snd (drun hash2 300 (dcInit true) es) = [OStarted 0 7; OStarted 1 7] /\ snd (dstep hash2 300 s (DEnd 0 1020)) = [OReported 0 7 0] /\ map lkQ (dcRun s1) = [1] /\ dsState (dcSrc s1 7) = stConnected /\ snd (dstep hash2 300 s1 (DEnd 1 1030)) = [].
Proof. exists [DStart 7; DUpdate 7 1000 false true; DStop 7; DStart 7; DUpdate 7 1010 false true]. repeat split; vm_compute; reflexivity. Qed.
Print Assumptions C86_stale_refuted.

(** Two answers with three and two new peers are reported as eight, and once fifty were found in all, an answer with no new peer
    counts fifty: Query.cpp:296 asks no further nodes then. *)
Theorem C86_count_refuted : snd (drun hash2 300 (dcInit true) [DStart 7; DUpdate 7 1000 false true; DFound 0 [1; 2; 3] 3; DFound 0 [4; 5] 2; DEnd 0 1010]) =
   [OStarted 0 7; OFound 0 7 [7] [1; 2; 3]; OFound 0 7 [7] [4; 5]; OReported 0 7 8] /\
  (forall hashOf interval on es s o t l0 en v, drun hashOf interval (dcInit on) es = (s, o) -> In l0 (dcRun s) -> In en (dcEntries s) -> enQ en = lkQ l0 -> enFor en = t -> lkCount l0 = 0 -> 50 <= dsPeers (dcSrc s t) < 2^32 ->
   exists s1 l1, dstep hashOf interval s (DFound (lkQ l0) v 0) = (s1, [OFound (lkQ l0) t (hashOf t) v]) /\ In l1 (dcRun s1) /\ lkQ l1 = lkQ l0 /\ lkCount l1 = dsPeers (dcSrc s t)).
Proof.
  split; [vm_compute; reflexivity|]. intros hashOf interval on es s o t l0 en v R Il Ie Qe Fe C0 P. pose proof (reach_inv hashOf interval on es s o R) as V.
  destruct (iv_runs _ _ V en Ie) as (m & Im & Qm & Hm). assert (m = l0) as -> by (apply (q_once hashOf s); try assumption; congruence). cbn [dstep]. unfold found.
  destruct (find (fun x => lkQ x =? lkQ l0) (dcRun s)) as [x|] eqn:Fx; [|pose proof (find_none _ _ Fx l0 Il) as Q; cbn in Q; rewrite Z.eqb_refl in Q; discriminate].
  apply find_some in Fx as [Ix Qx]. apply Z.eqb_eq in Qx. assert (x = l0) as -> by (apply (q_once hashOf s); assumption).
  destruct (find (isHash (lkHash l0)) (dcEntries s)) as [e'|] eqn:Fe'; [|exfalso; apply (find_hash_none s _ Fe' en Ie); congruence]. apply find_hash in Fe' as [Ie' He'].
  assert (e' = en) as ->. { pose proof (iv_hash _ _ V) as Nd. assert (enHash e' = enHash en) as W by congruence. clear - Nd W Ie Ie'. induction (dcEntries s) as [|x r IHr]; [destruct Ie|]. cbn [map] in Nd. apply NoDup_cons_iff in Nd as [Nx Nd].
    destruct Ie' as [->|I'], Ie as [->|Ie]; [reflexivity|exfalso; apply Nx; rewrite W; now apply in_map|exfalso; apply Nx; rewrite <- W; now apply in_map|now apply IHr]. }
  rewrite Fe. assert (lkHash l0 = hashOf t) as -> by (rewrite <- Fe, <- (iv_own _ _ V en Ie); exact Hm).
  assert (W : u32 (dsPeers (dcSrc s t) + 0) = dsPeers (dcSrc s t)) by (unfold u32; rewrite Z.add_0_r; apply Z.mod_small; lia).
  eexists _, {| lkQ := lkQ l0; lkHash := lkHash l0; lkCount := dsPeers (dcSrc s t) |}. split; [reflexivity|]. split; [|split; reflexivity]. cbn. apply in_map_iff. exists l0. rewrite Z.eqb_refl, C0, W. split; [|exact Il]. cbn. f_equal. unfold u32. apply Z.mod_small. lia.
Qed.
Print Assumptions C86_count_refuted.
