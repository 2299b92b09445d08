(** Invariants of the lookups of peers. *)
From Verif Require Import Base BaseLemmas DhtCommModel.

Lemma isHash_spec h e : isHash h e = true <-> enHash e = h.
Proof. unfold isHash. apply list_eqb_spec. Qed.

Lemma erase_in h l : NoDup (map enHash l) -> forall e, In e (eraseHash h l) <-> In e l /\ enHash e <> h.
Proof.
  induction l as [|x l IH]; intros N e; [cbn; tauto|]. cbn [map] in N. apply NoDup_cons_iff in N as [Nx N]. cbn [eraseHash].
  destruct (isHash h x) eqn:E.
  - apply isHash_spec in E. split; [intros I; split; [now right|intros Q; apply Nx; rewrite E, <- Q; now apply in_map]|intros [[->|I] Q]; [congruence|exact I]].
  - assert (enHash x <> h) by (intros Q; apply isHash_spec in Q; congruence). cbn [In]. rewrite (IH N e). split; [intros [->|[I Q]]; auto|intros [[->|I] Q]; auto].
Qed.

Lemma erase_sub h l : forall x, In x (map enHash (eraseHash h l)) -> In x (map enHash l).
Proof. induction l as [|y l IH]; intros x I; [exact I|]. cbn [eraseHash] in I. destruct (isHash h y); [now right|]. destruct I as [I|I]; [now left|right; now apply IH]. Qed.

Lemma erase_nodup h l : NoDup (map enHash l) -> NoDup (map enHash (eraseHash h l)).
Proof.
  induction l as [|x l IH]; intros N; [exact N|]. cbn [map] in N. apply NoDup_cons_iff in N as [Nx N]. cbn [eraseHash]. destruct (isHash h x); [exact N|].
  cbn [map]. apply NoDup_cons_iff. split; [intros Q; apply Nx; now apply erase_sub in Q|now apply IH].
Qed.

Section Inv.
Variable hashOf : Z -> list Z.
Variable interval : Z.

Record inv (s : dcomm) : Prop := {
  iv_hash : NoDup (map enHash (dcEntries s));
  iv_own : forall e, In e (dcEntries s) -> enHash e = hashOf (enFor e);
  iv_runs : forall e, In e (dcEntries s) -> exists l, In l (dcRun s) /\ lkQ l = enQ e /\ lkHash l = enHash e;
  iv_q : NoDup (map lkQ (dcRun s));
  iv_new : forall l, In l (dcRun s) -> lkQ l < dcNew s;
  iv_wait : forall e, In e (dcEntries s) -> dsState (dcSrc s (enFor e)) = stAnnouncing }.

Lemma find_hash s h e : find (isHash h) (dcEntries s) = Some e -> In e (dcEntries s) /\ enHash e = h.
Proof. intros H. apply find_some in H as [I E]. apply isHash_spec in E. auto. Qed.

Lemma find_hash_none s h : find (isHash h) (dcEntries s) = None -> forall e, In e (dcEntries s) -> enHash e <> h.
Proof. intros H e I Q. pose proof (find_none _ _ H e I) as E. apply isHash_spec in Q. congruence. Qed.

Lemma q_once s l m : inv s -> In l (dcRun s) -> In m (dcRun s) -> lkQ l = lkQ m -> l = m.
Proof.
  intros I. pose proof (iv_q s I) as N. revert N. generalize (dcRun s). intros r N. induction r as [|x r IH]; [intros []|]. cbn [map] in N. apply NoDup_cons_iff in N as [Nx N].
  intros [->|Il] [->|Im] Q; [reflexivity|exfalso; apply Nx; rewrite Q; now apply in_map|exfalso; apply Nx; rewrite <- Q; now apply in_map|now apply IH].
Qed.

(** the end of a lookup, seen from the state: the entry of the hash is gone and its torrent is told *)
Lemma finished_inv s q h c now s' o : 
  NoDup (map enHash (dcEntries s)) -> (forall e, In e (dcEntries s) -> enHash e = hashOf (enFor e)) ->
  (forall e, In e (dcEntries s) -> enHash e <> h -> exists l, In l (dcRun s) /\ lkQ l = enQ e /\ lkHash l = enHash e) ->
  NoDup (map lkQ (dcRun s)) -> (forall l, In l (dcRun s) -> lkQ l < dcNew s) ->
  (forall e, In e (dcEntries s) -> dsState (dcSrc s (enFor e)) = stAnnouncing) ->
  finding_finished interval s q h c now = (s', o) -> inv s'.
Proof.
  intros A B C D E F H. unfold finding_finished in H. destruct (find (isHash h) (dcEntries s)) as [e|] eqn:Fe; injection H as <- <-.
  - apply find_hash in Fe as [Ie He]. split; cbn; try assumption.
    + now apply erase_nodup.
    + intros x I. apply erase_in in I as [I _]; [|exact A]. now apply B.
    + intros x I. apply erase_in in I as [I N]; [|exact A]. now apply C.
    + intros x I. apply erase_in in I as [I N]; [|exact A]. destruct (Z.eqb_spec (enFor x) (enFor e)) as [Q|Q]; [|now apply F]. exfalso. apply N. rewrite (B x I), Q, <- (B e Ie). exact He.
  - pose proof (find_hash_none s h Fe) as N. split; try assumption. intros e I. apply C; [exact I|now apply N].
Qed.

Lemma comm_find_inv s t nodes now s' o : inv s -> dsState (dcSrc s t) = stAnnouncing -> comm_find hashOf interval s t nodes now = (s', o) -> inv s'.
Proof.
  intros I St H. unfold comm_find in H. destruct (existsb (isHash (hashOf t)) (dcEntries s)) eqn:X; [injection H as <- <-; exact I|].
  assert (N : forall e, In e (dcEntries s) -> enHash e <> hashOf t). { intros e Ie Q. assert (existsb (isHash (hashOf t)) (dcEntries s) = true) by (apply existsb_exists; exists e; split; [exact Ie|now apply isHash_spec]). congruence. }
  destruct I as [A B C D E F].
  assert (NA : NoDup (map enHash (dcEntries s ++ [{| enQ := dcNew s; enHash := hashOf t; enFor := t |}]))).
  { rewrite map_app. cbn [map]. apply NoDup_Add with (a := hashOf t) (l := map enHash (dcEntries s)); [rewrite <- (app_nil_r (map enHash (dcEntries s))) at 1; apply Add_app|]. split; [exact A|]. intros Q. apply in_map_iff in Q as (e & Q & Ie). exact (N e Ie Q). }
  assert (NB : forall e, In e (dcEntries s ++ [{| enQ := dcNew s; enHash := hashOf t; enFor := t |}]) -> enHash e = hashOf (enFor e)).
  { intros e Ie. apply in_app_or in Ie as [Ie|[<-|[]]]; [now apply B|reflexivity]. }
  assert (NF : forall e, In e (dcEntries s ++ [{| enQ := dcNew s; enHash := hashOf t; enFor := t |}]) -> dsState (dcSrc s (enFor e)) = stAnnouncing).
  { intros e Ie. apply in_app_or in Ie as [Ie|[<-|[]]]; [now apply F|exact St]. }
  destruct nodes.
  - injection H as <- <-. split; cbn; try assumption.
    + intros e Ie. apply in_app_or in Ie as [Ie|[<-|[]]].
      * destruct (C e Ie) as (l & Il & Q). exists l. split; [apply in_or_app; now left|exact Q].
      * eexists. split; [apply in_or_app; right; left; reflexivity|]. split; reflexivity.
    + rewrite map_app. cbn [map lkQ]. apply NoDup_Add with (a := dcNew s) (l := map lkQ (dcRun s)); [rewrite <- (app_nil_r (map lkQ (dcRun s))) at 1; apply Add_app|]. split; [exact D|]. intros Q. apply in_map_iff in Q as (l & Q & Il). specialize (E l Il). lia.
    + intros l Il. apply in_app_or in Il as [Il|[<-|[]]]; [specialize (E l Il); lia|cbn; lia].
  - destruct (finding_finished interval _ (dcNew s) (hashOf t) 0 now) as [s2 o2] eqn:FF. injection H as <- <-. match type of FF with finding_finished _ ?s1 _ _ _ _ = _ => refine (finished_inv s1 _ _ _ _ _ _ NA NB _ D _ NF FF) end; cbn.
    + intros e Ie Q. apply in_app_or in Ie as [Ie|[<-|[]]]; [now apply C|cbn in Q; congruence].
    + intros l Il. specialize (E l Il). lia.
Qed.

Lemma set_other_inv s t d : inv s -> (dsState d = stAnnouncing \/ forall e, In e (dcEntries s) -> enFor e <> t) -> inv (setSrc s t d).
Proof.
  intros [A B C D E F] H. split; cbn; try assumption. intros e I. destruct (Z.eqb_spec (enFor e) t) as [Q|Q]; [|now apply F].
  destruct H as [H|H]; [exact H|]. now destruct (H e I).
Qed.

Lemma src_find_inv s t nodes now s' o : inv s -> src_find hashOf interval s t nodes now = (s', o) -> inv s'.
Proof.
  intros I H. unfold src_find in H. destruct (dcOn s && negb (dsState (dcSrc s t) =? stAnnouncing)); [|injection H as <- <-; exact I].
  refine (comm_find_inv _ _ _ _ _ _ _ _ H); [|cbn; rewrite Z.eqb_refl; reflexivity]. apply set_other_inv; [exact I|now left].
Qed.

Lemma not_waiting s t : inv s -> dsState (dcSrc s t) <> stAnnouncing -> forall e, In e (dcEntries s) -> enFor e <> t.
Proof. intros I N e Ie Q. apply N. rewrite <- Q. exact (iv_wait s I e Ie). Qed.

Lemma dstep_inv s e s' o : inv s -> dstep hashOf interval s e = (s', o) -> inv s'.
Proof.
  intros I H. destruct e; cbn [dstep] in H.
  - injection H as <- <-. unfold src_start. destruct (Z.eqb_spec (dsState (dcSrc s t)) stClear) as [Q|Q]; [|exact I]. apply set_other_inv; [exact I|]. right. apply not_waiting; [exact I|]. rewrite Q. discriminate.
  - injection H as <- <-. unfold src_stop. destruct I as [A B C D E F]. split; cbn; try assumption.
    + now apply erase_nodup.
    + intros x Ix. apply erase_in in Ix as [Ix _]; [|exact A]. now apply B.
    + intros x Ix. apply erase_in in Ix as [Ix _]; [|exact A]. now apply C.
    + intros x Ix. apply erase_in in Ix as [Ix N]; [|exact A]. destruct (Z.eqb_spec (enFor x) t) as [Q|Q]; [|now apply F]. exfalso. apply N. rewrite (B x Ix), Q. reflexivity.
  - unfold src_update in H. destruct ((dsNext (dcSrc s t) <=? now) && (dsState (dcSrc s t) =? stConnected)) eqn:X; [|injection H as <- <-; exact I].
    destruct done; [|exact (src_find_inv _ _ _ _ _ _ I H)]. injection H as <- <-. apply set_other_inv; [exact I|]. right. apply not_waiting; [exact I|]. apply andb_prop in X as [_ X]. apply Z.eqb_eq in X. rewrite X. discriminate.
  - exact (src_find_inv _ _ _ _ _ _ I H).
  - unfold found in H. destruct (find (fun l => lkQ l =? q) (dcRun s)) as [l|] eqn:Fl; [|injection H as <- <-; exact I].
    assert (R : forall es n f, (forall e, In e es -> exists l, In l (dcRun s) /\ lkQ l = enQ e /\ lkHash l = enHash e) ->
      let r := map (fun x => if lkQ x =? q then {| lkQ := q; lkHash := lkHash x; lkCount := f x |} else x) (dcRun s) in
      (forall e, In e es -> exists l, In l r /\ lkQ l = enQ e /\ lkHash l = enHash e) /\ map lkQ r = map lkQ (dcRun s) /\ (forall l, In l r -> lkQ l < n) = (forall l, In l r -> lkQ l < n)).
    { intros es n f Q r. split; [|split; [|reflexivity]].
      - intros x Ix. destruct (Q x Ix) as (m & Im & Q1 & Q2). exists (if lkQ m =? q then {| lkQ := q; lkHash := lkHash m; lkCount := f m |} else m). split; [apply in_map_iff; exists m; auto|].
        destruct (Z.eqb_spec (lkQ m) q); [cbn; split; [congruence|exact Q2]|auto].
      - unfold r. rewrite map_map. apply map_ext. intros x. destruct (Z.eqb_spec (lkQ x) q); [cbn; congruence|reflexivity]. }
    assert (K : forall f, inv (setLists s (dcEntries s) (map (fun x => if lkQ x =? q then {| lkQ := q; lkHash := lkHash x; lkCount := f x |} else x) (dcRun s)))).
    { intros f. destruct I as [A B C D E F]. destruct (R (dcEntries s) 0 f C) as (R1 & R2 & _). split; cbn; try assumption; [rewrite R2; exact D|].
      intros m Im. apply in_map_iff in Im as (x & <- & Ix). specialize (E x Ix). destruct (Z.eqb_spec (lkQ x) q); cbn; lia. }
    destruct (find (isHash (lkHash l)) (dcEntries s)) as [e|] eqn:Fe; injection H as <- <-; [|apply K].
    apply set_other_inv; [apply K|]. left. cbn. apply (iv_wait s I). apply find_hash in Fe as [Ie _]. exact Ie.
  - unfold ended in H. destruct (find (fun l => lkQ l =? q) (dcRun s)) as [l|] eqn:Fl; [|injection H as <- <-; exact I].
    apply find_some in Fl as [Il Ql]. apply Z.eqb_eq in Ql. pose proof (q_once s) as O. match type of H with finding_finished _ ?s1 _ _ _ _ = _ => refine (finished_inv s1 _ _ _ _ _ _ _ _ _ _ _ _ H) end; cbn.
    + apply (iv_hash s I).
    + apply (iv_own s I).
    + intros e Ie N. destruct (iv_runs s I e Ie) as (m & Im & Q1 & Q2). exists m. split; [|auto]. apply filter_In. split; [exact Im|]. apply Bool.negb_true_iff, Z.eqb_neq. intros Q.
      apply N. rewrite <- Q2. f_equal. apply O; [exact I|exact Im|exact Il|congruence].
    + pose proof (iv_q s I) as D. clear - D. induction (dcRun s) as [|x r IH]; [exact D|]. cbn [map] in D. apply NoDup_cons_iff in D as [Dx D]. cbn [filter]. destruct (negb (lkQ x =? q)); [|now apply IH].
      cbn [map]. apply NoDup_cons_iff. split; [|now apply IH]. intros Q. apply Dx. apply in_map_iff in Q as (y & Q & Iy). apply filter_In in Iy as [Iy _]. rewrite <- Q. now apply in_map.
    + intros m Im. apply filter_In in Im as [Im _]. now apply (iv_new s I).
    + apply (iv_wait s I).
  - injection H as <- <-. destruct I as [A B C D E F]. split; cbn; assumption.
  - injection H as <- <-. split; cbn; try (intros ? []); constructor.
  - injection H as <- <-. destruct I as [A B C D E F]. split; cbn; assumption.
  - destruct (existsb (Z.eqb k) (dcWait s)); injection H as <- <-; [destruct I as [A B C D E F]; split; cbn; assumption|exact I].
  - injection H as <- <-. exact I.
Qed.

Lemma drun_inv es : forall s s' o, inv s -> drun hashOf interval s es = (s', o) -> inv s'.
Proof.
  induction es as [|e es IH]; intros s s' o I H; cbn [drun] in H; [injection H as <- <-; exact I|].
  destruct (dstep hashOf interval s e) as [s1 o1] eqn:E1. destruct (drun hashOf interval s1 es) as [s2 o2] eqn:E2. injection H as <- <-. exact (IH s1 s2 o2 (dstep_inv s e s1 o1 I E1) E2).
Qed.

Lemma init_inv on : inv (dcInit on).
Proof. split; cbn; try (intros ? []); constructor. Qed.

Lemma drun_app es : forall s fs, drun hashOf interval s (es ++ fs) = (fst (drun hashOf interval (fst (drun hashOf interval s es)) fs), snd (drun hashOf interval s es) ++ snd (drun hashOf interval (fst (drun hashOf interval s es)) fs)).
Proof.
  induction es as [|e es IH]; intros s fs; [cbn; destruct (drun hashOf interval s fs); reflexivity|]. cbn [app drun]. destruct (dstep hashOf interval s e) as [s1 o1]. rewrite (IH s1 fs).
  destruct (drun hashOf interval s1 es) as [s2 o2]. cbn [fst snd]. rewrite app_assoc. reflexivity.
Qed.

End Inv.
