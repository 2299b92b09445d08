(** Proofs about the downloader: the events *)
From Verif Require Import Base BaseLemmas LayoutModel ProgressModel ProgressSpec ProgressProofs Assoc DlModel DlSpec DlProofs.

Definition Stored (t : torrentInfo) (n : Z) (d : dl) : Prop :=
  (forall idx r k, aget idx (dReqs d) = Some r -> 0 <= k < zlen (psBlocks (rPiece r)) -> nth (Z.to_nat k) (psBlocks (rPiece r)) 1 <> 0 -> stored_at (dStored d) idx k) /\
  (forall u k, In u (dUnf d) -> 0 <= k < zlen (psBlocks u) -> nth (Z.to_nat k) (psBlocks u) 1 <> 0 -> stored_at (dStored d) (psIndex u) k) /\
  (forall idx r, In (idx, r) (dChecking d) -> 0 <= idx < n /\ forall k, 0 <= k < getPieceBlocksCount t idx -> stored_at (dStored d) idx k).

Record Good (t : torrentInfo) (n : Z) (H : Z -> Z -> Prop) (d : dl) : Prop := {
  g_inv : Inv t n H d; g_asked : Asked t d; g_stored : Stored t n d; g_flags : flags_ok (dProg d); g_exact : exact (dProg d) }.

Definition Out (t : torrentInfo) (n : Z) (H : Z -> Z -> Prop) (vs : Z -> view) (exc : Z -> Z -> Z -> Prop) (d d' : dl) (new : list (Z * (Z * Z))) : Prop :=
  dSent d' = dSent d ++ map (fun q => (fst q, getPieceBlockInfo t (fst (snd q)) (snd (snd q)))) new /\ NoDup new /\
  Forall (fun q => 0 <= snd (snd q) < getPieceBlocksCount t (fst (snd q)) /\ 0 <= fst (snd q) < n /\ H (fst q) (fst (snd q)) /\ choking (vs (fst q)) = false /\
     outstanding d' (fst q) (fst (snd q)) (snd (snd q)) /\ (outstanding d (fst q) (fst (snd q)) (snd (snd q)) -> exc (fst q) (fst (snd q)) (snd (snd q)))) new /\
  (forall p i k, outstanding d' p i k -> outstanding d p i k \/ In (p, (i, k)) new) /\
  (forall p, load d' p <= Z.max (limit (vs p)) (load d p)).

Lemma load_active t n H d p info : Inv t n H d -> aget p (dPeers d) = Some info -> load d p = activeOf (cur info).
Proof.
  intros I G. unfold load. rewrite G.
  assert (F : Forall (entryOk t) (cur info)). { apply Forall_forall. intros x X. now destruct (i_entry _ _ _ _ I p info x G X). }
  unfold activeOf. induction F as [|x l (_ & E) _ IH]; cbn; [reflexivity|]. now rewrite E, IH.
Qed.

Lemma Out_none t n H vs exc d d' : dSent d' = dSent d -> (forall p i k, outstanding d' p i k -> outstanding d p i k) -> (forall p, load d' p <= Z.max (limit (vs p)) (load d p)) -> Out t n H vs exc d d' [].
Proof.
  intros S O L. split; [cbn; now rewrite app_nil_r|]. split; [constructor|]. split; [constructor|]. split; [|exact L]. intros p i k X. left. now apply O.
Qed.

Lemma Stored_delta t n H p i d i' d' : (forall idx r, aget idx (dReqs d') = Some r -> psIndex (rPiece r) = idx) -> Delta t H p i d i' d' -> Stored t n d -> Stored t n d'.
Proof.
  intros PI (F & _ & _ & R & N & U & _) (S1 & S2 & S3). destruct F as (_ & _ & _ & FC & _ & _ & FS & _).
  split; [|split].
  - intros idx r k E B Z. rewrite FS. destruct (aget idx (dReqs d)) as [r0|] eqn:E0.
    + destruct (R idx r0 E0) as (r' & E' & P' & _). rewrite E in E'. injection E' as <-. rewrite P' in *. now apply (S1 idx r0 k).
    + destruct (N idx r E E0) as (_ & [X|[X Y]]).
      * exfalso. rewrite X in Z, B. cbn [psBlocks initPiece] in Z, B. apply Z. clear Z.
        assert (L : (Z.to_nat k < Z.to_nat (getPieceBlocksCount t idx))%nat) by (unfold zlen in B; rewrite repeat_length in B; lia).
        revert L. generalize (Z.to_nat (getPieceBlocksCount t idx)). generalize (Z.to_nat k). induction n0 as [|j IH]; intros [|m] L; try lia; cbn; [reflexivity|]. apply IH. lia.
      * rewrite <- (PI idx r E). now apply (S2 (rPiece r) k).
  - intros u k K B Z. rewrite FS. destruct (U u K) as [X|X]; [now apply S2|]. rewrite X in B. unfold zlen in B. cbn in B. lia.
  - intros idx r K. rewrite FC in K. rewrite FS. now apply (S3 idx r).
Qed.

Definition Keys (d d' : dl) : Prop := forall i, aget i (dReqs d') <> None -> aget i (dReqs d) <> None \/ isMissing d i = true.

(** What is the same besides *)
Definition Same (d d' : dl) : Prop :=
  dProg d' = dProg d /\ dSorted d' = dSorted d /\ dChecking d' = dChecking d /\ dFresh d' = dFresh d /\ dGroup d' = dGroup d /\
  dStored d' = dStored d /\ dAnnounced d' = dAnnounced d.

Lemma Same_missing d d' i : Same d d' -> isMissing d' i = isMissing d i.
Proof. intros (E & _). unfold isMissing. now rewrite E. Qed.

Definition idle_only_if (t : torrentInfo) (v : view) (d : dl) (p : Z) (d' : dl) : Prop :=
  choking v = false -> aget p (dPeers d) <> None -> load d' p < limit v ->
  (forall i r k, taken d' p i -> aget i (dReqs d') = Some r -> 0 <= k < getPieceBlocksCount t i -> nth (Z.to_nat k) (psBlocks (rPiece r)) 1 = 0 -> outstanding d' p i k) /\
  (forall i, In i (map fst (dSorted d)) -> wanted d v i -> exists r, aget i (dReqs d') = Some r /\ (exists q, taken d' q i) /\
     (taken d' p i \/ exists info, aget p (dPeers d') = Some info /\ suspGroup info <> 0 /\ In (suspGroup info) (rGroups r))).

Lemma eval_out t n (H : Z -> Z -> Prop) vs p d : plain t n -> (forall idx, has (vs p) idx = true -> H p idx) -> Good t n H d ->
  exists d' new, evaluateNextRequests t (vs p) p d = Ok d' /\ Good t n H d' /\ Same d d' /\ Keys d d' /\
    map fst (dPeers d') = map fst (dPeers d) /\ (forall q, q <> p -> aget q (dPeers d') = aget q (dPeers d)) /\
    Forall (fun q => fst q = p /\ aget (fst (snd q)) (dReqs d') <> None) new /\
    (forall i, aget i (dReqs d) <> None -> aget i (dReqs d') <> None) /\
    Out t n H vs (fun _ _ _ => False) d d' new /\ idle_only_if t (vs p) d p d'.
Proof.
  intros P HH G.
  assert (Nothing : evaluateNextRequests t (vs p) p d = Ok d -> (choking (vs p) = true \/ aget p (dPeers d) = None) -> exists d' new, evaluateNextRequests t (vs p) p d = Ok d' /\ Good t n H d' /\ Same d d' /\ Keys d d' /\
    map fst (dPeers d') = map fst (dPeers d) /\ (forall q, q <> p -> aget q (dPeers d') = aget q (dPeers d)) /\
    Forall (fun q => fst q = p /\ aget (fst (snd q)) (dReqs d') <> None) new /\ (forall i, aget i (dReqs d) <> None -> aget i (dReqs d') <> None) /\
    Out t n H vs (fun _ _ _ => False) d d' new /\ idle_only_if t (vs p) d p d').
  { intros E C. exists d, []. split; [exact E|]. split; [exact G|]. split; [repeat split|]. split; [intros i X; now left|]. split; [reflexivity|]. split; [reflexivity|]. split; [constructor|]. split; [auto|].
    split; [apply Out_none; [reflexivity|auto|intros q; lia]|]. intros X Y. destruct C; congruence. }
  destruct (aget p (dPeers d)) as [info|] eqn:E. 2: { apply Nothing; [|now right]. unfold evaluateNextRequests. now rewrite E. }
  destruct (choking (vs p)) eqn:C. { apply Nothing; [|now left]. unfold evaluateNextRequests. now rewrite E, C. }
  clear Nothing. destruct G as [I A S F X].
  destruct (evaluate_ok t n H (vs p) p d info P HH I A E C) as (info' & d' & EV & I' & A' & D & MX & FIN).
  assert (D0 := D). destruct D0 as (FR & SG & _ & R & N & U & IC & ks & SE & ND & AC & KS & FL).
  destruct FR as (FR1 & FR2 & FR3 & FR4 & FR5 & FR6 & FR7 & FR8).
  assert (GP : aget p (dPeers (with_ d' p info')) = Some info') by (rewrite with_get, Z.eqb_refl; reflexivity).
  assert (GO : forall q, q <> p -> aget q (dPeers (with_ d' p info')) = aget q (dPeers d)).
  { intros q Nq. rewrite with_get, FR1. now destruct (Z.eqb_spec q p). }
  assert (SM : Same d (with_ d' p info')) by (repeat split; assumption).
  assert (KY : Keys d (with_ d' p info')).
  { intros i Xi. change (dReqs (with_ d' p info')) with (dReqs d') in Xi. destruct (aget i (dReqs d')) as [r'|] eqn:R'; [|congruence]. destruct (aget i (dReqs d)) eqn:R0; [left; congruence|]. right. now destruct (N i r' R' R0). }
  assert (L0 : load d p = activeOf (cur info)) by (eapply load_active; eassumption).
  assert (L1 : load (with_ d' p info') p = activeOf (cur info')) by (eapply load_active; eassumption).
  exists (with_ d' p info'), (map (pair p) ks). split; [exact EV|].
  split. { split; [exact I'|exact A'| | |]; try (change (dProg (with_ d' p info')) with (dProg d'); rewrite FR2; assumption).
    assert (SD : Stored t n d') by (eapply Stored_delta; [|exact D|exact S]; intros i r Q; exact (proj1 (proj2 (i_req _ _ _ _ I' i r Q)))). exact SD. }
  split; [exact SM|]. split; [exact KY|].
  split. { change (dPeers (with_ d' p info')) with (aset p info' (dPeers d')). rewrite FR1. apply aset_mapfst. congruence. }
  split; [exact GO|].
  split. { apply Forall_forall. intros q Q. apply in_map_iff in Q. destruct Q as (ik & <- & Q). cbn. split; [reflexivity|]. rewrite Forall_forall in KS. destruct (KS ik Q) as (_ & _ & _ & r & Z1 & _). congruence. }
  split. { intros i Xi. change (dReqs (with_ d' p info')) with (dReqs d'). destruct (aget i (dReqs d)) as [r|] eqn:R0; [|congruence]. destruct (R i r R0) as (r' & Z1 & _). congruence. }
  split.
  { split; [change (dSent (with_ d' p info')) with (dSent d'); rewrite SE, map_map; reflexivity|]. split; [now apply NoDup_map_pair|].
    split.
    { apply Forall_forall. intros q Q. apply in_map_iff in Q. destruct Q as ([i k] & <- & Q). cbn [fst snd]. rewrite Forall_forall in KS. destruct (KS (i, k) Q) as (Z1 & Z2 & Z3 & r & Z4 & _). cbn [fst snd] in *.
      split; [exact Z1|]. split; [exact (proj1 (i_req _ _ _ _ I' i r Z4))|]. split; [exact Z3|]. split; [exact C|]. split.
      - exists info'. split; [exact GP|]. apply FL. now right.
      - intros (inf & Y1 & Y2). rewrite E in Y1. injection Y1 as <-. contradiction. }
    split.
    { intros q i k (inf & Y1 & Y2). destruct (Z.eq_dec q p) as [->|Nq].
      - rewrite GP in Y1. injection Y1 as <-. apply FL in Y2. destruct Y2 as [Y2|Y2]; [left; exists info; auto|right; now apply in_map].
      - rewrite GO in Y1 by assumption. left. exists inf. auto. }
    intros q. destruct (Z.eq_dec q p) as [->|Nq]; [lia|]. unfold load. rewrite GO by assumption. lia. }
  intros _ _ LT. rewrite L1 in LT. destruct (FIN LT) as (F1 & F2). split.
  - intros i r k (inf & Y1 & Y2) Z1 Z2 Z3. rewrite GP in Y1. injection Y1 as <-. apply in_map_iff in Y2. destruct Y2 as (e & <- & Y2). exists info'. split; [exact GP|].
    exists e. split; [exact Y2|]. split; [reflexivity|]. split; [lia|]. rewrite Forall_forall in F1. exact (F1 e Y2 r k Z1 Z2 Z3).
  - intros i Ki Wi. destruct (F2 i Ki Wi) as (r & Z1 & Z2 & Z3). exists r. split; [exact Z1|]. split.
    + destruct (rPeers r) as [|q qs] eqn:Q; [congruence|]. exists q. destruct (i_peers _ _ _ _ I' i r q Z1) as (inf & Y1 & Y2); [rewrite Q; now left|]. exists inf. auto.
    + destruct Z3 as [Z3|Z3]; [left; exists info'; auto|right; exists info'; auto].
Qed.

(** Before evaluating *)
Lemma used_after t v d p d' : Same d d' -> map fst (dPeers d') = map fst (dPeers d) -> idle_only_if t v d p d' -> fully_used t v d' p.
Proof.
  intros S M I C A L. destruct (I C) as (I1 & I2); [intros W; apply A; destruct (aget p (dPeers d')) eqn:E; [|reflexivity]; exfalso|exact L|].
  - assert (K : In p (map fst (dPeers d'))). { apply aget_In in E. now apply (in_map fst) in E. } rewrite M in K. apply in_map_iff in K. destruct K as ((q & i) & <- & K). cbn in W. eapply aget_None; [exact W|]. now apply (in_map fst) in K.
  - split; [exact I1|]. intros i X Y Z. apply I2; [|split; [|exact Z]]; [destruct S as (_ & S & _); now rewrite <- S|now rewrite <- (Same_missing d d')].
Qed.

Definition Pre (vs : Z -> view) (exc : Z -> Z -> Z -> Prop) (d d1 : dl) : Prop :=
  dSent d1 = dSent d /\ (forall p i k, outstanding d1 p i k -> outstanding d p i k) /\
  (forall p i k, outstanding d p i k -> outstanding d1 p i k \/ exc p i k \/ (aget i (dReqs d1) = None /\ isMissing d1 i = false) \/ aget p (dPeers d1) = None) /\
  (forall p, load d1 p <= Z.max (limit (vs p)) (load d p)).

Lemma Out_pre t n H vs exc d d1 d' new : Pre vs exc d d1 -> Keys d1 d' ->
  Forall (fun q => aget (fst (snd q)) (dReqs d') <> None /\ aget (fst q) (dPeers d1) <> None) new ->
  Out t n H vs (fun _ _ _ => False) d1 d' new -> Out t n H vs exc d d' new.
Proof.
  intros (P1 & P2 & P3 & P4) K F (O1 & O2 & O3 & O4 & O5). split; [now rewrite <- P1|]. split; [exact O2|]. split.
  - rewrite Forall_forall in *. intros q Q. destruct (O3 q Q) as (Z1 & Z2 & Z3 & Z4 & Z5 & Z6). destruct (F q Q) as (F1 & F2). repeat (split; [assumption|]). intros X.
    destruct (P3 _ _ _ X) as [Y|[Y|[[Y1 Y2]|Y]]]; [destruct (Z6 Y)|exact Y| |contradiction].
    destruct (K _ F1) as [Z|Z]; [contradiction|congruence].
  - split.
    + intros p i k X. destruct (O4 p i k X) as [Y|Y]; [left; now apply P2|now right].
    + intros p. specialize (O5 p). specialize (P4 p). lia.
Qed.

(** ** Building blocks of the events *)
Lemma Good_cur t n H d p info es : Good t n H d -> aget p (dPeers d) = Some info -> map rIdx es = map rIdx (cur info) -> Forall (entryOk t) es -> activeOf es <= 100 ->
  Good t n H (with_ d p (setCur es info)).
Proof.
  intros [I A S F X] E M FE AC. set (i' := setCur es info).
  assert (GG : forall q, aget q (dPeers (with_ d p i')) = if q =? p then Some i' else aget q (dPeers d)) by (intros q; apply with_get).
  split; [| |exact S|exact F|exact X].
  - split.
    + exact (i_len _ _ _ _ I).
    + exact (i_keys _ _ _ _ I).
    + change (NoDup (map fst (aset p i' (dPeers d)))). rewrite aset_mapfst by congruence. exact (i_pkeys _ _ _ _ I).
    + exact (i_req _ _ _ _ I).
    + exact (i_unf _ _ _ _ I).
    + intros q inf. rewrite GG. destruct (Z.eqb_spec q p) as [->|N]; [|apply (i_nodup _ _ _ _ I)]. intros Y. injection Y as <-. cbn [cur i' setCur]. rewrite M. exact (i_nodup _ _ _ _ I p info E).
    + intros q inf x. rewrite GG. destruct (Z.eqb_spec q p) as [->|N]; [|apply (i_entry _ _ _ _ I)]. intros Y K. injection Y as <-. cbn [cur i' setCur] in K.
      rewrite Forall_forall in FE. split; [now apply FE|]. assert (Kx : In (rIdx x) (map rIdx (cur info))) by (rewrite <- M; now apply in_map).
      apply in_map_iff in Kx. destruct Kx as (y & Y1 & Y2). rewrite <- Y1. now destruct (i_entry _ _ _ _ I p info y E Y2).
    + intros q inf. rewrite GG. destruct (Z.eqb_spec q p) as [->|N]; [|apply (i_active _ _ _ _ I)]. intros Y. injection Y as <-. exact AC.
    + intros idx r q Y K. destruct (i_peers _ _ _ _ I idx r q Y K) as (inf & Z1 & Z2). rewrite GG. destruct (Z.eqb_spec q p) as [->|N].
      * exists i'. split; [reflexivity|]. cbn [cur i' setCur]. rewrite M. congruence.
      * exists inf. auto.
    + exact (i_sorted _ _ _ _ I).
  - intros q inf idx. rewrite GG. destruct (Z.eqb_spec q p) as [->|N]; [|apply A]. intros Y K. injection Y as <-. cbn [cur asked i' setCur] in K. rewrite M in K. exact (A p info idx E K).
Qed.

(** The records of the peers may differ in what concerns suspicion *)
Lemma Good_peers t n H d P : Good t n H d -> map fst P = map fst (dPeers d) ->
  (forall q, option_map (fun i => (cur i, asked i)) (aget q P) = option_map (fun i => (cur i, asked i)) (aget q (dPeers d))) -> Good t n H (setPeers P d).
Proof.
  intros [I A S F X] M E.
  assert (Q : forall q i, aget q P = Some i -> exists i0, aget q (dPeers d) = Some i0 /\ cur i0 = cur i /\ asked i0 = asked i).
  { intros q i Y. specialize (E q). rewrite Y in E. destruct (aget q (dPeers d)) as [i0|]; cbn in E; [|discriminate]. injection E as E1 E2. exists i0. auto. }
  assert (Q' : forall q i, aget q (dPeers d) = Some i -> exists i0, aget q P = Some i0 /\ cur i0 = cur i).
  { intros q i Y. specialize (E q). rewrite Y in E. destruct (aget q P) as [i0|]; cbn in E; [|discriminate]. injection E as E1 E2. exists i0. auto. }
  split; [| |exact S|exact F|exact X].
  - split.
    + exact (i_len _ _ _ _ I).
    + exact (i_keys _ _ _ _ I).
    + cbn. rewrite M. exact (i_pkeys _ _ _ _ I).
    + exact (i_req _ _ _ _ I).
    + exact (i_unf _ _ _ _ I).
    + cbn. intros q i Y. destruct (Q q i Y) as (i0 & Z1 & Z2 & Z3). rewrite <- Z2. exact (i_nodup _ _ _ _ I q i0 Z1).
    + cbn. intros q i x Y K. destruct (Q q i Y) as (i0 & Z1 & Z2 & Z3). rewrite <- Z2 in K. exact (i_entry _ _ _ _ I q i0 x Z1 K).
    + cbn. intros q i Y. destruct (Q q i Y) as (i0 & Z1 & Z2 & Z3). rewrite <- Z2. exact (i_active _ _ _ _ I q i0 Z1).
    + cbn. intros idx r q Y K. destruct (i_peers _ _ _ _ I idx r q Y K) as (i & Z1 & Z2). destruct (Q' q i Z1) as (i0 & Z3 & Z4). exists i0. rewrite Z4. auto.
    + exact (i_sorted _ _ _ _ I).
  - cbn. intros q i idx Y K. destruct (Q q i Y) as (i0 & Z1 & Z2 & Z3). rewrite <- Z2, <- Z3 in K. exact (A q i0 idx Z1 K).
Qed.

Lemma same_cur_outstanding d P q i k : (forall q, option_map (fun i => (cur i, asked i)) (aget q P) = option_map (fun i => (cur i, asked i)) (aget q (dPeers d))) ->
  (outstanding (setPeers P d) q i k <-> outstanding d q i k).
Proof.
  intros E. specialize (E q). unfold outstanding, flagged. cbn. destruct (aget q P) as [a|], (aget q (dPeers d)) as [b|]; cbn in E; try discriminate.
  - injection E as E1 E2. split; intros (inf & Y & Z); injection Y as <-; eexists; (split; [reflexivity|]); rewrite ?E1 in *; rewrite <- ?E1 in *; assumption.
  - split; intros (inf & Y & _); discriminate.
Qed.

Lemma same_cur_load d P q : (forall q, option_map (fun i => (cur i, asked i)) (aget q P) = option_map (fun i => (cur i, asked i)) (aget q (dPeers d))) -> load (setPeers P d) q = load d q.
Proof.
  intros E. specialize (E q). unfold load. cbn. destruct (aget q P) as [a|], (aget q (dPeers d)) as [b|]; cbn in E; try discriminate; [|reflexivity]. injection E as E1 E2. now rewrite E1.
Qed.

Lemma eraseFirst_sub idx es x : In x (eraseFirst idx es) -> In x es.
Proof. induction es as [|e es IH]; cbn; [auto|]. destruct (rIdx e =? idx); [now right|]. intros [->|K]; [now left|right; now apply IH]. Qed.

Lemma eraseFirst_keeps idx es x : In x es -> rIdx x <> idx -> In x (eraseFirst idx es).
Proof. induction es as [|e es IH]; cbn; [auto|]. intros K N. destruct (Z.eqb_spec (rIdx e) idx); destruct K as [K|K]; [congruence|exact K|now left|right; now apply IH]. Qed.

Lemma eraseFirst_gone idx es : NoDup (map rIdx es) -> ~ In idx (map rIdx (eraseFirst idx es)).
Proof.
  induction es as [|e es IH]; cbn; [auto|]. intros N. inversion N; subst. destruct (Z.eqb_spec (rIdx e) idx) as [E|E]; [now rewrite <- E|]. cbn. intros [K|K]; [contradiction|]. now apply IH.
Qed.

Lemma eraseFirst_NoDup idx es : NoDup (map rIdx es) -> NoDup (map rIdx (eraseFirst idx es)).
Proof.
  induction es as [|e es IH]; cbn; [auto|]. intros N. inversion N; subst. destruct (rIdx e =? idx); [assumption|]. cbn. constructor; [|now apply IH].
  intros K. apply H1. apply in_map_iff in K. destruct K as (x & <- & K). apply in_map. now apply eraseFirst_sub in K.
Qed.

Lemma eraseFirst_active t idx es : Forall (entryOk t) es -> activeOf (eraseFirst idx es) <= activeOf es.
Proof.
  unfold activeOf. induction 1 as [|x l (_ & E) F IH]; cbn; [lia|]. pose proof (ones_nonneg (rBlocks x)). destruct (rIdx x =? idx); [lia|]. cbn. lia.
Qed.

Lemma aget_map {A B} (f : Z -> A -> B) k m : aget k (map (fun e => (fst e, f (fst e) (snd e))) m) = option_map (f k) (aget k m).
Proof. induction m as [|[k1 v1] m IH]; cbn; [reflexivity|]. destruct (Z.eqb_spec k1 k) as [->|N]; [reflexivity|exact IH]. Qed.

Definition drop (idx : Z) (d : dl) : dl := eraseAll idx (setReqs (adel idx (dReqs d)) d).

Lemma drop_peers idx d q : aget q (dPeers (drop idx d)) = option_map (fun i => setCur (eraseFirst idx (cur i)) i) (aget q (dPeers d)).
Proof. unfold drop, eraseAll. cbn [dPeers setPeers setReqs]. exact (aget_map (fun _ i => setCur (eraseFirst idx (cur i)) i) q (dPeers d)). Qed.

Lemma drop_keys idx d : map fst (dPeers (drop idx d)) = map fst (dPeers d).
Proof. unfold drop, eraseAll. cbn [dPeers setPeers setReqs]. rewrite map_map. reflexivity. Qed.

Lemma drop_outstanding t n H d idx p i k : Inv t n H d -> (outstanding (drop idx d) p i k <-> outstanding d p i k /\ i <> idx).
Proof.
  intros I. unfold outstanding. rewrite drop_peers. destruct (aget p (dPeers d)) as [info|] eqn:E; cbn [option_map].
  - split.
    + intros (inf & Y & (e & Z1 & Z2 & Z3 & Z4)). injection Y as <-. cbn [cur setCur] in Z1. split.
      * exists info. split; [reflexivity|]. exists e. split; [now apply eraseFirst_sub in Z1|auto].
      * intros X. apply (eraseFirst_gone idx (cur info)); [exact (i_nodup _ _ _ _ I p info E)|]. apply (in_map rIdx) in Z1. now rewrite Z2, X in Z1.
    + intros ((inf & Y & (e & Z1 & Z2 & Z3 & Z4)) & N). injection Y as <-. eexists. split; [reflexivity|]. exists e. cbn [cur setCur]. split; [apply eraseFirst_keeps; [exact Z1|congruence]|auto].
  - split; [intros (inf & Y & _); discriminate|intros ((inf & Y & _) & _); discriminate].
Qed.

Lemma Good_drop t n H d idx : Good t n H d -> Good t n H (drop idx d).
Proof.
  intros [I A [S1 [S2 S3]] F X].
  assert (GG := drop_peers idx d).
  assert (Q : forall q inf, aget q (dPeers (drop idx d)) = Some inf -> exists i0, aget q (dPeers d) = Some i0 /\ inf = setCur (eraseFirst idx (cur i0)) i0).
  { intros q inf Y. rewrite GG in Y. destruct (aget q (dPeers d)) as [i0|]; [|discriminate]. injection Y as <-. eauto. }
  assert (RD : forall i r, aget i (dReqs (drop idx d)) = Some r -> i <> idx /\ aget i (dReqs d) = Some r).
  { intros i r Y. change (dReqs (drop idx d)) with (adel idx (dReqs d)) in Y. destruct (Z.eq_dec i idx) as [->|N]; [rewrite aget_del_same in Y; discriminate|]. rewrite aget_del_other in Y by assumption. auto. }
  split; [| |split; [|split; [exact S2|exact S3]]|exact F|exact X].
  - split.
    + exact (i_len _ _ _ _ I).
    + change (NoDup (map fst (adel idx (dReqs d)))). apply NoDup_adel. exact (i_keys _ _ _ _ I).
    + rewrite drop_keys. exact (i_pkeys _ _ _ _ I).
    + intros i r Y. destruct (RD i r Y) as (N & Z). exact (i_req _ _ _ _ I i r Z).
    + exact (i_unf _ _ _ _ I).
    + intros q inf Y. destruct (Q q inf Y) as (i0 & Z1 & ->). cbn [cur setCur]. apply eraseFirst_NoDup. exact (i_nodup _ _ _ _ I q i0 Z1).
    + intros q inf x Y K. destruct (Q q inf Y) as (i0 & Z1 & ->). cbn [cur setCur] in K.
      assert (N : rIdx x <> idx). { intros N. apply (eraseFirst_gone idx (cur i0)); [exact (i_nodup _ _ _ _ I q i0 Z1)|]. apply (in_map rIdx) in K. now rewrite N in K. }
      apply eraseFirst_sub in K. destruct (i_entry _ _ _ _ I q i0 x Z1 K) as (W1 & (r & W2 & W3) & W4). split; [exact W1|]. split; [|exact W4]. exists r. split; [|exact W3].
      change (dReqs (drop idx d)) with (adel idx (dReqs d)). now rewrite aget_del_other.
    + intros q inf Y. destruct (Q q inf Y) as (i0 & Z1 & ->). cbn [cur setCur]. pose proof (i_active _ _ _ _ I q i0 Z1).
      assert (FE : Forall (entryOk t) (cur i0)) by (apply Forall_forall; intros x K; now destruct (i_entry _ _ _ _ I q i0 x Z1 K)). pose proof (eraseFirst_active t idx _ FE). lia.
    + intros i r q Y K. destruct (RD i r Y) as (N & Z). destruct (i_peers _ _ _ _ I i r q Z K) as (inf & Z1 & Z2). rewrite GG, Z1. eexists. split; [reflexivity|]. cbn [cur setCur].
      apply in_map_iff in Z2. destruct Z2 as (x & <- & Z2). apply in_map. now apply eraseFirst_keeps.
    + exact (i_sorted _ _ _ _ I).
  - intros q inf i Y K. destruct (Q q inf Y) as (i0 & Z1 & ->). cbn [cur asked setCur] in K. apply (A q i0 i Z1). destruct K as [K|K]; [now left|right].
    apply in_map_iff in K. destruct K as (x & <- & K). apply in_map. now apply eraseFirst_sub in K.
  - intros i r k Y. destruct (RD i r Y) as (N & Z). exact (S1 i r k Z).
Qed.

Lemma load_drop t n H d idx q : Inv t n H d -> load (drop idx d) q <= load d q.
Proof.
  intros I. unfold load. rewrite drop_peers. destruct (aget q (dPeers d)) as [info|] eqn:E; cbn [option_map]; [|lia]. cbn [cur setCur]. clear.
  induction (cur info) as [|x l IH]; cbn; [lia|]. pose proof (ones_nonneg (rBlocks x)). destruct (rIdx x =? idx); [lia|]. cbn. lia.
Qed.

(** The answer of a peer *)
Lemma answer_ok t idx k : forall es, Forall (entryOk t) es -> activeOf es <= 100 -> 0 <= k -> (In idx (map rIdx es) -> k < getPieceBlocksCount t idx) -> NoDup (map rIdx es) ->
  exists o, answer idx k es = Ok o /\
    match o with
    | None => ~ In idx (map rIdx es)
    | Some es' => In idx (map rIdx es) /\ map rIdx es' = map rIdx es /\ Forall (entryOk t) es' /\ activeOf es' <= activeOf es /\
        (forall i j, 0 <= j -> ((exists e, In e es' /\ rIdx e = i /\ nth (Z.to_nat j) (rBlocks e) false = true) <->
           (exists e, In e es /\ rIdx e = i /\ nth (Z.to_nat j) (rBlocks e) false = true) /\ ~ (i = idx /\ j = k)))
    end.
Proof.
  induction es as [|e es IH]; intros F AC Hk Kc ND; cbn [answer].
  - exists None. split; [reflexivity|]. auto.
  - inversion F as [|? ? (E1 & E2) F']; subst. cbn in ND. inversion ND; subst.
    pose proof (ones_nonneg (rBlocks e)) as P0. pose proof (activeOf_nonneg t _ F') as P1.
    assert (AE : activeOf (e :: es) = ones (rBlocks e) + activeOf es) by (unfold activeOf; cbn; lia). rewrite AE in *.
    destruct (Z.eqb_spec (rIdx e) idx) as [E|E].
    + specialize (Kc ltac:(left; exact E)). rewrite <- E in Kc. rewrite <- E1 in Kc. destruct (Z.ltb_spec k (zlen (rBlocks e))); [|lia].
      eexists. split; [reflexivity|]. cbn beta iota. split; [left; exact E|].
      assert (Lk : (Z.to_nat k < length (rBlocks e))%nat) by (unfold zlen in *; lia).
      set (e' := if nth (Z.to_nat k) (rBlocks e) false then {| rIdx := rIdx e; rActive := u32 (rActive e - 1); rBlocks := upd (Z.to_nat k) false (rBlocks e) |} else e).
      assert (R' : rIdx e' = rIdx e) by (unfold e'; destruct (nth (Z.to_nat k) (rBlocks e) false); reflexivity).
      assert (Fl : forall j, 0 <= j -> (nth (Z.to_nat j) (rBlocks e') false = true <-> nth (Z.to_nat j) (rBlocks e) false = true /\ j <> k)).
      { intros j Hj. unfold e'. destruct (nth (Z.to_nat k) (rBlocks e) false) eqn:Nk; cbn [rBlocks].
        - destruct (Z.eq_dec j k) as [->|N]; [rewrite nth_upd_same by assumption; split; [discriminate|tauto]|]. rewrite nth_upd_other by lia. tauto.
        - destruct (Z.eq_dec j k) as [->|N]; [rewrite Nk; split; [discriminate|intros []; discriminate]|]. tauto. }
      assert (Eo : entryOk t e' /\ ones (rBlocks e') <= ones (rBlocks e)).
      { unfold e'. destruct (nth (Z.to_nat k) (rBlocks e) false) eqn:Nk; [|split; [split; assumption|lia]]. unfold entryOk. cbn [rIdx rBlocks rActive]. pose proof (ones_upd_false _ _ Lk Nk) as U.
        pose proof (ones_nonneg (upd (Z.to_nat k) false (rBlocks e))). unfold zlen in *. rewrite upd_length. split; [split; [assumption|]|lia]. rewrite U, E2. unfold u32. apply Z.mod_small. lia. }
      split; [cbn; now rewrite R'|]. split; [constructor; [tauto|assumption]|]. split. { unfold activeOf. cbn. fold (activeOf es). destruct Eo as ((_ & X) & Y). lia. }
      intros i j Hj. split.
      * intros (x & [<-|X] & X2 & X3).
        -- apply Fl in X3; [|assumption]. split; [exists e; split; [now left|]; split; [congruence|tauto]|tauto].
        -- split; [exists x; split; [now right|auto]|]. intros (Y & _). apply H1. rewrite E, <- Y, <- X2. now apply in_map.
      * intros ((x & [<-|X] & X2 & X3) & N).
        -- exists e'. split; [now left|]. split; [congruence|]. apply Fl; [assumption|]. split; [assumption|]. intros Y. apply N. split; [congruence|assumption].
        -- exists x. split; [now right|auto].
    + destruct (IH F' ltac:(lia) Hk ltac:(intros X; apply Kc; now right) H2) as (o & A & B). rewrite A. cbn [bind]. eexists. split; [reflexivity|].
      destruct o as [es'|]; cbn [option_map].
      * destruct B as (B1 & B2 & B3 & B4 & B5). split; [now right|]. split; [cbn; now rewrite B2|]. split; [constructor; [split; assumption|assumption]|]. split; [unfold activeOf in *; cbn; lia|].
        intros i j Hj. specialize (B5 i j Hj). split.
        -- intros (x & [<-|X] & X2 & X3).
           ++ split; [exists e; split; [now left|auto]|]. intros (Y & _). congruence.
           ++ destruct (proj1 B5 (ex_intro _ x (conj X (conj X2 X3)))) as ((y & Y1 & Y2) & Z). split; [exists y; split; [now right|auto]|exact Z].
        -- intros ((x & [<-|X] & X2 & X3) & N).
           ++ exists e. split; [now left|auto].
           ++ destruct (proj2 B5 (conj (ex_intro _ x (conj X (conj X2 X3))) N)) as (y & Y1 & Y2). exists y. split; [now right|auto].
      * intros [X|X]; [congruence|contradiction].
Qed.

Lemma aget_In_fst {A} k (m : list (Z * A)) : aget k m <> None <-> In k (map fst m).
Proof.
  split; [|intros X Y; now apply (aget_None k m Y)]. intros X. destruct (aget k m) as [v|] eqn:E; [|congruence]. apply aget_In in E. now apply (in_map fst) in E.
Qed.

(** A block is put in place *)
Lemma addBlock_ok t idx b s s' : partway t idx s -> getPieceBlocksCount t idx < 65536 -> 0 <= bbegin b -> addBlock b s = Some s' ->
  psIndex s' = psIndex s /\ zlen (psBlocks s') = zlen (psBlocks s) /\ psRemaining s' = zeros (psBlocks s') /\
  (forall k, 0 <= k -> nth (Z.to_nat k) (psBlocks s') 1 <> 0 -> nth (Z.to_nat k) (psBlocks s) 1 <> 0 \/ k = u32 (bbegin b + 1) / 16384).
Proof.
  intros (S1 & S2 & S3 & S4) C Hb. unfold addBlock. set (k := u32 (bbegin b + 1) / BlockMaxSize). destruct (Z.ltb_spec k (zlen (psBlocks s))) as [L|]; [|discriminate].
  destruct (Z.eqb_spec (nth (Z.to_nat k) (psBlocks s) 1) 0) as [Z0|]; [|discriminate]. cbn [andb]. intros X. injection X as <-. cbn [psIndex psBlocks psRemaining].
  assert (K0 : 0 <= k) by (unfold k, u32, BlockMaxSize; lia).
  assert (Lk : (Z.to_nat k < length (psBlocks s))%nat) by (unfold zlen in L; lia).
  split; [reflexivity|]. split; [unfold zlen; now rewrite upd_length|]. split.
  - rewrite (zeros_upd _ _ Lk Z0), S3. unfold u32. apply Z.mod_small.
    assert (zeros (psBlocks s) <= zlen (psBlocks s)). { unfold zeros, zlen. clear. induction (psBlocks s) as [|x l IH]; cbn [filter length]; [lia|]. destruct (0 =? x); cbn [length]; lia. } lia.
  - intros j Hj N. destruct (Z.eq_dec j k) as [->|Nj]; [now right|]. rewrite nth_upd_other in N by lia. now left.
Qed.
