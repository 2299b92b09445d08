(** Proofs about the downloader: every event *)
From Verif Require Import Base BaseLemmas LayoutModel ProgressModel ProgressSpec ProgressProofs Assoc DlModel DlSpec DlProofs DlProofs2.

Lemma stored_more l x idx k : stored_at l idx k -> stored_at (l ++ [x]) idx k.
Proof. intros (b & B & C). exists b. split; [apply in_or_app; now left|exact C]. Qed.

Lemma Good_addStored t n H d b : Good t n H d -> Good t n H (addStored b d).
Proof.
  intros [I A [S1 [S2 S3]] F X]. split; [destruct I; split; assumption|exact A| |exact F|exact X].
  split; [|split]; cbn.
  - intros idx r k Y1 Y2 Y3. apply stored_more. exact (S1 idx r k Y1 Y2 Y3).
  - intros u k Y1 Y2 Y3. apply stored_more. exact (S2 u k Y1 Y2 Y3).
  - intros idx r Y. destruct (S3 idx r Y) as (Z1 & Z2). split; [exact Z1|]. intros k Hk. apply stored_more. now apply Z2.
Qed.

Lemma Good_prog t n H d pr : Good t n H d -> zlen (pieces pr) = n -> flags_ok pr -> exact pr -> Good t n H (setProg pr d).
Proof. intros [I A S F X] L F' X'. split; [|exact A|exact S|exact F'|exact X']. destruct I; split; assumption. Qed.

Lemma Good_sorted t n H d l : Good t n H d -> in_range n l -> Good t n H (setSorted l d).
Proof. intros [I A S F X] L. split; [|exact A|exact S|exact F|exact X]. destruct I; split; assumption. Qed.

Lemma Good_fresh t n H d l : Good t n H d -> Good t n H (setFresh l d).
Proof. intros [I A S F X]. split; [|exact A|exact S|exact F|exact X]. destruct I; split; assumption. Qed.

Lemma Good_announced t n H d l : Good t n H d -> Good t n H (addAnnounced l d).
Proof. intros [I A S F X]. split; [|exact A|exact S|exact F|exact X]. destruct I; split; assumption. Qed.

Lemma Good_group t n H d g : Good t n H d -> Good t n H (setGroup g d).
Proof. intros [I A S F X]. split; [|exact A|exact S|exact F|exact X]. destruct I; split; assumption. Qed.

Lemma Good_checking t n H d l : Good t n H d ->
  (forall idx r, In (idx, r) l -> 0 <= idx < n /\ forall k, 0 <= k < getPieceBlocksCount t idx -> stored_at (dStored d) idx k) -> Good t n H (setChecking l d).
Proof. intros [I A [S1 [S2 S3]] F X] L. split; [|exact A|split; [exact S1|split; [exact S2|exact L]]|exact F|exact X]. destruct I; split; assumption. Qed.

Lemma Good_setReq t n H d idx r r' : Good t n H d -> aget idx (dReqs d) = Some r -> rPeers r' = rPeers r -> partway t idx (rPiece r') ->
  (forall k, 0 <= k < zlen (psBlocks (rPiece r')) -> nth (Z.to_nat k) (psBlocks (rPiece r')) 1 <> 0 -> stored_at (dStored d) idx k) ->
  Good t n H (setReqs (aset idx r' (dReqs d)) d).
Proof.
  intros [I A [S1 [S2 S3]] F X] E P W ST.
  assert (RR : forall i r0, aget i (aset idx r' (dReqs d)) = Some r0 -> (i = idx /\ r0 = r') \/ (i <> idx /\ aget i (dReqs d) = Some r0)).
  { intros i r0. destruct (Z.eq_dec i idx) as [->|N]; [rewrite aget_set_same; intros Y; injection Y as <-; now left|rewrite aget_set_other by assumption; now right]. }
  split; [|exact A|split; [|split; [exact S2|exact S3]]|exact F|exact X].
  - split; cbn.
    + exact (i_len _ _ _ _ I).
    + apply NoDup_aset. exact (i_keys _ _ _ _ I).
    + exact (i_pkeys _ _ _ _ I).
    + intros i r0 Y. destruct (RR i r0 Y) as [(-> & ->)|(N & Z)]; [split; [exact (proj1 (i_req _ _ _ _ I idx r E))|exact W]|exact (i_req _ _ _ _ I i r0 Z)].
    + exact (i_unf _ _ _ _ I).
    + exact (i_nodup _ _ _ _ I).
    + intros q inf x Y K. destruct (i_entry _ _ _ _ I q inf x Y K) as (W1 & (r0 & W2 & W3) & W4). split; [exact W1|]. split; [|exact W4].
      destruct (Z.eq_dec (rIdx x) idx) as [N|N].
      * rewrite N in *. exists r'. rewrite aget_set_same. split; [reflexivity|]. rewrite P. congruence.
      * exists r0. rewrite aget_set_other by assumption. auto.
    + exact (i_active _ _ _ _ I).
    + intros i r0 q Y K. destruct (RR i r0 Y) as [(-> & ->)|(N & Z)]; [rewrite P in K; exact (i_peers _ _ _ _ I idx r q E K)|exact (i_peers _ _ _ _ I i r0 q Z K)].
    + exact (i_sorted _ _ _ _ I).
  - cbn. intros i r0 k Y. destruct (RR i r0 Y) as [(-> & ->)|(N & Z)]; [apply ST|exact (S1 i r0 k Z)].
Qed.

Lemma adel_aset {A} k (x : A) m : adel k (aset k x m) = adel k m.
Proof.
  induction m as [|[k1 v1] m IH]; [unfold adel; cbn; now rewrite Z.eqb_refl|]. cbn [aset]. destruct (Z.eqb_spec k1 k) as [->|N].
  - rewrite !adel_cons, Z.eqb_refl. reflexivity.
  - rewrite !adel_cons. destruct (Z.eqb_spec k1 k); [congruence|now rewrite IH].
Qed.

Lemma Pre_refl vs exc d : Pre vs exc d d.
Proof. split; [reflexivity|]. split; [auto|]. split; [auto|]. intros p. lia. Qed.

Lemma received_missing d idx : received (nth (Z.to_nat idx) (pieces (dProg d)) 0) = true -> isMissing d idx = false.
Proof.
  intros R. unfold isMissing. apply andb_false_iff. right. apply Z.eqb_neq. intros E.
  destruct (Nat.ltb_spec (Z.to_nat idx) (length (pieces (dProg d)))) as [L|L].
  - rewrite (nth_indep _ 0 1 L), E in R. discriminate.
  - rewrite nth_overflow in R by lia. discriminate.
Qed.

Lemma zeros_none l : zeros l = 0 -> forall k, 0 <= k < zlen l -> nth (Z.to_nat k) l 1 <> 0.
Proof. intros Z k Hk E. enough (0 < zeros l) by lia. apply zeros_In. exists (Z.to_nat k). split; [unfold zlen in Hk; lia|exact E]. Qed.

(** ** A block arrives *)
Lemma block_pre t n (H : Z -> Z -> Prop) vs d p b : plain t n -> Good t n H d -> 0 <= bbegin b < 4294967296 -> bbegin b < getPieceBlocksCount t (bindex b) * 16384 -> n < 4294967296 ->
  exists o, addPeerBlockResponse b p d = Ok o /\
    match o with
    | None => True
    | Some d1 => Good t n H d1 /\ Pre vs (again (MBlock p b)) d d1 /\ dReqs d1 = dReqs d /\ dProg d1 = dProg d /\ dStored d1 = dStored d /\ dChecking d1 = dChecking d /\
        dFresh d1 = dFresh d /\ dAnnounced d1 = dAnnounced d /\
        map fst (dPeers d1) = map fst (dPeers d) /\ (exists k, 0 <= k < getPieceBlocksCount t (bindex b) /\ In (p, getPieceBlockInfo t (bindex b) k) (dSent d))
    end.
Proof.
  intros P G Hb Hi Hn. unfold addPeerBlockResponse. destruct (aget p (dPeers d)) as [info|] eqn:E; [|exists None; auto].
  pose proof (g_inv _ _ _ _ G) as I.
  assert (F : Forall (entryOk t) (cur info)). { apply Forall_forall. intros x X. now destruct (i_entry _ _ _ _ I p info x E X). }
  assert (AC := i_active _ _ _ _ I p info E).
  destruct (answer_ok t (bindex b) (blockIdx (bbegin b)) (cur info) F AC) as (o & A & B).
  { unfold blockIdx, BlockMaxSize. lia. }
  { intros _. unfold blockIdx, BlockMaxSize. lia. }
  { exact (i_nodup _ _ _ _ I p info E). }
  rewrite A. cbn [bind]. destruct o as [es|].
  - destruct B as (B1 & B2 & B3 & B4 & B5). eexists. split; [reflexivity|]. cbn beta iota. fold (with_ d p (setCur es info)).
    assert (G1 : Good t n H (with_ d p (setCur es info))) by (apply Good_cur; [exact G|exact E|exact B2|exact B3|lia]).
    split; [exact G1|].
    assert (FL : forall i k, flagged (setCur es info) i k <-> flagged info i k /\ ~ (i = bindex b /\ k = blockIdx (bbegin b))).
    { intros i k. unfold flagged. cbn [cur setCur]. split.
      - intros (x & X1 & X2 & X3 & X4). destruct (proj1 (B5 i k X3)) as ((y & Y1 & Y2 & Y3) & N); [exists x; auto|]. split; [exists y; auto|exact N].
      - intros ((x & X1 & X2 & X3 & X4) & N). destruct (proj2 (B5 i k X3)) as (y & Y1 & Y2 & Y3); [split; [exists x; auto|exact N]|]. exists y. auto. }
    assert (PG : aget p (dPeers (with_ d p (setCur es info))) = Some (setCur es info)) by (rewrite with_get, Z.eqb_refl; reflexivity).
    split.
    { split; [reflexivity|]. split.
      - intros q i k (inf & Y & Z). rewrite with_get in Y. destruct (Z.eqb_spec q p) as [->|N].
        + injection Y as <-. exists info. split; [exact E|]. now apply FL in Z.
        + exists inf. auto.
      - split.
        + intros q i k (inf & Y & Z). destruct (Z.eq_dec q p) as [->|N].
          * rewrite E in Y. injection Y as <-. destruct (Z.eq_dec i (bindex b)) as [->|Ni].
            -- destruct (Z.eq_dec k (blockIdx (bbegin b))) as [->|Nk]; [right; left; cbn; auto|]. left. exists (setCur es info). split; [exact PG|]. apply FL. split; [exact Z|tauto].
            -- left. exists (setCur es info). split; [exact PG|]. apply FL. split; [exact Z|tauto].
          * left. exists inf. split; [|exact Z]. rewrite with_get. now destruct (Z.eqb_spec q p).
        + intros q. destruct (Z.eq_dec q p) as [->|N].
          * rewrite (load_active t n H _ _ _ I E), (load_active t n H _ _ _ (g_inv _ _ _ _ G1) PG). cbn [cur setCur]. lia.
          * unfold load. rewrite with_get. destruct (Z.eqb_spec q p); [contradiction|]. lia. }
    repeat (split; [reflexivity|]). split; [cbn; apply aset_mapfst; congruence|]. apply (g_asked _ _ _ _ G p info (bindex b) E). now right.
  - destruct (existsb (Z.eqb (bindex b)) (asked info)) eqn:X; [|exists None; auto]. eexists. split; [reflexivity|]. cbn beta iota. split; [exact G|]. split; [apply Pre_refl|].
    repeat (split; [reflexivity|]). apply (g_asked _ _ _ _ G p info (bindex b) E). left.
    apply existsb_exists in X. destruct X as (x & X1 & X2). apply Z.eqb_eq in X2. now rewrite X2.
Qed.

Lemma Pre_same vs exc d d1 d2 : Pre vs exc d d1 -> dSent d2 = dSent d1 -> dPeers d2 = dPeers d1 ->
  (forall i, aget i (dReqs d1) = None /\ isMissing d1 i = false -> aget i (dReqs d2) = None /\ isMissing d2 i = false) -> Pre vs exc d d2.
Proof.
  intros (P1 & P2 & P3 & P4) S D M. assert (O : forall p i k, outstanding d2 p i k <-> outstanding d1 p i k) by (intros; unfold outstanding; now rewrite D).
  split; [congruence|]. split; [intros p i k X; apply P2; now apply O|]. split.
  - intros p i k X. rewrite O, D. destruct (P3 p i k X) as [Y|[Y|[Y|Y]]]; auto.
  - intros p. unfold load in *. now rewrite D.
Qed.

Lemma Pre_drop t n H vs exc d d1 idx : Inv t n H d1 -> Pre vs exc d d1 -> isMissing d1 idx = false -> Pre vs exc d (drop idx d1).
Proof.
  intros I (P1 & P2 & P3 & P4) M. split; [exact P1|]. split.
  - intros p i k X. apply (drop_outstanding t n H) in X; [|exact I]. now apply P2.
  - split.
    + intros p i k X. destruct (P3 p i k X) as [Y|[Y|[[Y1 Y2]|Y]]].
      * destruct (Z.eq_dec i idx) as [->|N].
        -- right. right. left. split; [apply aget_del_same|exact M].
        -- left. apply (drop_outstanding t n H); [exact I|]. auto.
      * auto.
      * right. right. left. split; [|exact Y2]. change (dReqs (drop idx d1)) with (adel idx (dReqs d1)). destruct (Z.eq_dec i idx) as [->|N]; [apply aget_del_same|now rewrite aget_del_other].
      * right. right. right. rewrite drop_peers, Y. reflexivity.
    + intros p. pose proof (load_drop t n H d1 idx p I). specialize (P4 p). lia.
Qed.

Definition completes (d : dl) (b : blockInfo) (r : reqInfo) (s : pieceState) : Prop := aget (bindex b) (dReqs d) = Some r /\ addBlock b (rPiece r) = Some s /\ psRemaining s = 0.

Definition KeepM (d d' : dl) : Prop := forall i, aget i (dReqs d') <> None -> isMissing d' i = true \/ (aget i (dReqs d) <> None /\ isMissing d' i = isMissing d i).

Lemma KeepM_keys d d4 d' : Keys d4 d' -> Same d4 d' -> KeepM d d4 -> KeepM d d'.
Proof.
  intros K S M i X. rewrite (Same_missing d4 d') by exact S. destruct (K i X) as [Y|Y]; [exact (M i Y)|now left].
Qed.

Lemma block_ok t n (H : Z -> Z -> Prop) vs d p b : plain t n -> (forall p idx, has (vs p) idx = true -> H p idx) -> Good t n H d -> 0 <= bbegin b < 4294967296 ->
  bbegin b < getPieceBlocksCount t (bindex b) * 16384 -> n < 4294967296 ->
  exists d' new, pieceBlockReceived t (vs p) b p d = Ok d' /\ Good t n H d' /\ Out t n H vs (again (MBlock p b)) d d' new /\
    (dStored d' = dStored d \/ (dStored d' = dStored d ++ [b] /\ aget (bindex b) (dReqs d) <> None /\
       exists k, 0 <= k < getPieceBlocksCount t (bindex b) /\ In (p, getPieceBlockInfo t (bindex b) k) (dSent d))) /\
    dFresh d' = dFresh d /\ dAnnounced d' = dAnnounced d /\ (KeepM d d' /\ (d' = d \/ fully_used t (vs p) d' p)) /\
    ((dProg d' = dProg d /\ dChecking d' = dChecking d) \/
     ((forall i, 0 <= i -> is_received (dProg d') i = is_received (dProg d) i || (i =? bindex b)) /\
      (forall i, 0 <= i -> is_chosen (dProg d') i = is_chosen (dProg d) i) /\
      exists r s, completes d b r s /\ dChecking d' = if isMissing d (bindex b) then dChecking d ++ [(bindex b, addSource p (match aget p (dPeers d) with Some i => suspGroup i | None => 0 end) s r)] else dChecking d)).
Proof.
  intros P HH G Hb Hi Hn. unfold pieceBlockReceived.
  destruct (block_pre t n H vs d p b P G Hb Hi Hn) as (o & A & B). rewrite A. cbn [bind].
  destruct o as [d1|].
  2: { exists d, []. split; [reflexivity|]. split; [exact G|]. split; [apply Out_none; [reflexivity|auto|intros; lia]|]. split; [now left|]. split; [reflexivity|]. split; [reflexivity|]. split; [split; [intros i X; now right|now left]|]. left. auto. }
  destruct B as (G1 & P1 & R1 & PR1 & ST1 & CH1 & FR1 & AN1 & K1 & SE1).
  set (g := match aget p (dPeers d1) with Some i => suspGroup i | None => 0 end).
  assert (Gg : g = match aget p (dPeers d) with Some i => suspGroup i | None => 0 end).
  { unfold g. unfold addPeerBlockResponse in A. destruct (aget p (dPeers d)) as [info|] eqn:E; [|discriminate].
    destruct (answer (bindex b) (blockIdx (bbegin b)) (cur info)) as [[es|]|]; cbn [bind] in A; [| |discriminate].
    - injection A as <-. cbn [dPeers setPeers]. rewrite aget_set_same. reflexivity.
    - destruct (existsb (Z.eqb (bindex b)) (asked info)); [|discriminate]. injection A as <-. rewrite E. reflexivity. }
  (* evaluating after the change *)
  assert (Ev : forall d4, Good t n H d4 -> Pre vs (again (MBlock p b)) d d4 ->
    KeepM d d4 -> exists d' new, evaluateNextRequests t (vs p) p d4 = Ok d' /\ Good t n H d' /\ Out t n H vs (again (MBlock p b)) d d' new /\ Same d4 d' /\ KeepM d d' /\ (d' = d \/ fully_used t (vs p) d' p)).
  { intros d4 G4 P4 M4. destruct (eval_out t n H vs p d4 P (HH p) G4) as (d' & new & E & G' & SM & KY & MK & _ & NF & _ & O & IDL).
    exists d', new. split; [exact E|]. split; [exact G'|]. split; [|split; [exact SM|split; [eapply KeepM_keys; eassumption|right; eapply used_after; eassumption]]]. eapply Out_pre; [exact P4|exact KY| |exact O].
    destruct O as (_ & _ & O3 & _). rewrite Forall_forall in *. intros q Q. destruct (NF q Q) as (N1 & N2). split; [exact N2|]. destruct (O3 q Q) as (_ & _ & _ & _ & (inf & Y & _) & _).
    apply aget_In_fst. rewrite <- MK. apply aget_In_fst. congruence. }
  assert (KM1 : KeepM d d1) by (intros i X; right; split; [now rewrite <- R1|unfold isMissing; now rewrite PR1]).
  rewrite R1. destruct (aget (bindex b) (dReqs d)) as [r|] eqn:E.
  2: { cbn [bind]. destruct (Ev d1 G1 P1 KM1) as (d' & new & E' & G' & O & SM & KM). exists d', new. split; [exact E'|]. split; [exact G'|]. split; [exact O|].
       destruct SM as (M1 & M2 & M3 & M4 & M5 & M6 & M7). split; [left; congruence|]. split; [congruence|]. split; [congruence|]. split; [exact KM|]. left. split; congruence. }
  assert (Inv1 := g_inv _ _ _ _ G1). rewrite <- R1 in E. destruct (i_req _ _ _ _ Inv1 (bindex b) r E) as (Rng & PW).
  destruct (addBlock b (rPiece r)) as [s|] eqn:AB.
  2: { cbn [bind]. destruct (Ev d1 G1 P1 KM1) as (d' & new & E' & G' & O & SM & KM). exists d', new. split; [exact E'|]. split; [exact G'|]. split; [exact O|].
       destruct SM as (M1 & M2 & M3 & M4 & M5 & M6 & M7). split; [left; congruence|]. split; [congruence|]. split; [congruence|]. split; [exact KM|]. left. split; congruence. }
  destruct (addBlock_ok t (bindex b) b (rPiece r) s PW ltac:(specialize (P _ Rng); lia) ltac:(lia) AB) as (B1 & B2 & B3 & B4).
  set (r' := addSource p g s r).
  assert (ALL : forall k, 0 <= k < zlen (psBlocks s) -> nth (Z.to_nat k) (psBlocks s) 1 <> 0 -> stored_at (dStored d1 ++ [b]) (bindex b) k).
  { intros k Hk N. destruct (B4 k ltac:(lia) N) as [X|X].
    - apply stored_more. apply (proj1 (g_stored _ _ _ _ G1) (bindex b) r k E); [lia|exact X].
    - exists b. split; [apply in_or_app; right; now left|]. auto. }
  assert (NN : aget (bindex b) (dReqs d) <> None) by (rewrite <- R1, E; discriminate).
  destruct (Z.eqb_spec (psRemaining s) 0) as [Z0|Z0].
  - (* complete *)
    set (d2 := addStored b (setReqs (aset (bindex b) r' (dReqs d)) d1)).
    assert (MI : isMissing d2 (psIndex s) = isMissing d (bindex b)). { unfold isMissing. cbn [dProg d2 addStored setReqs]. rewrite PR1, B1. destruct PW as (PI & _). now rewrite PI. }
    rewrite MI.
    set (ck := if isMissing d (bindex b) then dChecking d1 ++ [(bindex b, r')] else dChecking d1).
    assert (D3 : (if isMissing d (bindex b) then setChecking (dChecking d2 ++ [(bindex b, r')]) d2 else d2) = setChecking ck d2).
    { unfold ck. destruct (isMissing d (bindex b)); [reflexivity|]. unfold d2. reflexivity. }
    rewrite D3. cbn [dProg setChecking d2 addStored setReqs].
    destruct (addPiece_ok (dProg d1) (bindex b) (g_flags _ _ _ _ G1) (g_exact _ _ _ _ G1)) as (pr & Q & Q1 & Q2 & Q3 & Q4 & Q5 & Q6).
    { destruct Rng. lia. }
    rewrite Q. cbn [bind].
    assert (L : zlen (pieces pr) = n). { rewrite Q3. pose proof (i_len _ _ _ _ Inv1). lia. }
    set (d4 := setProg pr (setChecking ck (addStored b (drop (bindex b) d1)))).
    assert (D4 : eraseAll (bindex b) (setReqs (adel (bindex b) (dReqs (setChecking ck d2))) (setProg pr (setChecking ck d2))) = d4).
    { cbn [dReqs setChecking d2 addStored setReqs]. rewrite adel_aset. unfold d4, drop. rewrite R1. reflexivity. }
    rewrite D4.
    assert (G4 : Good t n H d4).
    { apply Good_prog; [|exact L|exact Q1|exact Q2]. apply Good_checking; [apply Good_addStored, Good_drop; exact G1|].
      intros idx rr K. change (dStored (addStored b (drop (bindex b) d1))) with (dStored d1 ++ [b]). unfold ck in K.
      assert (K' : In (idx, rr) (dChecking d1) \/ (idx = bindex b)).
      { destruct (isMissing d (bindex b)); [|now left]. apply in_app_or in K. destruct K as [K|[K|[]]]; [now left|right; congruence]. }
      destruct K' as [K'| ->].
      - destruct (proj2 (proj2 (g_stored _ _ _ _ G1)) idx rr K') as (Y1 & Y2). split; [exact Y1|]. intros k Hk. apply stored_more. now apply Y2.
      - split; [exact Rng|]. intros k Hk. assert (zlen (psBlocks s) = getPieceBlocksCount t (bindex b)) by (rewrite B2; apply PW). apply ALL; [lia|]. apply zeros_none; [congruence|lia]. }
    assert (MS : isMissing d4 (bindex b) = false) by (apply received_missing; exact Q5).
    assert (Oth : forall i, i <> bindex b -> isMissing d4 i = isMissing d1 i).
    { intros i Ni. unfold isMissing. cbn [dProg d4 setProg]. destruct (Z.leb_spec 0 i); [|reflexivity]. cbn [andb].
      destruct (Nat.ltb_spec (Z.to_nat i) (length (pieces (dProg d1)))) as [Li|Li].
      - rewrite (nth_indep _ 1 0) by (unfold zlen in *; pose proof (i_len _ _ _ _ Inv1) as LL; unfold zlen in LL; lia). rewrite (nth_indep (pieces (dProg d1)) 1 0 Li). rewrite (Q4 i) by lia. reflexivity.
      - pose proof (i_len _ _ _ _ Inv1) as LL. rewrite !nth_overflow; [reflexivity|lia|unfold zlen in *; lia]. }
    assert (KM4 : KeepM d d4).
    { intros i X. change (dReqs d4) with (adel (bindex b) (dReqs d1)) in X. destruct (Z.eq_dec i (bindex b)) as [->|Ni]; [rewrite aget_del_same in X; congruence|].
      rewrite aget_del_other in X by assumption. right. split; [now rewrite <- R1|]. rewrite Oth by assumption. unfold isMissing. now rewrite PR1. }
    assert (P4 : Pre vs (again (MBlock p b)) d d4).
    { (* outstanding requests of the piece are given up *)
      destruct P1 as (X1 & X2 & X3 & X4).
      assert (OD : forall q i k, outstanding d4 q i k <-> outstanding d1 q i k /\ i <> bindex b).
      { intros q i k. change (outstanding d4 q i k) with (outstanding (drop (bindex b) d1) q i k). now apply (drop_outstanding t n H). }
      split; [exact X1|]. split; [intros q i k Y; apply OD in Y; now apply X2|]. split.
      - intros q i k Y. destruct (Z.eq_dec i (bindex b)) as [->|Ni].
        + right. right. left. split; [|exact MS]. change (dReqs d4) with (adel (bindex b) (dReqs d1)). apply aget_del_same.
        + destruct (X3 q i k Y) as [Z|[Z|[[Z1 Z2]|Z]]].
          * left. apply OD. auto.
          * auto.
          * right. right. left. split; [change (dReqs d4) with (adel (bindex b) (dReqs d1)); now rewrite aget_del_other|].
            now rewrite Oth.
          * right. right. right. change (dPeers d4) with (dPeers (drop (bindex b) d1)). rewrite drop_peers, Z. reflexivity.
      - intros q. change (load d4 q) with (load (drop (bindex b) d1) q). pose proof (load_drop t n H d1 (bindex b) q Inv1). specialize (X4 q). lia. }
    destruct (Ev d4 G4 P4 KM4) as (d' & new & E' & G' & O & SM & KM). exists d', new. split; [exact E'|]. split; [exact G'|]. split; [exact O|].
    destruct SM as (M1 & M2 & M3 & M4 & M5 & M6 & M7). split; [right; split; [rewrite M6; change (dStored d4) with (dStored d1 ++ [b]); now rewrite ST1|]; split; [first [exact NN|discriminate]|exact SE1]|]. split; [rewrite M4; change (dFresh d4) with (dFresh d1); exact FR1|].
    split; [rewrite M7; change (dAnnounced d4) with (dAnnounced d1); exact AN1|]. split; [exact KM|]. right.
    rewrite M1. change (dProg d4) with pr. rewrite <- PR1. split.
    + intros i Hi0. unfold is_received. destruct (Z.leb_spec 0 i); [|lia]. cbn [andb]. destruct (Z.eqb_spec i (bindex b)) as [->|Ni]; [rewrite Q5; now rewrite orb_true_r|]. rewrite (Q4 i Hi0 Ni). now rewrite orb_false_r.
    + split.
      * intros i Hi0. unfold is_chosen. rewrite L. rewrite (i_len _ _ _ _ Inv1). destruct (Z.leb_spec 0 i); [|lia]. cbn [andb]. destruct (i <? n); [|reflexivity]. cbn [andb].
        destruct (Z.eq_dec i (bindex b)) as [->|Ni]; [exact Q6|]. now rewrite (Q4 i Hi0 Ni).
      * exists r, s. split; [split; [now rewrite <- R1|]; split; [exact AB|exact Z0]|]. rewrite M3. change (dChecking d4) with ck. unfold ck, r'. rewrite CH1, Gg. reflexivity.
  - (* more to come *)
    cbn [bind]. set (d4 := addStored b (setReqs (aset (bindex b) r' (dReqs d)) d1)).
    assert (G4 : Good t n H d4).
    { assert (Q : d4 = setReqs (aset (bindex b) r' (dReqs (addStored b d1))) (addStored b d1)) by (unfold d4; rewrite <- R1; reflexivity). rewrite Q.
      apply Good_setReq with r; [now apply Good_addStored|exact E|reflexivity| |].
      - destruct PW as (W1 & W2 & W3 & W4). cbn [rPiece r' addSource]. split; [congruence|]. split; [congruence|]. split; [exact B3|].
        assert (0 <= zeros (psBlocks s)) by (unfold zeros, zlen; lia). lia.
      - exact ALL. }
    assert (KM4 : KeepM d d4).
    { intros i X. right. split; [|unfold isMissing; change (dProg d4) with (dProg d1); now rewrite PR1]. change (dReqs d4) with (aset (bindex b) r' (dReqs d)) in X.
      destruct (Z.eq_dec i (bindex b)) as [->|N]; [rewrite <- R1; congruence|]. now rewrite aget_set_other in X by assumption. }
    assert (P4 : Pre vs (again (MBlock p b)) d d4).
    { eapply Pre_same; [exact P1|reflexivity|reflexivity|]. intros i (Y1 & Y2). split; [|exact Y2]. change (dReqs d4) with (aset (bindex b) r' (dReqs d)). destruct (Z.eq_dec i (bindex b)) as [->|N]; [congruence|]. rewrite aget_set_other by assumption. now rewrite <- R1. }
    destruct (Ev d4 G4 P4 KM4) as (d' & new & E' & G' & O & SM & KM). exists d', new. split; [exact E'|]. split; [exact G'|]. split; [exact O|].
    destruct SM as (M1 & M2 & M3 & M4 & M5 & M6 & M7). split; [right; split; [rewrite M6; change (dStored d4) with (dStored d1 ++ [b]); now rewrite ST1|]; split; [first [exact NN|discriminate]|exact SE1]|]. split; [rewrite M4; exact FR1|].
    split; [rewrite M7; exact AN1|]. split; [exact KM|]. left. split; [rewrite M1; exact PR1|rewrite M3; exact CH1].
Qed.
