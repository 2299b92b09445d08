(** Proofs about what is left: the sizes kept for pieces under way are those of their blocks, and no piece is counted twice *)
From Coq Require Import Permutation.
From Verif Require Import Base BaseLemmas LayoutModel LayoutSpec LayoutProofs ProgressModel ProgressSpec ProgressProofs Assoc DlModel DlSpec DlProofs DlProofs2 DlProofs3 DlProofs4 DlProofs5 CheckProofs LeftModel LeftSpec.

Definition nz (u : pieceState) : bool := negb (psSize u =? 0).

Record Acc (t : torrentInfo) (n : Z) (d : dl) : Prop := {
  a_nodup : NoDup (map fst (dReqs d) ++ map psIndex (filter nz (dUnf d)));
  a_req : forall i r, aget i (dReqs d) = Some r -> is_received (dProg d) i = false /\ psSize (rPiece r) = weight t i 0 (psBlocks (rPiece r));
  a_unf : forall u, In u (filter nz (dUnf d)) -> 0 <= psIndex u < n /\ is_received (dProg d) (psIndex u) = false /\ psSize u = weight t (psIndex u) 0 (psBlocks u) }.

Lemma Acc_same t n d d' : dReqs d' = dReqs d -> dUnf d' = dUnf d -> dProg d' = dProg d -> Acc t n d -> Acc t n d'.
Proof. intros A B C [X Y Z]. split; rewrite ?A, ?B, ?C; assumption. Qed.

(** ** Loading a piece given up before *)
Lemma loadUnf_nz i : forall l ps l', loadUnf i l = (ps, l') ->
  (exists a b, filter nz l = a ++ ps :: b /\ filter nz l' = a ++ b /\ psIndex ps = i /\ ~ In i (map psIndex a)) \/
  (psBlocks ps = [] /\ l' = l /\ ~ In i (map psIndex (filter nz l))).
Proof.
  induction l as [|u l IH]; intros ps l'; cbn [loadUnf].
  - intros K. injection K as <- <-. right. cbn. auto.
  - cbn [filter]. change (negb (psSize u =? 0)) with (nz u). destruct ((psIndex u =? i) && nz u) eqn:E.
    + intros K. injection K as <- <-. apply andb_true_iff in E. destruct E as (E1 & E2). apply Z.eqb_eq in E1. left. exists [], (filter nz l).
      rewrite E2. cbn. auto.
    + destruct (loadUnf i l) as [p2 l2] eqn:L. intros K. injection K as <- <-. destruct (IH _ _ eq_refl) as [(a & b & A & B & C & D)|(A & B & C)].
      * left. cbn [filter]. destruct (nz u) eqn:N.
        -- exists (u :: a), b. rewrite A, B. repeat (split; [reflexivity|]). split; [exact C|]. cbn. intros [X|X]; [|contradiction]. rewrite X, Z.eqb_refl in E. discriminate.
        -- exists a, b. auto.
      * right. split; [exact A|]. split; [now rewrite B|]. destruct (nz u) eqn:N; [|exact C]. cbn. intros [X|X]; [|contradiction]. rewrite X, Z.eqb_refl in E. discriminate.
Qed.

Lemma aset_new {A} k (v : A) m : aget k m = None -> aset k v m = m ++ [(k, v)].
Proof. induction m as [|[k1 v1] m IH]; cbn; [reflexivity|]. destruct (k1 =? k); [discriminate|]. intros E. now rewrite IH. Qed.

Lemma weight_none t i k n : weight t i k (repeat 0 n) = 0.
Proof. revert k. induction n as [|n IH]; intros k; cbn [repeat weight]; [reflexivity|]. rewrite IH. reflexivity. Qed.

Lemma missing_not_received d i : isMissing d i = true -> is_received (dProg d) i = false.
Proof.
  unfold is_received. intros M. destruct (Z.leb_spec 0 i); [|reflexivity]. cbn [andb]. destruct (received (nth (Z.to_nat i) (pieces (dProg d)) 0)) eqn:R; [|reflexivity].
  apply received_missing in R. congruence.
Qed.

Lemma getRequest_acc t n d i r d1 : Acc t n d -> (aget i (dReqs d) <> None \/ isMissing d i = true) -> getRequest t d i = (r, d1) ->
  Acc t n d1 /\ aget i (dReqs d1) = Some r /\ dProg d1 = dProg d /\ (forall j, aget j (dReqs d) <> None -> aget j (dReqs d1) <> None).
Proof.
  intros [N R U] C. unfold getRequest. destruct (aget i (dReqs d)) as [r0|] eqn:E.
  - intros K. injection K as <- <-. split; [now split|]. auto.
  - destruct C as [C|C]; [congruence|]. destruct (loadUnf i (dUnf d)) as [ps l'] eqn:L.
    set (ps2 := match psBlocks ps with [] => _ | _ => _ end). intros K. injection K as <- <-.
    assert (NI : ~ In i (map fst (dReqs d))) by (rewrite <- aget_In_fst, E; congruence).
    assert (X : NoDup (map fst (dReqs d) ++ i :: map psIndex (filter nz l')) /\ psSize ps2 = weight t i 0 (psBlocks ps2) /\ (forall u, In u (filter nz l') -> In u (filter nz (dUnf d)))).
    { destruct (loadUnf_nz i _ _ _ L) as [(a & b & A & B & P & _)|(A & B & P)].
      - rewrite A in N. rewrite B. split; [|split].
        + eapply Permutation_NoDup; [|exact N]. apply Permutation_app_head. rewrite !map_app. cbn [map]. rewrite P. symmetry. apply Permutation_middle.
        + destruct (U ps) as (_ & _ & W); [rewrite A; apply in_or_app; right; now left|]. rewrite P in W. unfold ps2. destruct (psBlocks ps) as [|x l] eqn:PB; [|rewrite PB; exact W].
          exfalso. cbn in W. assert (F : In ps (filter nz (dUnf d))) by (rewrite A; apply in_or_app; right; now left). apply filter_In in F. destruct F as (_ & F). unfold nz in F. rewrite W in F. discriminate.
        + intros u H. rewrite A. apply in_or_app. apply in_app_or in H. destruct H; [now left|right; now right].
      - rewrite B. split; [|split; [|auto]].
        + eapply Permutation_NoDup; [apply Permutation_middle|]. constructor; [|exact N]. intros K. apply in_app_or in K. destruct K; contradiction.
        + unfold ps2. rewrite A. cbn [psSize psBlocks initPiece]. now rewrite weight_none. }
    destruct X as (X1 & X2 & X3). split; [split|].
    + cbn [dReqs dUnf setUnf setReqs]. rewrite aset_new by assumption. rewrite map_app. cbn [map fst]. rewrite <- app_assoc. exact X1.
    + cbn [dReqs dProg setUnf setReqs]. intros j r1. destruct (Z.eq_dec j i) as [->|NJ].
      * rewrite aget_set_same. intros K. injection K as <-. split; [now apply missing_not_received|exact X2].
      * rewrite aget_set_other by assumption. apply R.
    + cbn [dUnf dProg setUnf setReqs]. intros u H. apply U, X3, H.
    + cbn [dReqs dProg setUnf setReqs]. split; [apply aget_set_same|]. split; [reflexivity|]. intros j J. destruct (Z.eq_dec j i) as [->|NJ]; [rewrite aget_set_same; congruence|]. now rewrite aget_set_other.
Qed.

Lemma setReq_acc t n d i r r' : Acc t n d -> aget i (dReqs d) = Some r -> rPiece r' = rPiece r -> Acc t n (setReqs (aset i r' (dReqs d)) d).
Proof.
  intros [N R U] E P. split; cbn [dReqs dUnf dProg setReqs]; [rewrite aset_mapfst by congruence; exact N| |exact U].
  intros j r1. destruct (Z.eq_dec j i) as [->|NJ]; [rewrite aget_set_same|rewrite aget_set_other by assumption; apply R].
  intros K. injection K as <-. rewrite P. now apply R.
Qed.

Lemma send_piece t e r m x : sendPieceRequests t e r m = Ok x -> rPiece (snd (fst x)) = rPiece r /\ rIdx (snd (fst (fst x))) = rIdx e.
Proof.
  unfold sendPieceRequests. destruct (_ =? 0); [discriminate|]. destruct (sendLoop _ _ _ _ _ _ _ _ _) as [[[bl c] o]|]; cbn [bind]; [|discriminate]. intros K. injection K as <-. split; reflexivity.
Qed.

(** ** Evaluating a peer *)
Definition entries (es : list reqPiece) (d : dl) : Prop := Forall (fun e => aget (rIdx e) (dReqs d) <> None) es.

Lemma entries_more es d d' : (forall j, aget j (dReqs d) <> None -> aget j (dReqs d') <> None) -> entries es d -> entries es d'.
Proof. intros M. apply Forall_impl. auto. Qed.

Definition Grew (t : torrentInfo) (n : Z) (d d' : dl) : Prop :=
  Acc t n d' /\ dProg d' = dProg d /\ (forall j, aget j (dReqs d) <> None -> aget j (dReqs d') <> None).

Lemma aset_more {A} i (r : A) m j : aget j m <> None -> aget j (aset i r m) <> None.
Proof. intros J. destruct (Z.eq_dec j i) as [->|N]; [rewrite aget_set_same; congruence|]. now rewrite aget_set_other. Qed.

Lemma topUp_acc t n p m : forall es c d x, Acc t n d -> entries es d -> topUp t p m es c d = Ok x -> Grew t n d (snd x).
Proof.
  induction es as [|e es IH]; intros c d x A F; cbn [topUp].
  - intros K. injection K as <-. split; [exact A|]. auto.
  - inversion F as [|? ? F1 F2]; subst. destruct (getRequest t d (rIdx e)) as [r d1] eqn:G.
    destruct (getRequest_acc t n d (rIdx e) r d1 A (or_introl F1) G) as (A1 & E1 & P1 & M1).
    destruct (sendPieceRequests t e r (m - c)) as [[[[k e'] r'] out]|] eqn:S; cbn [bind]; [|discriminate].
    apply send_piece in S. cbn [fst snd] in S. destruct S as (S1 & _).
    set (d2 := addSent p out (setReqs (aset (rIdx e) r' (dReqs d1)) d1)).
    assert (A2 : Acc t n d2) by (unfold d2; eapply Acc_same; [| | |apply (setReq_acc t n d1 (rIdx e) r r' A1 E1 S1)]; reflexivity).
    assert (M2 : forall j, aget j (dReqs d) <> None -> aget j (dReqs d2) <> None) by (intros j J; cbn [d2 dReqs addSent setReqs]; apply aset_more; auto).
    destruct (c + k >=? m).
    + intros K. injection K as <-. cbn [snd]. split; [exact A2|]. split; [exact P1|exact M2].
    + destruct (topUp t p m es (c + k) d2) as [[[l c3] d3]|] eqn:T; cbn [bind]; [|discriminate]. intros K. injection K as <-.
      destruct (IH _ _ _ A2 (entries_more _ _ _ M2 F2) T) as (A3 & P3 & M3). cbn [snd] in *. split; [exact A3|]. split; [rewrite P3; exact P1|auto].
Qed.

Lemma slowNext_known d v info first : forall l lastP shared i f, (forall b, In b shared -> aget (fst b) (dReqs d) <> None) ->
  slowNext d v info first lastP shared l = Some (i, f) -> aget i (dReqs d) <> None \/ isMissing d i = true.
Proof.
  assert (B : forall g shared b, (forall b, In b shared -> aget (fst b) (dReqs d) <> None) -> bestShared g None shared = Some b -> aget (fst b) (dReqs d) <> None).
  { intros g shared b S K. destruct (bestShared_some g shared None b K) as [X|X]; [now apply S|discriminate]. }
  induction l as [|[j prio] l IH]; intros lastP shared i f S; cbn [slowNext].
  - destruct (bestShared (suspGroup info) None shared) as [b|] eqn:E; cbn; [|discriminate]. intros K. injection K as <- _. left. eapply B; eassumption.
  - destruct (isMissing d j && has v j) eqn:M; [|now apply IH]. apply andb_true_iff in M. destruct M as (M & _).
    cbn zeta. destruct (if lastP >? prio then bestShared (suspGroup info) None shared else None) as [b|] eqn:E.
    + intros K. injection K as <- _. left. destruct (lastP >? prio); [|discriminate]. eapply B; eassumption.
    + destruct (aget j (dReqs d)) as [r|] eqn:Q.
      * destruct (rPeers r); [intros K; injection K as <- _; now right|]. apply IH. intros b. destruct (existsb _ _); [apply S|]. intros H. apply in_app_or in H.
        destruct H as [H|[<-|[]]]; [now apply S|]. cbn. congruence.
      * intros K. injection K as <- _. now right.
Qed.

Lemma best_known d v info i f : getBestNextRequest d v info = (Some i, f) -> aget i (dReqs d) <> None \/ isMissing d i = true.
Proof.
  unfold getBestNextRequest. destruct (dSorted d) as [|[j first] l] eqn:S; [discriminate|].
  destruct (if dFast d then fastNext d v first ((j, first) :: l) else None) as [k|] eqn:F.
  - intros K. injection K as <- _. destruct (dFast d); [|discriminate]. apply fastNext_some in F. destruct F as (_ & (F & _) & _). now right.
  - destruct (slowNext d v info first first [] ((j, first) :: l)) as [[k g]|] eqn:W; [|discriminate]. intros K. injection K as <- _. eapply slowNext_known; [|exact W]. contradiction.
Qed.

Lemma chooseMore_acc t n v p m : forall fuel info c d x, Acc t n d -> chooseMore fuel t v p m info c d = Ok x -> Grew t n d (snd x).
Proof.
  induction fuel as [|fuel IH]; intros info c d x A; cbn [chooseMore]; destruct (c <? m); try discriminate; try (intros K; injection K as <-; split; [exact A|auto]).
  destruct (getBestNextRequest d v info) as [[i|] f] eqn:B.
  - apply best_known in B. destruct (getRequest t (setFast f d) i) as [r d1] eqn:G.
    assert (A0 : Acc t n (setFast f d)) by (eapply Acc_same; [| | |exact A]; reflexivity).
    destruct (getRequest_acc t n (setFast f d) i r d1 A0 B G) as (A1 & E1 & P1 & M1).
    cbn zeta. destruct (sendPieceRequests t _ (addPeer p r) (m - c)) as [[[[k e'] r'] out]|] eqn:S; cbn [bind]; [|discriminate].
    apply send_piece in S. cbn [fst snd] in S. destruct S as (S1 & _). intros K.
    match type of K with chooseMore _ _ _ _ _ _ _ ?d2 = _ => set (d2' := d2) in K end.
    assert (A2 : Acc t n d2') by (unfold d2'; eapply Acc_same; [| | |apply (setReq_acc t n d1 i r r' A1 E1 S1)]; reflexivity).
    destruct (IH _ _ _ _ A2 K) as (A3 & P3 & M3). split; [exact A3|]. split; [rewrite P3; exact P1|].
    intros j J. apply M3. cbn [d2' dReqs addSent setReqs]. apply aset_more. apply M1. exact J.
  - intros K. injection K as <-. split; [eapply Acc_same; [| | |exact A]; reflexivity|]. auto.
Qed.

Lemma evaluate_acc t n H v p d d' : Good t n H d -> Acc t n d -> evaluateNextRequests t v p d = Ok d' -> Grew t n d d'.
Proof.
  intros G A. unfold evaluateNextRequests. destruct (aget p (dPeers d)) as [info|] eqn:E; [|intros K; injection K as <-; split; auto].
  destruct (choking v); [intros K; injection K as <-; split; auto|]. cbn zeta.
  destruct (if u32 (activeOf (cur info)) <? limit v then topUp t p (limit v) (cur info) (u32 (activeOf (cur info))) d else Ok (cur info, u32 (activeOf (cur info)), d)) as [[[es c] d1]|] eqn:T; cbn [bind]; [|discriminate].
  assert (G1 : Grew t n d d1).
  { destruct (_ <? _); [|injection T as _ _ <-; split; auto]. apply (topUp_acc t n) in T; [exact T|exact A|]. apply Forall_forall. intros e X. destruct (i_entry _ _ _ _ (g_inv _ _ _ _ G) p info e E X) as (_ & (r & R & _) & _). congruence. }
  destruct G1 as (A1 & P1 & M1).
  destruct (chooseMore (S (length (dSorted d))) t v p (limit v) (setCur es info) c d1) as [[i2 d2]|] eqn:C; cbn [bind]; [|discriminate].
  apply (chooseMore_acc t n) in C; [|exact A1]. destruct C as (A2 & P2 & M2). cbn [snd] in *. intros K. injection K as <-.
  split; [eapply Acc_same; [| | |exact A2]; reflexivity|]. split; [cbn; congruence|]. intros j J. cbn. auto.
Qed.

(** ** Dropping a request, changing the progress *)
Lemma NoDup_adel {A} i (m : list (Z * A)) : NoDup (map fst m) -> NoDup (map fst (adel i m)).
Proof.
  induction m as [|[k v] m IH]; [auto|]. rewrite adel_cons. cbn [map fst]. intros N. inversion N; subst. destruct (k =? i); [auto|]. cbn [map fst]. constructor; [|auto].
  intros X. apply H1. unfold adel in X. apply in_map_iff in X. destruct X as (x & <- & X). apply filter_In in X. apply in_map, X.
Qed.

Lemma NoDup_app_e {A} (a b : list A) : NoDup (a ++ b) -> NoDup a /\ NoDup b /\ forall x, In x a -> ~ In x b.
Proof.
  induction a as [|x a IH]; cbn; [intros N; repeat split; [constructor|exact N|contradiction]|]. intros N. inversion N; subst. destruct (IH H2) as (A1 & A2 & A3).
  split; [constructor; [|exact A1]; intros X; apply H1, in_or_app; now left|]. split; [exact A2|]. intros y [<-|Y] Z; [apply H1, in_or_app; now right|]. now apply (A3 y).
Qed.

Lemma adel_In {A} i j (m : list (Z * A)) : In j (map fst (adel i m)) -> In j (map fst m) /\ j <> i.
Proof.
  unfold adel. intros X. apply in_map_iff in X. destruct X as (x & <- & X). apply filter_In in X. destruct X as (X & Y). split; [now apply in_map|].
  apply negb_true_iff, Z.eqb_neq in Y. exact Y.
Qed.

Lemma drop_acc t n d i d' pr : Acc t n d -> dReqs d' = adel i (dReqs d) -> dUnf d' = dUnf d -> dProg d' = pr -> aget i (dReqs d) <> None ->
  (forall j, 0 <= j -> j <> i -> is_received pr j = true -> is_received (dProg d) j = true) -> Acc t n d'.
Proof.
  intros [N R U] DR DU DP KI PR. destruct (NoDup_app_e _ _ N) as (N1 & N2 & N3). split; rewrite ?DR, ?DU, ?DP.
  - apply NoDup_app_i; [now apply NoDup_adel|exact N2|]. intros x X. apply adel_In in X. now apply N3.
  - intros j r E. destruct (Z.eq_dec j i) as [->|NJ]; [rewrite aget_del_same in E; discriminate|]. rewrite aget_del_other in E by assumption. destruct (R j r E) as (R1 & R2). split; [|exact R2].
    destruct (is_received pr j) eqn:Q; [|reflexivity]. assert (0 <= j) by (unfold is_received in Q; apply andb_true_iff in Q; destruct Q as (Q & _); now apply Z.leb_le in Q). rewrite <- R1. symmetry. now apply PR.
  - intros u X. destruct (U u X) as (U1 & U2 & U3). split; [exact U1|]. split; [|exact U3].
    assert (psIndex u <> i). { intros Y. apply (N3 i); [now apply aget_In_fst|]. rewrite <- Y. now apply in_map. }
    destruct (is_received pr (psIndex u)) eqn:Q; [|reflexivity]. rewrite <- U2. symmetry. apply PR; [lia|assumption|assumption].
Qed.

Lemma prog_acc t n d d' : Acc t n d -> dReqs d' = dReqs d -> dUnf d' = dUnf d -> (forall j, 0 <= j -> is_received (dProg d') j = true -> is_received (dProg d) j = true) -> Acc t n d'.
Proof.
  intros [N R U] DR DU PR.
  assert (W : forall j, is_received (dProg d) j = false -> is_received (dProg d') j = false).
  { intros j F. destruct (is_received (dProg d') j) eqn:Q; [|reflexivity]. rewrite <- F. symmetry. apply PR; [|exact Q]. unfold is_received in Q. apply andb_true_iff in Q. destruct Q as (Q & _). now apply Z.leb_le in Q. }
  split; rewrite ?DR, ?DU; [exact N| |].
  - intros i r E. destruct (R i r E). auto.
  - intros u X. destruct (U u X) as (U1 & U2 & U3). auto.
Qed.

(** ** The sizes of the blocks of a piece *)
Lemma tiles_sum : forall bs a b, tiles a bs b -> sum_of (map blength bs) = b - a /\ Forall (fun x => 0 < blength x) bs.
Proof.
  induction bs as [|x bs IH]; intros a b; cbn [tiles map sum_of fold_right].
  - intros ->. split; [lia|constructor].
  - intros (_ & L & T). destruct (IH _ _ T) as (S & F). unfold sum_of in S. rewrite S. split; [lia|]. constructor; [lia|exact F].
Qed.

Definition len (t : torrentInfo) (i : Z) (k : nat) : Z := blength (getPieceBlockInfo t i (Z.of_nat k)).

Lemma piece_sum t i : info_ok t -> 0 <= i <= lastPieceIndex t ->
  sum_of (map (len t i) (seq 0 (Z.to_nat (getPieceBlocksCount t i)))) = size_of_piece (pieceSize t) (fullSize t) i /\
  (forall k, (k < Z.to_nat (getPieceBlocksCount t i))%nat -> 0 < len t i k).
Proof.
  intros I R. destruct (blocks_tile t i I R) as (T & _). destruct (tiles_sum _ _ _ T) as (S & F). unfold makePieceBlocksInfo in S, F. rewrite map_map in S.
  split; [rewrite Z.sub_0_r in S; exact S|]. intros k K. rewrite Forall_forall in F. apply (F (getPieceBlockInfo t i (Z.of_nat k))). apply in_map_iff. exists k. split; [reflexivity|]. apply in_seq. lia.
Qed.

Lemma weight_le t i : forall l k, (forall j, (k <= j < k + length l)%nat -> 0 < len t i j) -> 0 <= weight t i k l <= sum_of (map (len t i) (seq k (length l))).
Proof.
  induction l as [|x l IH]; intros k F; cbn [weight length seq map sum_of fold_right]; [lia|]. pose proof (F k ltac:(cbn; lia)). specialize (IH (S k)). unfold sum_of in IH. unfold len in *.
  assert (0 <= weight t i (S k) l <= fold_right Z.add 0 (map (fun k0 => blength (getPieceBlockInfo t i (Z.of_nat k0))) (seq (S k) (length l)))) by (apply IH; intros j J; apply F; cbn; lia).
  destruct (x =? 0); lia.
Qed.

Lemma weight_upd t i : forall l k j, (j < length l)%nat -> nth j l 1 = 0 -> weight t i k (upd j 1 l) = weight t i k l + len t i (k + j).
Proof.
  induction l as [|x l IH]; intros k [|j] L N; cbn [length] in L; try lia; cbn [upd weight nth] in *.
  - subst x. replace (k + 0)%nat with k by lia. change (1 =? 0) with false. change (0 =? 0) with true. unfold len. lia.
  - rewrite IH by (assumption || lia). replace (S k + j)%nat with (k + S j)%nat by lia. lia.
Qed.

(** ** A block *)
Lemma block_acc t n H vs d p b d' : plain t n -> n < 4294967296 -> info_ok t -> n = lastPieceIndex t + 1 -> Good t n H d -> Acc t n d ->
  0 <= bbegin b < 4294967296 -> bbegin b < getPieceBlocksCount t (bindex b) * 16384 -> right_size t (MBlock p b) ->
  pieceBlockReceived t (vs p) b p d = Ok d' -> Acc t n d'.
Proof.
  intros P Hn IO NL G A Hb Hi RS. unfold pieceBlockReceived.
  destruct (block_pre t n H vs d p b P G Hb Hi Hn) as (o & E0 & B). rewrite E0. cbn [bind].
  destruct o as [d1|]; [|intros K; injection K as <-; exact A].
  destruct B as (G1 & _ & R1 & PR1 & _).
  assert (U1 : dUnf d1 = dUnf d).
  { unfold addPeerBlockResponse in E0. destruct (aget p (dPeers d)) as [info|]; [|discriminate].
    destruct (answer (bindex b) (blockIdx (bbegin b)) (cur info)) as [[es|]|]; cbn [bind] in E0; [| |discriminate]; [injection E0 as <-; reflexivity|].
    destruct (existsb _ _); [|discriminate]. now injection E0 as <-. }
  assert (A1 : Acc t n d1) by (eapply Acc_same; eassumption).
  assert (Ev : forall d4 d', Good t n H d4 -> Acc t n d4 -> evaluateNextRequests t (vs p) p d4 = Ok d' -> Acc t n d') by (intros d4 d'' X Y Z; eapply evaluate_acc; eassumption).
  cbn zeta. destruct (aget (bindex b) (dReqs d1)) as [r|] eqn:E; [|cbn [bind]; now apply Ev].
  assert (Inv1 := g_inv _ _ _ _ G1). destruct (i_req _ _ _ _ Inv1 (bindex b) r E) as (Rng & PW).
  destruct (addBlock b (rPiece r)) as [s|] eqn:AB; [|cbn [bind]; now apply Ev].
  destruct (addBlock_ok t (bindex b) b (rPiece r) s PW ltac:(specialize (P _ Rng); lia) ltac:(lia) AB) as (B1 & B2 & B3 & B4).
  set (g := match aget p (dPeers d1) with Some i => suspGroup i | None => 0 end).
  set (r' := addSource p g s r).
  assert (ALL : forall k, 0 <= k < zlen (psBlocks s) -> nth (Z.to_nat k) (psBlocks s) 1 <> 0 -> stored_at (dStored d1 ++ [b]) (bindex b) k).
  { intros k Hk N. destruct (B4 k ltac:(lia) N) as [X|X].
    - apply stored_more. apply (proj1 (g_stored _ _ _ _ G1) (bindex b) r k E); [lia|exact X].
    - exists b. split; [apply in_or_app; right; now left|]. auto. }
  destruct (Z.eqb_spec (psRemaining s) 0) as [Z0|Z0].
  - set (d2 := addStored b (setReqs (aset (bindex b) r' (dReqs d1)) d1)).
    set (d3 := if isMissing d2 (psIndex s) then setChecking (dChecking d2 ++ [(bindex b, r')]) d2 else d2).
    assert (F3 : dReqs d3 = aset (bindex b) r' (dReqs d1) /\ dUnf d3 = dUnf d1 /\ dProg d3 = dProg d1) by (unfold d3; destruct (isMissing _ _); repeat split).
    destruct F3 as (F31 & F32 & F33). rewrite F33.
    destruct (addPiece_ok (dProg d1) (bindex b) (g_flags _ _ _ _ G1) (g_exact _ _ _ _ G1)) as (pr & Q & Q1 & Q2 & Q3 & Q4 & Q5 & Q6); [lia|].
    rewrite Q. cbn [bind]. rewrite F31, adel_aset.
    assert (L : zlen (pieces pr) = n). { rewrite Q3. pose proof (i_len _ _ _ _ Inv1). lia. }
    set (d4 := eraseAll (bindex b) (setReqs (adel (bindex b) (dReqs d1)) (setProg pr d3))).
    apply Ev.
    + assert (D4 : exists ck, d4 = setProg pr (setChecking ck (addStored b (drop (bindex b) d1))) /\ (ck = dChecking d1 \/ ck = dChecking d1 ++ [(bindex b, r')])).
      { unfold d4, d3. destruct (isMissing d2 (psIndex s)); [exists (dChecking d1 ++ [(bindex b, r')])|exists (dChecking d1)]; (split; [reflexivity|auto]). }
      destruct D4 as (ck & -> & CK). apply Good_prog; [|exact L|exact Q1|exact Q2]. apply Good_checking; [apply Good_addStored, Good_drop; exact G1|].
      intros idx rr K. change (dStored (addStored b (drop (bindex b) d1))) with (dStored d1 ++ [b]).
      assert (K' : In (idx, rr) (dChecking d1) \/ (idx = bindex b)).
      { destruct CK as [->| ->]; [now left|]. apply in_app_or in K. destruct K as [K|[K|[]]]; [now left|right; congruence]. }
      destruct K' as [K'| ->].
      * destruct (proj2 (proj2 (g_stored _ _ _ _ G1)) idx rr K') as (Y1 & Y2). split; [exact Y1|]. intros k Hk. apply stored_more. now apply Y2.
      * split; [exact Rng|]. intros k Hk. assert (zlen (psBlocks s) = getPieceBlocksCount t (bindex b)) by (rewrite B2; apply PW). apply ALL; [lia|]. apply zeros_none; [congruence|lia].
    + apply (drop_acc t n d1 (bindex b) d4 pr A1); [reflexivity|exact F32|reflexivity|congruence|].
      intros j J NJ. unfold is_received. destruct (Z.leb_spec 0 j); [|lia]. cbn [andb]. now rewrite (Q4 j J NJ).
  - cbn [bind]. apply Ev.
    + apply Good_setReq with (d := addStored b d1) (r := r); [now apply Good_addStored|exact E|reflexivity| |].
      * destruct PW as (W1 & W2 & W3 & W4). cbn [rPiece r' addSource]. split; [congruence|]. split; [congruence|]. split; [exact B3|].
        assert (0 <= zeros (psBlocks s)) by (unfold zeros, zlen; lia). lia.
      * exact ALL.
    + destruct A1 as [N R U]. split; cbn [dReqs dUnf dProg addStored setReqs]; [rewrite aset_mapfst by congruence; exact N| |exact U].
      intros j r1. destruct (Z.eq_dec j (bindex b)) as [->|NJ]; [|rewrite aget_set_other by assumption; apply R].
      rewrite aget_set_same. intros K. injection K as <-. destruct (R (bindex b) r E) as (R2 & R3). split; [exact R2|]. cbn [rPiece r' addSource].
      destruct (piece_sum t (bindex b) IO ltac:(lia)) as (PS & PP).
      assert (W : zlen (psBlocks s) = getPieceBlocksCount t (bindex b)) by (rewrite B2; apply PW).
      assert (Wn : length (psBlocks s) = Z.to_nat (getPieceBlocksCount t (bindex b))) by (unfold zlen in W; lia).
      assert (WL : 0 <= weight t (bindex b) 0 (psBlocks s) <= size_of_piece (pieceSize t) (fullSize t) (bindex b)).
      { rewrite <- PS, <- Wn. apply weight_le. intros k Hk. apply PP. lia. }
      unfold addBlock in AB. cbn zeta in AB. set (k := u32 (bbegin b + 1) / BlockMaxSize) in *.
      destruct (Z.ltb_spec k (zlen (psBlocks (rPiece r)))) as [Lk|]; [|discriminate]. destruct (Z.eqb_spec (nth (Z.to_nat k) (psBlocks (rPiece r)) 1) 0) as [Zk|]; [|discriminate].
      cbn [andb] in AB. injection AB as <-. cbn [psSize psBlocks] in *. cbn [right_size] in RS. change (u32 (bbegin b + 1) / 16384) with k in RS.
      assert (K0 : 0 <= k) by (unfold k, u32, BlockMaxSize; qlia).
      rewrite weight_upd in WL |- * by (try exact Zk; unfold zlen in Lk; lia). cbn [Nat.add] in *. unfold len in *. rewrite Z2Nat.id in * by exact K0. rewrite R3, RS.
      unfold u32. apply Z.mod_small. destruct IO as ((_ & PZ) & _). unfold size_of_piece in WL. lia.
Qed.

(** ** The other events *)
Lemma unchoke_acc t n H vs d p d' : Good t n H d -> Acc t n d -> unchokePeer t (vs p) p d = Ok d' -> Acc t n d'.
Proof.
  intros G A. unfold unchokePeer. destruct (aget p (dPeers d)) as [info|] eqn:E; [|intros K; injection K as <-; exact A].
  set (es := map (fun e => {| rIdx := rIdx e; rActive := 0; rBlocks := repeat false (length (rBlocks e)) |}) (cur info)).
  fold (with_ d p (setCur es info)). pose proof (g_inv _ _ _ _ G) as I.
  assert (A0 : activeOf es = 0). { unfold es, activeOf. clear. induction (cur info) as [|x l IH]; [reflexivity|]. cbn in *. lia. }
  assert (G1 : Good t n H (with_ d p (setCur es info))).
  { apply Good_cur; [exact G|exact E| | |lia].
    - unfold es. rewrite map_map. reflexivity.
    - apply Forall_forall. intros x X. apply in_map_iff in X. destruct X as (y & <- & Y). destruct (i_entry _ _ _ _ I p info y E Y) as ((E1 & E2) & _). split; cbn; [unfold zlen in *; now rewrite repeat_length|now rewrite ones_none]. }
  intros K. eapply evaluate_acc; [exact G1| |exact K]. eapply Acc_same; [| | |exact A]; reflexivity.
Qed.

Lemma entry_acc t n H vs d p d' : Good t n H d -> Acc t n d -> evaluateNextRequests t (vs p) p (withEntry p d) = Ok d' -> Acc t n d'.
Proof.
  intros G A K. eapply evaluate_acc; [apply (Good_entry _ _ _ _ p G)| |exact K]. unfold withEntry. destruct (aget p (dPeers d)); [exact A|]. eapply Acc_same; [| | |exact A]; reflexivity.
Qed.

Lemma closed_acc t n d p : Acc t n d -> Acc t n (connectionClosed p d).
Proof.
  intros A. unfold connectionClosed. destruct (aget p (dPeers d)) as [info|]; [|exact A]. destruct A as [N R U].
  set (f := fun (i : Z) (r : reqInfo) => if existsb (fun e => rIdx e =? i) (cur info) then removePeer p r else r).
  assert (Fp : forall i r, rPiece (f i r) = rPiece r) by (intros i r; unfold f; destruct (existsb _ _); reflexivity).
  change (map _ (dReqs d)) with (map (fun ir => (fst ir, f (fst ir) (snd ir))) (dReqs d)).
  split; cbn [dReqs dUnf dProg setPeers setReqs].
  - rewrite map_map. exact N.
  - intros i r. rewrite aget_map. destruct (aget i (dReqs d)) as [r0|] eqn:E; cbn; [|discriminate]. intros K. injection K as <-. rewrite Fp. now apply R.
  - exact U.
Qed.

Lemma checked_unf idx s r d d' : pieceChecked idx s r d = Ok d' -> dUnf d' = dUnf d.
Proof.
  unfold pieceChecked. destruct s; cbn [bind]; [intros K; now injection K as <-| |];
    (destruct (removePiece idx (dProg d)); cbn [bind]; [|discriminate]; intros K; now injection K as <-).
Qed.

Lemma drops_acc t n : forall gone d, Acc t n d -> Forall (fun i => aget i (dReqs d) <> None) gone -> NoDup gone ->
  Acc t n (fold_left (fun d idx => setReqs (adel idx (dReqs d)) (eraseAll idx d)) gone d).
Proof.
  induction gone as [|i gone IH]; intros d A F N; [exact A|]. cbn [fold_left]. inversion F; subst. inversion N; subst. apply IH; [| |assumption].
  - apply (drop_acc t n d i _ (dProg d) A); [reflexivity|reflexivity|reflexivity|assumption|auto].
  - apply Forall_forall. intros j J. rewrite Forall_forall in H2. cbn [dReqs setReqs]. rewrite aget_del_other; [now apply H2|]. congruence.
Qed.

Lemma evals_acc t n (H : Z -> Z -> Prop) vs : plain t n -> (forall p idx, has (vs p) idx = true -> H p idx) -> forall ps d d', Good t n H d -> Acc t n d ->
  fold_left (fun r p => bind r (evaluateNextRequests t (vs p) p)) ps (Ok d) = Ok d' -> Acc t n d'.
Proof.
  intros P HH. induction ps as [|p ps IH]; intros d d' G A; cbn [fold_left]; [intros K; injection K as <-; exact A|].
  cbn [bind]. destruct (eval_out t n H vs p d P (HH p) G) as (d1 & new & E1 & G1 & _). rewrite E1. intros K. eapply IH; [exact G1| |exact K]. exact (proj1 (evaluate_acc t n H (vs p) p d d1 G A E1)).
Qed.

Lemma NoDup_map_filter {A} (f : A -> Z) g l : NoDup (map f l) -> NoDup (map f (filter g l)).
Proof.
  induction l as [|x l IH]; cbn; [auto|]. intros N. inversion N; subst. destruct (g x); [|auto]. cbn. constructor; [|auto]. intros X. apply H1. apply in_map_iff in X. destruct X as (y & <- & Y). apply filter_In in Y. apply in_map, Y.
Qed.

Lemma select_acc t n (H : Z -> Z -> Prop) vs d pr sorted d' : plain t n -> (forall p idx, has (vs p) idx = true -> H p idx) -> Good t n H d -> Acc t n d ->
  zlen (pieces pr) = n -> flags_ok pr -> exact pr -> in_range n sorted -> (forall i, 0 <= i -> is_received pr i = is_received (dProg d) i) ->
  refreshSelection t vs pr sorted d = Ok d' -> Acc t n d'.
Proof.
  intros P HH G A L F X R KE. unfold refreshSelection. set (d1 := setSorted sorted (setProg pr d)).
  assert (G1 : Good t n H d1) by (apply Good_sorted; [apply Good_prog; assumption|exact R]).
  assert (A1 : Acc t n d1). { apply (prog_acc t n d d1 A); [reflexivity|reflexivity|]. intros j J. change (dProg d1) with pr. now rewrite KE. }
  set (gone := map fst (filter (fun ir => negb (isMissing d1 (fst ir))) (dReqs d1))).
  assert (Gn : forall i, In i gone -> aget i (dReqs d1) <> None /\ isMissing d1 i = false).
  { intros i. unfold gone. rewrite in_map_iff. rewrite aget_In_fst.
    intros (ir & <- & K). apply filter_In in K. destruct K as (K1 & K2). apply negb_true_iff in K2. split; [now apply in_map|exact K2]. }
  destruct (drops_ok t n H vs (fun _ _ _ => False) d gone d1 G1) as (G2 & _).
  { split; [reflexivity|]. split; [intros p i k Y; exact Y|]. split; [intros p i k Y; left; exact Y|]. intros p. change (load d1 p) with (load d p). lia. }
  { apply Forall_forall. intros i Y. now apply Gn in Y. }
  set (d2 := fold_left (fun d idx => setReqs (adel idx (dReqs d)) (eraseAll idx d)) gone d1) in *.
  assert (A2 : Acc t n d2).
  { apply drops_acc; [exact A1|apply Forall_forall; intros i Y; now apply Gn|]. unfold gone. apply NoDup_map_filter. exact (proj1 (NoDup_app_e _ _ (a_nodup _ _ _ A1))). }
  cbn zeta. fold d2. destruct (selectedFinished pr); [intros K; injection K as <-; exact A2|]. apply (evals_acc t n H vs P HH); assumption.
Qed.

Lemma stop_acc t n H d : Good t n H d -> Acc t n d -> Acc t n (stop d).
Proof.
  intros G [N R U]. destruct (NoDup_app_e _ _ N) as (N1 & N2 & N3). pose proof (g_inv _ _ _ _ G) as I.
  assert (X : forall u, In u (map (fun ir => rPiece (snd ir)) (dReqs d)) -> exists i r, aget i (dReqs d) = Some r /\ u = rPiece r /\ psIndex u = i /\ 0 <= i < n).
  { intros u H0. apply in_map_iff in H0. destruct H0 as ((i & r) & <- & K). cbn. assert (E : aget i (dReqs d) = Some r) by (apply In_aget; [exact N1|exact K]).
    destruct (i_req _ _ _ _ I i r E) as (Y & W & _). exists i, r. auto. }
  assert (M : map psIndex (map (fun ir => rPiece (snd ir)) (dReqs d)) = map fst (dReqs d)).
  { rewrite map_map. apply map_ext_in. intros (i & r) K. cbn. assert (E : aget i (dReqs d) = Some r) by (apply In_aget; [exact N1|exact K]). now destruct (i_req _ _ _ _ I i r E) as (_ & W & _). }
  assert (FF : forall l, filter nz (filter (fun s => negb (psSize s =? 0)) l) = filter nz l).
  { intros l. change (fun s => negb (psSize s =? 0)) with nz. induction l as [|x l IH]; [reflexivity|]. cbn. destruct (nz x) eqn:E; [cbn; now rewrite E, IH|exact IH]. }
  split; cbn [dReqs dUnf dProg stop setUnf setReqs setPeers].
  - cbn [map app]. rewrite filter_app, FF, map_app. apply NoDup_app_i; [exact N2|apply NoDup_map_filter; now rewrite M|].
    intros x X1 X2. apply (N3 x); [|exact X1]. rewrite <- M. apply in_map_iff in X2. destruct X2 as (u & <- & X2). apply filter_In in X2. apply in_map, X2.
  - discriminate.
  - intros u K. rewrite filter_app, FF in K. apply in_app_or in K. destruct K as [K|K]; [now apply U|]. apply filter_In in K. destruct K as (K & _). destruct (X u K) as (i & r & E & Y & Z & W).
    rewrite Z. split; [exact W|]. destruct (R i r E) as (R1 & R2). rewrite Y. auto.
Qed.

(** ** Histories *)
Lemma step_acc t n (H : Z -> Z -> Prop) vs d e d' : plain t n -> n < 4294967296 -> info_ok t -> n = lastPieceIndex t + 1 -> (forall p idx, has (vs p) idx = true -> H p idx) ->
  Good t n H d -> Acc t n d -> possible n e -> begins_inside t e -> keeps d e -> right_size t e -> dstep t vs d e = Ok d' -> Acc t n d'.
Proof.
  intros P Hn IO NL HH G A PO BI KE RS.
  destruct (step_ok t n H vs d e P Hn HH G PO BI) as (d0 & new & E0 & G0 & _ & SF). intros K. rewrite K in E0. injection E0 as <-.
  destruct e as [p b|p|p idx|p|p|k s|pr sorted|sorted|pr| |]; cbn [dstep] in K; cbn [possible begins_inside keeps] in PO, BI, KE.
  - destruct (selectedFinished (dProg d)); [injection K as <-; exact A|]. exact (block_acc t n H vs d p b d' P Hn IO NL G A PO BI RS K).
  - destruct (selectedFinished (dProg d)); [injection K as <-; exact A|]. exact (unchoke_acc t n H vs d p d' G A K).
  - destruct (selectedFinished (dProg d)); [injection K as <-; exact A|]. rewrite (wanted_missing d idx n (i_len _ _ _ _ (g_inv _ _ _ _ G)) PO) in K. cbn [bind] in K.
    destruct (isMissing d idx); [|injection K as <-; exact A]. exact (entry_acc t n H vs d p d' G A K).
  - destruct (selectedFinished (dProg d)); [injection K as <-; exact A|]. destruct (hasWantedPieces (vs p) d); [|injection K as <-; exact A]. exact (entry_acc t n H vs d p d' G A K).
  - injection K as <-. now apply closed_acc.
  - cbn [step_fact] in SF. destruct SF as (_ & _ & SR & SF). destruct (nth_error (dChecking d) k) as [[idx r]|] eqn:E; [|now subst d'].
    destruct SF as (I0 & _ & SF & _). apply (prog_acc t n d d' A); [exact SR|apply checked_unf in K; exact K|]. intros j J. destruct s.
    + destruct SF as (-> & _). auto.
    + destruct SF as (_ & SF). destruct (SF j J) as (-> & _). intros W. apply andb_true_iff in W. apply W.
    + destruct SF as (_ & SF). destruct (SF j J) as (-> & _). intros W. apply andb_true_iff in W. apply W.
  - destruct PO as (O1 & O2 & O3 & O4). exact (select_acc t n H vs d pr sorted d' P HH G A O1 O2 O3 O4 KE K).
  - injection K as <-. eapply Acc_same; [| | |exact A]; reflexivity.
  - injection K as <-. apply (prog_acc t n d _ A); [reflexivity|reflexivity|]. intros j J. cbn [dProg setProg]. now rewrite KE.
  - injection K as <-. eapply Acc_same; [| | |exact A]; reflexivity.
  - injection K as <-. eapply stop_acc; eassumption.
Qed.

Lemma start_acc t n pr unf stored : saved_ok t n pr unf -> Acc t n (newDl pr unf stored).
Proof.
  intros (S1 & S2). split; cbn [dReqs dUnf dProg newDl]; [exact S1|discriminate|]. rewrite Forall_forall in S2. exact S2.
Qed.

Lemma history_acc t n pr unf stored : start_ok t n pr unf stored -> n < 4294967296 -> info_ok t -> n = lastPieceIndex t + 1 -> saved_ok t n pr unf ->
  forall es d, history t n (newDl pr unf stored) es d -> Forall (fun ve => right_size t (snd ve)) es -> Acc t n d.
Proof.
  intros S Hn IO NL SO es d HI. induction HI as [|es d vs e d' HI IH PO BI KE ST]; intros RS; [now apply start_acc|].
  apply Forall_app in RS. destruct RS as (RS1 & RS2). inversion RS2; subst.
  assert (P : plain t (lastPieceIndex t + 1)) by apply S.
  set (HH := claimed (es ++ [(vs, e)])).
  assert (G : Good t (lastPieceIndex t + 1) HH d). { eapply Good_mono; [|eapply history_good; eassumption]. intros p i. apply claimed_app. }
  eapply (step_acc t _ HH vs d e d'); try eassumption; try reflexivity.
  - intros p i X. exists vs, e. split; [apply in_or_app; right; now left|exact X].
  - now apply IH.
Qed.
