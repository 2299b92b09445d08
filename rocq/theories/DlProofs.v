(** Proofs about the downloader *)
From Verif Require Import Base BaseLemmas LayoutModel ProgressModel Assoc DlModel DlSpec.

Lemma ones_upd l k : (k < length l)%nat -> nth k l false = false -> ones (upd k true l) = ones l + 1.
Proof.
  revert k. induction l as [|x l IH]; intros [|k] L N; simpl in L; try lia; unfold ones in *; cbn [upd nth filter] in *.
  - rewrite N. unfold zlen. cbn [length]. lia.
  - specialize (IH k ltac:(lia) N). destruct x; unfold zlen in *; cbn [length]; lia.
Qed.

Lemma ones_upd_false l k : (k < length l)%nat -> nth k l false = true -> ones (upd k false l) = ones l - 1.
Proof.
  revert k. induction l as [|x l IH]; intros [|k] L N; simpl in L; try lia; unfold ones in *; cbn [upd nth filter] in *.
  - rewrite N. unfold zlen. cbn [length]. lia.
  - specialize (IH k ltac:(lia) N). destruct x; unfold zlen in *; cbn [length]; lia.
Qed.

Lemma ones_nonneg l : 0 <= ones l.
Proof. unfold ones, zlen. lia. Qed.

Lemma ones_none n : ones (repeat false n) = 0.
Proof. unfold ones. induction n; [reflexivity|exact IHn]. Qed.

Lemma zeros_upd l k : (k < length l)%nat -> nth k l 1 = 0 -> zeros (upd k 1 l) = zeros l - 1.
Proof.
  revert k. induction l as [|x l IH]; intros [|k] L N; simpl in L; try lia; unfold zeros in *; cbn [upd nth filter] in *.
  - subst x. cbn. unfold zlen. cbn [length]. lia.
  - specialize (IH k ltac:(lia) N). destruct (0 =? x); unfold zlen in *; cbn [length]; lia.
Qed.

Lemma zeros_In l : 0 < zeros l <-> exists k, (k < length l)%nat /\ nth k l 1 = 0.
Proof.
  unfold zeros. induction l as [|x l IH]; cbn [filter].
  - split; [unfold zlen; cbn; lia|]. intros (k & L & _). simpl in L. lia.
  - destruct (Z.eqb_spec 0 x).
    + split; [|unfold zlen; cbn [length]; lia]. intros _. exists 0%nat. split; [simpl; lia|]. cbn. congruence.
    + rewrite IH. split; intros (k & L & N).
      * exists (S k). split; [simpl; lia|exact N].
      * destruct k as [|k]; [cbn in N; congruence|]. exists k. split; [simpl in L; lia|exact N].
Qed.

Lemma zeros_repeat n : zeros (repeat 0 n) = Z.of_nat n.
Proof. unfold zeros. induction n; [reflexivity|]. cbn [repeat filter]. change (0 =? 0) with true. cbn match. unfold zlen in *. cbn [length]. lia. Qed.

(** ** Asking for blocks of one piece *)
Lemma sendLoop_ok t idx bc max states : forall n next blocks count,
  0 < bc -> 0 <= next < bc -> zlen blocks = bc -> count < max ->
  exists b' ks, sendLoop n t idx bc next max states blocks count = Ok (b', count + zlen ks, map (getPieceBlockInfo t idx) ks) /\
    length b' = length blocks /\ ones b' = ones blocks + zlen ks /\ count + zlen ks <= max /\ NoDup ks /\
    Forall (fun k => 0 <= k < bc /\ nth (Z.to_nat k) states 1 = 0 /\ nth (Z.to_nat k) blocks false = false) ks /\
    (forall k, 0 <= k -> (nth (Z.to_nat k) b' false = true <-> nth (Z.to_nat k) blocks false = true \/ In k ks)) /\
    (count + zlen ks < max -> forall j, 0 <= j < Z.of_nat n -> nth (Z.to_nat ((next + j) mod bc)) states 1 = 0 ->
       nth (Z.to_nat ((next + j) mod bc)) b' false = true).
Proof.
  induction n as [|n IH]; intros next blocks count Hbc Hn Lb Hc; cbn [sendLoop].
  - exists blocks, []. cbn [map]. replace (count + zlen (@nil Z)) with count by (unfold zlen; cbn; lia).
    repeat (apply conj); try reflexivity; try (unfold zlen; cbn; lia); try constructor.
    + intros N. now left.
    + intros [N|N]; [assumption|contradiction].
  - assert (S1 : exists b1 k1, (if nth (Z.to_nat next) states 1 =? 0 then
            if (Z.to_nat next <? length blocks)%nat then
              if nth (Z.to_nat next) blocks false then Ok (blocks, count, [])
              else Ok (upd (Z.to_nat next) true blocks, count + 1, [getPieceBlockInfo t idx next])
            else UB
          else Ok (blocks, count, [])) = Ok (b1, count + zlen k1, map (getPieceBlockInfo t idx) k1) /\
       length b1 = length blocks /\ ones b1 = ones blocks + zlen k1 /\ count + zlen k1 <= max /\ NoDup k1 /\
       Forall (fun k => 0 <= k < bc /\ nth (Z.to_nat k) states 1 = 0 /\ nth (Z.to_nat k) blocks false = false) k1 /\
       (forall k, 0 <= k -> (nth (Z.to_nat k) b1 false = true <-> nth (Z.to_nat k) blocks false = true \/ In k k1)) /\
       (nth (Z.to_nat next) states 1 = 0 -> nth (Z.to_nat next) b1 false = true)).
    { assert (Same : (nth (Z.to_nat next) states 1 = 0 -> nth (Z.to_nat next) blocks false = true) ->
        exists b1 k1, Ok (blocks, count, []) = Ok (b1, count + zlen k1, map (getPieceBlockInfo t idx) k1) /\
       length b1 = length blocks /\ ones b1 = ones blocks + zlen k1 /\ count + zlen k1 <= max /\ NoDup k1 /\
       Forall (fun k => 0 <= k < bc /\ nth (Z.to_nat k) states 1 = 0 /\ nth (Z.to_nat k) blocks false = false) k1 /\
       (forall k, 0 <= k -> (nth (Z.to_nat k) b1 false = true <-> nth (Z.to_nat k) blocks false = true \/ In k k1)) /\
       (nth (Z.to_nat next) states 1 = 0 -> nth (Z.to_nat next) b1 false = true)).
      { intros D. exists blocks, []. cbn [map]. replace (count + zlen (@nil Z)) with count by (unfold zlen; cbn; lia).
        repeat (apply conj); try reflexivity; try (unfold zlen; cbn; lia); try constructor; try assumption.
        - intros N. now left.
        - intros [N|N]; [assumption|contradiction]. }
      destruct (Z.eqb_spec (nth (Z.to_nat next) states 1) 0) as [E|E]; [|apply Same; congruence].
      assert (Ln : (Z.to_nat next < length blocks)%nat) by (unfold zlen in Lb; lia).
      destruct (Nat.ltb_spec (Z.to_nat next) (length blocks)); [|lia].
      destruct (nth (Z.to_nat next) blocks false) eqn:F; [now apply Same|]. clear Same.
      exists (upd (Z.to_nat next) true blocks), [next]. replace (zlen [next]) with 1 by reflexivity. rewrite upd_length.
      refine (conj eq_refl (conj eq_refl (conj (ones_upd _ _ Ln F) (conj _ (conj _ (conj _ (conj _ _))))))).
      - lia.
      - constructor; [tauto|constructor].
      - constructor; [|constructor]. auto.
      - intros k Hk. destruct (Z.eq_dec k next) as [->|N].
        + rewrite nth_upd_same by assumption. split; [intros _; right; now left|reflexivity].
        + rewrite nth_upd_other by lia. split; [now left|]. intros [K|[K|[]]]; [assumption|congruence].
      - intros _. now apply nth_upd_same. }
    destruct S1 as (b1 & k1 & S1 & L1 & O1 & M1 & N1 & F1 & I1 & D1). rewrite S1. cbn [bind].
    destruct (Z.eqb_spec (count + zlen k1) max) as [E|E].
    + exists b1, k1. refine (conj eq_refl (conj L1 (conj O1 (conj M1 (conj N1 (conj F1 (conj I1 _))))))). intros K. lia.
    + assert (B : 0 <= (next + 1) mod bc < bc) by (apply Z.mod_pos_bound; lia).
      destruct (IH ((next + 1) mod bc) b1 (count + zlen k1) Hbc B) as (b2 & k2 & S2 & L2 & O2 & M2 & N2 & F2 & I2 & D2); [unfold zlen in *; lia|lia|].
      rewrite S2. cbn [bind]. exists b2, (k1 ++ k2).
      assert (Z12 : zlen (k1 ++ k2) = zlen k1 + zlen k2) by apply zlen_app.
      rewrite Z12, map_app. replace (count + (zlen k1 + zlen k2)) with (count + zlen k1 + zlen k2) by lia.
      refine (conj eq_refl (conj _ (conj _ (conj M2 (conj _ (conj _ (conj _ _))))))).
      * congruence.
      * lia.
      * rewrite Forall_forall in F1, F2. clear - N1 N2 F1 F2 I1.
        assert (X : forall x, In x k1 -> ~ In x k2).
        { intros x K1 K2. destruct (F2 x K2) as (A & _ & B). destruct (I1 x ltac:(lia)) as [_ J]. rewrite J in B by now right. discriminate. }
        clear - N1 N2 X. induction N1 as [|x k1 NX N1 IH]; [exact N2|]. cbn. constructor.
        -- rewrite in_app_iff. intros [K|K]; [contradiction|]. now apply (X x); [left|].
        -- apply IH. intros y K. apply X. now right.
      * apply Forall_app. split; [assumption|]. eapply Forall_impl; [|exact F2]. intros k (A & B2 & C). split; [assumption|]. split; [assumption|].
        destruct (nth (Z.to_nat k) blocks false) eqn:G; [|reflexivity]. destruct (I1 k ltac:(lia)) as [_ J]. rewrite J in C by now left. discriminate.
      * intros k Hk. rewrite (I2 k Hk), (I1 k Hk), in_app_iff. tauto.
      * intros K j Hj Ej. destruct (Z.eq_dec j 0) as [->|Nj].
        -- rewrite Z.add_0_r, Z.mod_small in * by lia. specialize (D1 Ej). apply I2; [lia|]. now left.
        -- specialize (D2 ltac:(lia) (j - 1) ltac:(lia)). rewrite Zplus_mod_idemp_l in D2. replace (next + 1 + (j - 1)) with (next + j) in D2 by lia. auto.
Qed.

Definition entryOk (t : torrentInfo) (e : reqPiece) : Prop := zlen (rBlocks e) = getPieceBlocksCount t (rIdx e) /\ rActive e = ones (rBlocks e).

(** [H p idx]: the peer was seen with the piece *)
Record Inv (t : torrentInfo) (n : Z) (H : Z -> Z -> Prop) (d : dl) : Prop := {
  i_len : zlen (pieces (dProg d)) = n;
  i_keys : NoDup (map fst (dReqs d));
  i_pkeys : NoDup (map fst (dPeers d));
  i_req : forall idx r, aget idx (dReqs d) = Some r -> 0 <= idx < n /\ partway t idx (rPiece r);
  i_unf : forall u, In u (dUnf d) -> psBlocks u = [] \/ partway t (psIndex u) u;
  i_nodup : forall p info, aget p (dPeers d) = Some info -> NoDup (map rIdx (cur info));
  i_entry : forall p info e, aget p (dPeers d) = Some info -> In e (cur info) ->
              entryOk t e /\ (exists r, aget (rIdx e) (dReqs d) = Some r /\ In p (rPeers r)) /\ H p (rIdx e);
  i_active : forall p info, aget p (dPeers d) = Some info -> activeOf (cur info) <= 100;
  i_peers : forall idx r p, aget idx (dReqs d) = Some r -> In p (rPeers r) -> exists info, aget p (dPeers d) = Some info /\ In idx (map rIdx (cur info));
  i_sorted : in_range n (dSorted d)
}.

(** Every piece a peer works on, or worked on, was asked from it *)
Definition Asked (t : torrentInfo) (d : dl) : Prop := forall p info idx, aget p (dPeers d) = Some info ->
  In idx (asked info) \/ In idx (map rIdx (cur info)) -> exists k, 0 <= k < getPieceBlocksCount t idx /\ In (p, getPieceBlockInfo t idx k) (dSent d).

Lemma sendPieceRequests_ok t n e r max : plain t n -> 0 <= rIdx e < n -> partway t (rIdx e) (rPiece r) -> entryOk t e -> 0 < max <= 100 -> ones (rBlocks e) <= 100 ->
  exists b' ks, sendPieceRequests t e r max = Ok (zlen ks, {| rIdx := rIdx e; rActive := ones b'; rBlocks := b' |},
        {| rPiece := rPiece r; rCounter := u16 (rCounter r + zlen ks); rPeers := rPeers r; rSources := rSources r; rGroups := rGroups r |},
        map (getPieceBlockInfo t (rIdx e)) ks) /\
    length b' = length (rBlocks e) /\ ones b' = ones (rBlocks e) + zlen ks /\ zlen ks <= max /\ NoDup ks /\
    Forall (fun k => 0 <= k < getPieceBlocksCount t (rIdx e) /\ nth (Z.to_nat k) (psBlocks (rPiece r)) 1 = 0 /\ nth (Z.to_nat k) (rBlocks e) false = false) ks /\
    (forall k, 0 <= k -> (nth (Z.to_nat k) b' false = true <-> nth (Z.to_nat k) (rBlocks e) false = true \/ In k ks)) /\
    (zlen ks < max -> forall k, 0 <= k < getPieceBlocksCount t (rIdx e) -> nth (Z.to_nat k) (psBlocks (rPiece r)) 1 = 0 -> nth (Z.to_nat k) b' false = true).
Proof.
  intros P Hi (S1 & S2 & S3 & S4) (E1 & E2) M O. specialize (P _ Hi). unfold sendPieceRequests. rewrite S2.
  assert (U : u16 (getPieceBlocksCount t (rIdx e)) = getPieceBlocksCount t (rIdx e)) by (unfold u16; apply Z.mod_small; lia). rewrite U.
  set (bc := getPieceBlocksCount t (rIdx e)) in *. destruct (Z.eqb_spec bc 0); [lia|].
  assert (B : 0 <= rCounter r mod bc < bc) by (apply Z.mod_pos_bound; lia).
  destruct (sendLoop_ok t (rIdx e) bc max (psBlocks (rPiece r)) (Z.to_nat bc) (rCounter r mod bc) (rBlocks e) 0) as (b' & ks & S & L & ON & MX & ND & F & I & D); [lia|assumption|assumption|lia|].
  rewrite Z.add_0_l in *. rewrite S. cbn [bind]. exists b', ks.
  assert (A : u32 (rActive e + zlen ks) = ones b').
  { rewrite E2, ON. unfold u32. apply Z.mod_small. pose proof (ones_nonneg (rBlocks e)). assert (0 <= zlen ks) by (unfold zlen; lia). lia. }
  rewrite A. refine (conj eq_refl (conj L (conj ON (conj MX (conj ND (conj F (conj I _))))))).
  intros K k Hk Ek. set (c := rCounter r mod bc) in *.
  destruct (Z_lt_le_dec k c) as [C|C].
  - assert (X : (c + (bc - c + k)) mod bc = k) by (replace (c + (bc - c + k)) with (k + 1 * bc) by lia; rewrite Z_mod_plus_full; apply Z.mod_small; lia).
    specialize (D K (bc - c + k) ltac:(lia)). rewrite X in D. auto.
  - assert (X : (c + (k - c)) mod bc = k) by (replace (c + (k - c)) with k by lia; apply Z.mod_small; lia).
    specialize (D K (k - c) ltac:(lia)). rewrite X in D. auto.
Qed.

Definition with_ (d : dl) (p : Z) (info : peerInfo) : dl := setPeers (aset p info (dPeers d)) d.

(** What evaluating a peer changes *)
Definition Frame (d d' : dl) : Prop :=
  dPeers d' = dPeers d /\ dProg d' = dProg d /\ dSorted d' = dSorted d /\ dChecking d' = dChecking d /\ dFresh d' = dFresh d /\ dGroup d' = dGroup d /\
  dStored d' = dStored d /\ dAnnounced d' = dAnnounced d.

Definition Delta (t : torrentInfo) (H : Z -> Z -> Prop) (p : Z) (info : peerInfo) (d : dl) (info' : peerInfo) (d' : dl) : Prop :=
  Frame d d' /\ suspGroup info' = suspGroup info /\ suspicion info' = suspicion info /\
  (forall idx r, aget idx (dReqs d) = Some r -> exists r', aget idx (dReqs d') = Some r' /\ rPiece r' = rPiece r /\ rSources r' = rSources r) /\
  (forall idx r', aget idx (dReqs d') = Some r' -> aget idx (dReqs d) = None -> isMissing d idx = true /\
     (rPiece r' = initPiece idx (getPieceBlocksCount t idx) \/ (In (rPiece r') (dUnf d) /\ psBlocks (rPiece r') <> []))) /\
  (forall u, In u (dUnf d') -> In u (dUnf d) \/ psBlocks u = []) /\
  incl (map rIdx (cur info)) (map rIdx (cur info')) /\
  exists ks, dSent d' = dSent d ++ map (fun ik => (p, getPieceBlockInfo t (fst ik) (snd ik))) ks /\ NoDup ks /\
    activeOf (cur info') = activeOf (cur info) + zlen ks /\
    Forall (fun ik => 0 <= snd ik < getPieceBlocksCount t (fst ik) /\ ~ flagged info (fst ik) (snd ik) /\ H p (fst ik) /\
              exists r', aget (fst ik) (dReqs d') = Some r' /\ nth (Z.to_nat (snd ik)) (psBlocks (rPiece r')) 1 = 0) ks /\
    (forall i k, flagged info' i k <-> flagged info i k \/ In (i, k) ks).

Lemma NoDup_app_i {A} (l1 l2 : list A) : NoDup l1 -> NoDup l2 -> (forall x, In x l1 -> ~ In x l2) -> NoDup (l1 ++ l2).
Proof.
  intros N1 N2 X. induction N1 as [|x l1 NX N1 IH]; [exact N2|]. cbn. constructor.
  - rewrite in_app_iff. intros [K|K]; [contradiction|]. now apply (X x); [left|].
  - apply IH. intros y K. apply X. now right.
Qed.

Lemma NoDup_map_pair {A B} (a : A) (l : list B) : NoDup l -> NoDup (map (pair a) l).
Proof. induction 1; cbn; constructor; [|assumption]. intros X. apply in_map_iff in X. destruct X as (y & X & Y). congruence. Qed.

Lemma Frame_refl d : Frame d d.
Proof. unfold Frame. repeat split. Qed.

Lemma Frame_trans a b c : Frame a b -> Frame b c -> Frame a c.
Proof. unfold Frame. intuition congruence. Qed.

Lemma isMissing_frame d d' idx : Frame d d' -> isMissing d' idx = isMissing d idx.
Proof. intros (_ & E & _). unfold isMissing. now rewrite E. Qed.

Lemma Delta_refl t H p info d : Delta t H p info d info d.
Proof.
  split; [apply Frame_refl|]. split; [reflexivity|]. split; [reflexivity|]. split; [intros idx r E; now exists r|]. split; [congruence|]. split; [auto|].
  split; [apply incl_refl|]. exists []. rewrite app_nil_r. split; [reflexivity|]. split; [constructor|]. split; [unfold zlen; cbn; lia|]. split; [constructor|].
  intros i k. split; [auto|]. intros [K|[]]. exact K.
Qed.

Lemma Delta_trans t H p i1 d1 i2 d2 i3 d3 : Delta t H p i1 d1 i2 d2 -> Delta t H p i2 d2 i3 d3 -> Delta t H p i1 d1 i3 d3.
Proof.
  intros (F1 & G1 & G2 & R1 & N1 & U1 & C1 & k1 & S1 & D1 & A1 & O1 & I1) (F2 & G3 & G4 & R2 & N2 & U2 & C2 & k2 & S2 & D2 & A2 & O2 & I2).
  split; [eapply Frame_trans; eassumption|]. split; [congruence|]. split; [congruence|].
  split. { intros idx r E. destruct (R1 idx r E) as (r' & E' & P' & Q'). destruct (R2 idx r' E') as (r2 & E2 & P2 & Q2). exists r2. split; [assumption|]. split; congruence. }
  split.
  { intros idx r E No. destruct (aget idx (dReqs d2)) as [r2|] eqn:E2.
    - destruct (N1 idx r2 E2 No) as (M & X). split; [exact M|]. destruct (R2 idx r2 E2) as (r3 & E3 & P3 & _). rewrite E in E3. injection E3 as <-. rewrite P3. exact X.
    - destruct (N2 idx r E E2) as (M & X). rewrite (isMissing_frame d1 d2) in M by assumption. split; [exact M|]. destruct X as [X|[X Y]]; [now left|].
      right. split; [|exact Y]. destruct (U1 _ X) as [Z|Z]; [exact Z|contradiction]. }
  split. { intros u K. destruct (U2 u K) as [X|X]; [exact (U1 u X)|now right]. }
  split; [eapply incl_tran; eassumption|].
  exists (k1 ++ k2). rewrite S2, S1, map_app, app_assoc. split; [reflexivity|].
  split. { apply NoDup_app_i; [assumption|assumption|]. intros [i k] X1 X2. rewrite Forall_forall in O2. destruct (O2 _ X2) as (_ & X & _). apply X. apply I1. now right. }
  split. { rewrite zlen_app. lia. }
  split.
  { apply Forall_app. split.
    - eapply Forall_impl; [|exact O1]. intros ik (X1 & X2 & X3 & r & X4 & X5). destruct (R2 _ _ X4) as (r2 & E2 & P2 & _). repeat (split; [assumption|]). exists r2. rewrite P2. auto.
    - eapply Forall_impl; [|exact O2]. intros ik (X1 & X2 & X3). split; [assumption|]. split; [|assumption]. intros X. apply X2. apply I1. now left. }
  intros i k. rewrite (I2 i k), (I1 i k), in_app_iff. tauto.
Qed.

Lemma activeOf_app a b : activeOf (a ++ b) = activeOf a + activeOf b.
Proof. unfold activeOf. induction a as [|x a IH]; cbn; lia. Qed.

Lemma activeOf_nonneg t l : Forall (entryOk t) l -> 0 <= activeOf l.
Proof. unfold activeOf. induction 1 as [|x l (_ & E) _ IH]; cbn; [lia|]. pose proof (ones_nonneg (rBlocks x)). lia. Qed.

Definition complete (t : torrentInfo) (d : dl) (e : reqPiece) : Prop := forall r k, aget (rIdx e) (dReqs d) = Some r ->
  0 <= k < getPieceBlocksCount t (rIdx e) -> nth (Z.to_nat k) (psBlocks (rPiece r)) 1 = 0 -> nth (Z.to_nat k) (rBlocks e) false = true.

Lemma complete_delta t H p i d i' d' e : Delta t H p i d i' d' -> aget (rIdx e) (dReqs d) <> None -> complete t d e -> complete t d' e.
Proof.
  intros (_ & _ & _ & R & _) N C r k E B Z. destruct (aget (rIdx e) (dReqs d)) as [r0|] eqn:E0; [|congruence]. destruct (R _ _ E0) as (r' & E' & P' & _).
  rewrite E in E'. injection E' as <-. rewrite P' in Z. exact (C r0 k E0 B Z).
Qed.

Lemma with_get d p info q : aget q (dPeers (with_ d p info)) = if q =? p then Some info else aget q (dPeers d).
Proof. unfold with_. cbn. destruct (Z.eqb_spec q p) as [->|N]; [apply aget_set_same|now apply aget_set_other]. Qed.

(** All that matters of the peer at work *)
Lemma send_step t n H d p info pre e post r max : plain t n -> Inv t n H (with_ d p info) -> cur info = pre ++ e :: post ->
  aget (rIdx e) (dReqs d) = Some r -> 0 < max -> activeOf (cur info) + max <= 100 ->
  exists n' e' r' out, sendPieceRequests t e r max = Ok (n', e', r', out) /\
    let info' := setCur (pre ++ e' :: post) info in
    let d' := addSent p out (setReqs (aset (rIdx e) r' (dReqs d)) d) in
    Inv t n H (with_ d' p info') /\ Delta t H p info d info' d' /\ activeOf (cur info') = activeOf (cur info) + n' /\ n' <= max /\ rIdx e' = rIdx e /\
    (n' < max -> complete t d' e') /\ rPeers r' = rPeers r /\ rPiece r' = rPiece r /\
    (ones (rBlocks e) = 0 -> exists k, 0 <= k < getPieceBlocksCount t (rIdx e) /\ In (getPieceBlockInfo t (rIdx e) k) out).
Proof.
  intros P I C A M B.
  assert (G : aget p (dPeers (with_ d p info)) = Some info) by (rewrite with_get, Z.eqb_refl; reflexivity).
  assert (Ie : In e (cur info)) by (rewrite C; apply in_or_app; right; now left).
  destruct (i_entry _ _ _ _ I p info e G Ie) as (E1 & _ & Hp).
  destruct (i_req _ _ _ _ I (rIdx e) r A) as (Hi & S).
  assert (Fe : Forall (entryOk t) (cur info)). { apply Forall_forall. intros x X. now destruct (i_entry _ _ _ _ I p info x G X). }
  assert (AA : activeOf (cur info) = activeOf pre + (ones (rBlocks e) + activeOf post)).
  { rewrite C, activeOf_app. unfold activeOf at 2. cbn [fold_right]. fold (activeOf post). destruct E1 as [_ E1]. lia. }
  assert (N1 : 0 <= activeOf pre). { apply (activeOf_nonneg t). rewrite C in Fe. apply Forall_app in Fe. tauto. }
  assert (N2 : 0 <= activeOf post). { apply (activeOf_nonneg t). rewrite C in Fe. apply Forall_app in Fe. destruct Fe as [_ Fe]. now inversion Fe. }
  pose proof (ones_nonneg (rBlocks e)) as N3.
  destruct (sendPieceRequests_ok t n e r max P Hi S E1) as (b' & ks & SP & L & ON & MX & ND & F & FL & D); [lia|lia|].
  do 4 eexists. split; [exact SP|]. cbn zeta.
  set (e' := {| rIdx := rIdx e; rActive := ones b'; rBlocks := b' |}) in *.
  set (r' := {| rPiece := rPiece r; rCounter := u16 (rCounter r + zlen ks); rPeers := rPeers r; rSources := rSources r; rGroups := rGroups r |}) in *.
  set (d' := addSent p (map (getPieceBlockInfo t (rIdx e)) ks) (setReqs (aset (rIdx e) r' (dReqs d)) d)).
  set (info' := setCur (pre ++ e' :: post) info).
  assert (RD : dReqs d' = aset (rIdx e) r' (dReqs d)) by reflexivity.
  assert (AC : activeOf (cur info') = activeOf (cur info) + zlen ks).
  { unfold info'. cbn [cur setCur]. rewrite activeOf_app. unfold activeOf at 2. cbn [fold_right]. fold (activeOf post). cbn [rActive e']. lia. }
  assert (MI : map rIdx (cur info') = map rIdx (cur info)).
  { unfold info'. cbn [cur setCur]. rewrite C, !map_app. reflexivity. }
  assert (RR : forall idx rr, aget idx (dReqs d') = Some rr -> exists r0, aget idx (dReqs d) = Some r0 /\ rPiece rr = rPiece r0 /\ rPeers rr = rPeers r0 /\ rSources rr = rSources r0).
  { intros idx rr. rewrite RD. destruct (Z.eq_dec idx (rIdx e)) as [->|N].
    - rewrite aget_set_same. intros X. injection X as <-. exists r. auto.
    - rewrite aget_set_other by assumption. intros X. exists rr. auto. }
  assert (RB : forall idx rr, aget idx (dReqs d) = Some rr -> exists r0, aget idx (dReqs d') = Some r0 /\ rPiece r0 = rPiece rr /\ rPeers r0 = rPeers rr /\ rSources r0 = rSources rr).
  { intros idx rr X. rewrite RD. destruct (Z.eq_dec idx (rIdx e)) as [->|N].
    - rewrite aget_set_same. exists r'. rewrite A in X. injection X as <-. auto.
    - rewrite aget_set_other by assumption. exists rr. auto. }
  assert (NDc : NoDup (map rIdx (cur info))) by exact (i_nodup _ _ _ _ I p info G).
  split.
  { split.
    - exact (i_len _ _ _ _ I).
    - change (NoDup (map fst (dReqs d'))). rewrite RD. apply NoDup_aset. exact (i_keys _ _ _ _ I).
    - change (NoDup (map fst (aset p info' (dPeers d)))). pose proof (i_pkeys _ _ _ _ I) as K. cbn in K.
      assert (Q : map fst (aset p info' (dPeers d)) = map fst (aset p info (dPeers d))).
      { clear. induction (dPeers d) as [|[k v] m IH]; [reflexivity|]. cbn. destruct (k =? p); [reflexivity|]. cbn. now rewrite IH. }
      now rewrite Q.
    - intros idx rr X. destruct (RR idx rr X) as (r0 & X0 & Y & _). rewrite Y. exact (i_req _ _ _ _ I idx r0 X0).
    - exact (i_unf _ _ _ _ I).
    - intros q inf. rewrite with_get. destruct (Z.eqb_spec q p) as [->|N].
      + intros X. injection X as <-. now rewrite MI.
      + intros X. apply (i_nodup _ _ _ _ I q inf). rewrite with_get. now destruct (Z.eqb_spec q p).
    - intros q inf x. rewrite with_get. destruct (Z.eqb_spec q p) as [->|N].
      + intros X. injection X as <-. unfold info'. cbn [cur setCur]. intros K.
        assert (Kx : x = e' \/ In x (cur info)).
        { rewrite C. apply in_app_or in K. destruct K as [K|[K|K]]; [right; apply in_or_app; now left|left; congruence|right; apply in_or_app; right; now right]. }
        destruct Kx as [->|Kx].
        * split; [|split; [|exact Hp]].
          -- destruct E1 as [E1 _]. split; [|reflexivity]. cbn. unfold zlen in *. rewrite L. exact E1.
          -- destruct (i_entry _ _ _ _ I p info e G Ie) as (_ & (r0 & X0 & Y0) & _). cbn [rIdx e']. destruct (RB _ _ X0) as (r1 & Z1 & Z2 & Z3 & _). exists r1. split; [exact Z1|]. now rewrite Z3.
        * destruct (i_entry _ _ _ _ I p info x G Kx) as (Q1 & (r0 & X0 & Y0) & Q3). split; [exact Q1|]. split; [|exact Q3].
          destruct (RB _ _ X0) as (r1 & Z1 & Z2 & Z3 & _). exists r1. split; [exact Z1|]. now rewrite Z3.
      + intros X K. assert (X' : aget q (dPeers (with_ d p info)) = Some inf) by (rewrite with_get; now destruct (Z.eqb_spec q p)).
        destruct (i_entry _ _ _ _ I q inf x X' K) as (Q1 & (r0 & X0 & Y0) & Q3). split; [exact Q1|]. split; [|exact Q3].
        destruct (RB _ _ X0) as (r1 & Z1 & Z2 & Z3 & _). exists r1. split; [exact Z1|]. now rewrite Z3.
    - intros q inf. rewrite with_get. destruct (Z.eqb_spec q p) as [->|N].
      + intros X. injection X as <-. rewrite AC. lia.
      + intros X. apply (i_active _ _ _ _ I q inf). rewrite with_get. now destruct (Z.eqb_spec q p).
    - intros idx rr q X K. destruct (RR idx rr X) as (r0 & X0 & _ & Y & _). rewrite Y in K. destruct (i_peers _ _ _ _ I idx r0 q X0 K) as (inf & Z1 & Z2).
      rewrite with_get in Z1 |- *. destruct (Z.eqb_spec q p) as [->|N].
      + injection Z1 as <-. exists info'. split; [reflexivity|]. now rewrite MI.
      + exists inf. auto.
    - exact (i_sorted _ _ _ _ I). }
  split.
  { split; [unfold Frame; repeat split|]. split; [reflexivity|]. split; [reflexivity|].
    split. { intros idx r0 X. destruct (RB idx r0 X) as (r1 & Z1 & Z2 & _ & Z3). exists r1. auto. }
    split. { intros idx r0 X No. destruct (RR idx r0 X) as (r1 & Z1 & _). congruence. }
    split; [auto|]. split; [rewrite MI; apply incl_refl|].
    exists (map (pair (rIdx e)) ks). cbn [dSent d' addSent setReqs]. rewrite !map_map. cbn [fst snd].
    split; [reflexivity|]. split. { apply NoDup_map_pair. exact ND. }
    split. { rewrite AC. unfold zlen. now rewrite map_length. }
    split.
    { apply Forall_forall. intros ik K. apply in_map_iff in K. destruct K as (k & <- & K). cbn [fst snd]. rewrite Forall_forall in F. destruct (F k K) as (F1 & F2 & F3).
      split; [exact F1|]. split; [|split; [exact Hp|]].
      - intros (x & X1 & X2 & X3 & X4).
        assert (x = e). { clear - NDc X1 X2 Ie. induction (cur info) as [|y l IH]; [contradiction|]. cbn in NDc. inversion NDc; subst. destruct X1 as [->|X1], Ie as [->|Ie]; auto.
          - exfalso. apply H1. rewrite X2. now apply in_map. - exfalso. apply H1. rewrite <- X2. now apply in_map. }
        subst x. congruence.
      - exists r'. split; [|exact F2]. rewrite RD. apply aget_set_same. }
    intros i k. split.
    - intros (x & X1 & X2 & X3 & X4). unfold info' in X1. cbn [cur setCur] in X1. apply in_app_or in X1. destruct X1 as [X1|[X1|X1]].
      + left. exists x. rewrite C. split; [apply in_or_app; now left|auto].
      + subst x. cbn [rIdx rBlocks e'] in *. subst i. apply FL in X4; [|assumption]. destruct X4 as [X4|X4]; [left; exists e; auto|right; now apply in_map].
      + left. exists x. rewrite C. split; [apply in_or_app; right; now right|auto].
    - intros [(x & X1 & X2 & X3 & X4)|X].
      + rewrite C in X1. apply in_app_or in X1. unfold flagged, info'. cbn [cur setCur]. destruct X1 as [X1|[X1|X1]].
        * exists x. split; [apply in_or_app; now left|auto].
        * subst x. exists e'. split; [apply in_or_app; right; now left|]. split; [exact X2|]. split; [exact X3|]. cbn. apply FL; [assumption|now left].
        * exists x. split; [apply in_or_app; right; now right|auto].
      + apply in_map_iff in X. destruct X as (k0 & X1 & X2). injection X1 as <- <-. exists e'. unfold info'. cbn [cur setCur].
        rewrite Forall_forall in F. destruct (F k0 X2) as (F1 & _). split; [apply in_or_app; right; now left|]. split; [reflexivity|]. split; [lia|]. cbn. apply FL; [lia|now right]. }
  split; [exact AC|]. split; [exact MX|]. split; [reflexivity|].
  split. { intros K r0 k X B0 Z0. cbn [rIdx e'] in *. rewrite RD, aget_set_same in X. injection X as <-. cbn in *. exact (D K k B0 Z0). }
  split; [reflexivity|]. split; [reflexivity|].
  intros O0. destruct S as (_ & S2 & _ & S4). apply zeros_In in S4. destruct S4 as (k & K1 & K2).
  assert (Ck : 0 <= Z.of_nat k < getPieceBlocksCount t (rIdx e)) by (unfold zlen in S2; lia).
  destruct ks as [|k0 ks].
  - exfalso. specialize (D ltac:(unfold zlen; cbn; lia) (Z.of_nat k) Ck). rewrite Nat2Z.id in D. specialize (D K2). rewrite <- (Nat2Z.id k) in D. apply FL in D; [|lia].
    destruct D as [D|[]]. rewrite Nat2Z.id in D. unfold ones, zlen in O0.
    assert (X : In true (filter (fun b => b) (rBlocks e))). { apply filter_In. split; [|reflexivity]. rewrite <- D. apply nth_In. destruct E1 as [E1 _]. unfold zlen in E1. lia. }
    destruct (filter (fun b => b) (rBlocks e)); [contradiction|]. cbn in O0. lia.
  - exists k0. inversion F; subst. split; [tauto|]. now left.
Qed.

Lemma setCur_id info : setCur (cur info) info = info.
Proof. now destruct info. Qed.

Lemma getRequest_known t d idx r : aget idx (dReqs d) = Some r -> getRequest t d idx = (r, d).
Proof. unfold getRequest. now intros ->. Qed.

Lemma cur_req t n H d p info e : Inv t n H (with_ d p info) -> In e (cur info) -> exists r, aget (rIdx e) (dReqs d) = Some r /\ In p (rPeers r) /\ H p (rIdx e).
Proof.
  intros I K. assert (G : aget p (dPeers (with_ d p info)) = Some info) by (rewrite with_get, Z.eqb_refl; reflexivity).
  destruct (i_entry _ _ _ _ I p info e G K) as (_ & (r & X & Y) & Z). exists r. auto.
Qed.

Lemma topUp_ok t n H p max : plain t n -> max <= 100 -> forall es pre info d, Inv t n H (with_ d p info) -> cur info = pre ++ es ->
  Forall (complete t d) pre -> activeOf (cur info) < max ->
  exists es' d', topUp t p max es (activeOf (cur info)) d = Ok (es', activeOf (pre ++ es'), d') /\
    let info' := setCur (pre ++ es') info in
    Inv t n H (with_ d' p info') /\ Delta t H p info d info' d' /\ activeOf (cur info') <= max /\ map rIdx (cur info') = map rIdx (cur info) /\
    (activeOf (cur info') < max -> Forall (complete t d') (cur info')).
Proof.
  intros P M. induction es as [|e es IH]; intros pre info d I C F L.
  - exists [], d. cbn [topUp]. rewrite app_nil_r in *. rewrite <- C. split; [reflexivity|]. cbn zeta. rewrite setCur_id.
    refine (conj I (conj (Delta_refl _ _ _ _ _) (conj _ (conj eq_refl _)))); [lia|]. intros _. now rewrite C.
  - assert (Ie : In e (cur info)) by (rewrite C; apply in_or_app; right; now left).
    destruct (cur_req _ _ _ _ _ _ _ I Ie) as (r & A & _ & _).
    cbn [topUp]. rewrite (getRequest_known _ _ _ _ A).
    destruct (send_step t n H d p info pre e es r (max - activeOf (cur info)) P I C A ltac:(lia) ltac:(lia)) as (n' & e' & r' & out & S & J & D & AC & MX & RI & CO & _ & _ & _).
    rewrite S. cbn [bind]. cbn zeta in J, D, AC, CO. set (info' := setCur (pre ++ e' :: es) info) in *.
    set (d' := addSent p out (setReqs (aset (rIdx e) r' (dReqs d)) d)) in *.
    assert (MI : map rIdx (cur info') = map rIdx (cur info)). { unfold info'. cbn [cur setCur]. rewrite C, !map_app. cbn. now rewrite RI. }
    assert (F' : Forall (complete t d') pre).
    { apply Forall_forall. intros x X. apply (complete_delta t H p info d info' d'); [exact D| |rewrite Forall_forall in F; now apply F].
      destruct (cur_req _ _ _ _ _ _ x I) as (rx & X1 & _); [rewrite C; apply in_or_app; now left|]. congruence. }
    destruct (Z.geb_spec (activeOf (cur info) + n') max) as [G|G].
    + exists (e' :: es), d'. rewrite <- AC. split; [reflexivity|]. cbn zeta. fold info'. refine (conj J (conj D (conj _ (conj MI _)))); [|intros K]; lia.
    + rewrite <- AC.
      destruct (IH (pre ++ [e']) info' d') as (es2 & d2 & T & J2 & D2 & A2 & MI2 & C2).
      * exact J.
      * unfold info'. cbn [cur setCur]. now rewrite <- app_assoc.
      * apply Forall_app. split; [exact F'|]. constructor; [|constructor]. apply CO. lia.
      * lia.
      * rewrite <- app_assoc in T, J2, D2, A2, MI2, C2. cbn [app] in *. rewrite T. cbn [bind]. exists (e' :: es2), d2. split; [reflexivity|]. cbn zeta.
        assert (Q : setCur (pre ++ e' :: es2) info' = setCur (pre ++ e' :: es2) info) by reflexivity. rewrite Q in *.
        refine (conj J2 (conj _ (conj A2 (conj _ C2)))); [eapply Delta_trans; eassumption|congruence].
Qed.

(** ** Choosing the next piece *)
Definition wanted (d : dl) (v : view) (idx : Z) : Prop := isMissing d idx = true /\ has v idx = true.

Lemma fastNext_some d v first l idx : fastNext d v first l = Some idx -> In idx (map fst l) /\ wanted d v idx /\ unused d idx = true.
Proof.
  induction l as [|[i pr] l IH]; cbn; [discriminate|]. destruct (negb (first =? pr)); [discriminate|].
  destruct (isMissing d i) eqn:E1; cbn; [destruct (has v i) eqn:E2; cbn; [destruct (unused d i) eqn:E3|]|]; intros K;
    try (destruct (IH K) as (X & Y); split; [now right|exact Y]).
  injection K as <-. split; [now left|]. split; [split; assumption|assumption].
Qed.

Lemma bestShared_some g : forall l best b, bestShared g best l = Some b -> In b l \/ best = Some b.
Proof.
  induction l as [|[i r] l IH]; intros best b; cbn; [now right|]. destruct (negb (g =? 0) && existsb (Z.eqb g) (rGroups r)).
  - intros K. destruct (IH _ _ K) as [X|X]; [left; now right|now right].
  - intros K. destruct (IH _ _ K) as [X|X]; [left; now right|]. destruct best as [[j rb]|]; [destruct (better rb r)|]; try (left; left; congruence). now right.
Qed.

Lemma bestShared_none g : forall l best, bestShared g best l = None -> best = None /\ Forall (fun b => g <> 0 /\ In g (rGroups (snd b))) l.
Proof.
  induction l as [|[i r] l IH]; intros best; cbn; [auto|]. destruct (negb (g =? 0) && existsb (Z.eqb g) (rGroups r)) eqn:E.
  - intros K. destruct (IH _ K) as (X & Y). split; [exact X|]. constructor; [|exact Y]. apply andb_true_iff in E. destruct E as [E1 E2]. cbn.
    apply negb_true_iff, Z.eqb_neq in E1. split; [exact E1|]. apply existsb_exists in E2. destruct E2 as (x & X1 & X2). apply Z.eqb_eq in X2. now subst x.
  - intros K. destruct (IH _ K) as (X & Y). destruct best as [[j rb]|]; [destruct (better rb r)|]; discriminate.
Qed.

Definition shareable (d : dl) (v : view) (info : peerInfo) (b : Z * reqInfo) : Prop :=
  In (fst b) (map fst (dSorted d)) /\ wanted d v (fst b) /\ ~ In (fst b) (map rIdx (cur info)) /\ aget (fst b) (dReqs d) = Some (snd b).

Lemma unused_spec d idx : unused d idx = true <-> (aget idx (dReqs d) = None \/ exists r, aget idx (dReqs d) = Some r /\ rPeers r = []).
Proof.
  unfold unused. destruct (aget idx (dReqs d)) as [r|]; [|split; auto]. destruct (rPeers r) as [|x l] eqn:R.
  - split; [|auto]. intros _. right. exists r. auto.
  - split; [discriminate|]. intros [K|(r0 & K1 & K2)]; [discriminate|]. injection K1 as <-. congruence.
Qed.

Lemma slowNext_some d v info first : (forall idx, unused d idx = true -> ~ In idx (map rIdx (cur info))) ->
  forall l lastP shared idx f, incl (map fst l) (map fst (dSorted d)) -> Forall (shareable d v info) shared ->
  slowNext d v info first lastP shared l = Some (idx, f) -> In idx (map fst (dSorted d)) /\ wanted d v idx /\ ~ In idx (map rIdx (cur info)).
Proof.
  intros U. induction l as [|[i pr] l IH]; intros lastP shared idx f IN SH; cbn [slowNext].
  - destruct (bestShared (suspGroup info) None shared) as [[j r]|] eqn:E; cbn; [|discriminate]. intros K. injection K as <- _.
    apply bestShared_some in E. destruct E as [E|E]; [|discriminate]. rewrite Forall_forall in SH. destruct (SH _ E) as (A & B & C & _). auto.
  - assert (IN' : incl (map fst l) (map fst (dSorted d))) by (intros x X; apply IN; now right).
    assert (Ii : In i (map fst (dSorted d))) by (apply IN; now left).
    destruct (isMissing d i && has v i) eqn:W; [|now apply IH].
    apply andb_true_iff in W.
    set (early := if lastP >? pr then bestShared (suspGroup info) None shared else None).
    destruct early as [[j r]|] eqn:E.
    + intros K. injection K as <- _. unfold early in E. destruct (lastP >? pr); [|discriminate]. apply bestShared_some in E. destruct E as [E|E]; [|discriminate].
      rewrite Forall_forall in SH. destruct (SH _ E) as (A & B & C & _). auto.
    + destruct (aget i (dReqs d)) as [r|] eqn:R.
      * destruct (rPeers r) as [|x xs] eqn:Q.
        -- intros K. injection K as <- _. split; [exact Ii|]. split; [exact W|]. apply U. apply unused_spec. right. eauto.
        -- apply IH; [assumption|]. destruct (existsb (fun e => rIdx e =? i) (cur info)) eqn:X; [assumption|]. apply Forall_app. split; [assumption|]. constructor; [|constructor].
           split; [exact Ii|]. split; [exact W|]. split; [|exact R]. cbn. intros Y. apply in_map_iff in Y. destruct Y as (e & Y1 & Y2).
           assert (existsb (fun e => rIdx e =? i) (cur info) = true) by (apply existsb_exists; exists e; split; [assumption|now apply Z.eqb_eq]). congruence.
      * intros K. injection K as <- _. split; [exact Ii|]. split; [exact W|]. apply U. apply unused_spec. now left.
Qed.

Definition busy (d : dl) (info : peerInfo) (idx : Z) : Prop :=
  exists r, aget idx (dReqs d) = Some r /\ rPeers r <> [] /\ (In idx (map rIdx (cur info)) \/ (suspGroup info <> 0 /\ In (suspGroup info) (rGroups r))).

Lemma slowNext_none d v info first : forall l lastP shared,
  slowNext d v info first lastP shared l = None ->
  Forall (fun b => suspGroup info <> 0 /\ In (suspGroup info) (rGroups (snd b))) shared /\
  forall idx, In idx (map fst l) -> wanted d v idx -> busy d info idx.
Proof.
  induction l as [|[i pr] l IH]; intros lastP shared; cbn [slowNext].
  - destruct (bestShared (suspGroup info) None shared) as [[j r]|] eqn:E; cbn; [discriminate|]. intros _. apply bestShared_none in E. split; [tauto|]. contradiction.
  - destruct (isMissing d i && has v i) eqn:W.
    + set (early := if lastP >? pr then bestShared (suspGroup info) None shared else None).
      destruct early as [[j r]|]; [discriminate|]. destruct (aget i (dReqs d)) as [r|] eqn:R; [|discriminate]. destruct (rPeers r) as [|x xs] eqn:Q; [discriminate|].
      intros K. destruct (IH _ _ K) as (F & A).
      destruct (existsb (fun e => rIdx e =? i) (cur info)) eqn:X.
      * split; [exact F|]. intros idx [<-|Y] Wi; [|now apply A]. exists r. split; [exact R|]. split; [congruence|]. left.
        apply existsb_exists in X. destruct X as (e & X1 & X2). apply Z.eqb_eq in X2. cbn. rewrite <- X2. now apply in_map.
      * apply Forall_app in F. destruct F as [F1 F2]. split; [exact F1|]. intros idx [<-|Y] Wi; [|now apply A]. exists r. split; [exact R|]. split; [congruence|]. right. now inversion F2.
    + intros K. destruct (IH _ _ K) as (F & A). split; [exact F|]. intros idx [<-|Y] Wi; [|now apply A]. cbn in Wi. destruct Wi as [W1 W2]. rewrite W1, W2 in W. discriminate.
Qed.

Lemma best_some t n H d p info v idx f : Inv t n H (with_ d p info) -> getBestNextRequest d v info = (Some idx, f) ->
  In idx (map fst (dSorted d)) /\ wanted d v idx /\ ~ In idx (map rIdx (cur info)).
Proof.
  intros I. assert (U : forall i, unused d i = true -> ~ In i (map rIdx (cur info))).
  { intros i Ui K. apply in_map_iff in K. destruct K as (e & <- & K). destruct (cur_req _ _ _ _ _ _ _ I K) as (r & X & Y & _). apply unused_spec in Ui.
    destruct Ui as [Ui|(r0 & Ui & Q)]; [congruence|]. rewrite X in Ui. injection Ui as <-. rewrite Q in Y. contradiction. }
  unfold getBestNextRequest. destruct (dSorted d) as [|[i0 first] l0] eqn:S; [discriminate|]. rewrite <- S in *.
  destruct (if dFast d then fastNext d v first (dSorted d) else None) as [i|] eqn:E.
  - intros K. injection K as <- _. destruct (dFast d); [|discriminate]. apply fastNext_some in E. destruct E as (A & B & C). auto.
  - destruct (slowNext d v info first first [] (dSorted d)) as [[i g]|] eqn:E2; [|discriminate]. intros K. injection K as <- _.
    eapply slowNext_some; [exact U| | |exact E2]; [apply incl_refl|constructor].
Qed.

Lemma best_none d v info f : getBestNextRequest d v info = (None, f) -> forall idx, In idx (map fst (dSorted d)) -> wanted d v idx -> busy d info idx.
Proof.
  unfold getBestNextRequest. destruct (dSorted d) as [|[i0 first] l0] eqn:S; [contradiction|]. rewrite <- S.
  destruct (if dFast d then fastNext d v first (dSorted d) else None) as [i|] eqn:E; [discriminate|].
  destruct (slowNext d v info first first [] (dSorted d)) as [[i g]|] eqn:E2; [discriminate|]. intros _. now apply slowNext_none in E2.
Qed.

Lemma loadUnf_ok idx : forall l ps l', loadUnf idx l = (ps, l') ->
  (psBlocks ps <> [] -> In ps l /\ psIndex ps = idx) /\ (forall u, In u l' -> In u l \/ psBlocks u = []).
Proof.
  induction l as [|x l IH]; intros ps l'; cbn [loadUnf].
  - intros K. injection K as <- <-. split; [intros N; exfalso; apply N; reflexivity|contradiction].
  - destruct ((psIndex x =? idx) && negb (psSize x =? 0)) eqn:E.
    + intros K. injection K as <- <-. apply andb_true_iff in E. destruct E as [E _]. apply Z.eqb_eq in E. split; [intros _; split; [now left|exact E]|].
      intros u [<-|U]; [now right|left; now right].
    + destruct (loadUnf idx l) as [p2 l2] eqn:L. intros K. injection K as <- <-. destruct (IH _ _ eq_refl) as (A & B). split.
      * intros N. destruct (A N) as (X & Y). split; [now right|exact Y].
      * intros u [<-|U]; [left; now left|]. destruct (B u U) as [X|X]; [left; now right|now right].
Qed.

Lemma aset_aset {A} k (x y : A) m : aset k x (aset k y m) = aset k x m.
Proof. induction m as [|[k1 v1] m IH]; cbn; [now rewrite Z.eqb_refl|]. destruct (Z.eqb_spec k1 k); cbn; [now rewrite Z.eqb_refl|]. destruct (Z.eqb_spec k1 k); [congruence|now rewrite IH]. Qed.

Lemma aset_mapfst {A} k (x : A) m : aget k m <> None -> map fst (aset k x m) = map fst m.
Proof. induction m as [|[k1 v1] m IH]; cbn; [congruence|]. destruct (Z.eqb_spec k1 k); cbn; [now subst|]. intros N. now rewrite IH. Qed.

Lemma Inv_cur t n H d p i i' : Inv t n H (with_ d p i) -> cur i = cur i' -> Inv t n H (with_ d p i').
Proof.
  intros I C. assert (G : aget p (dPeers (with_ d p i)) = Some i) by (rewrite with_get, Z.eqb_refl; reflexivity). split.
  - exact (i_len _ _ _ _ I).
  - exact (i_keys _ _ _ _ I).
  - pose proof (i_pkeys _ _ _ _ I) as K. cbn in *.
    assert (Q : map fst (aset p i' (dPeers d)) = map fst (aset p i (dPeers d))).
    { clear. induction (dPeers d) as [|[k v] m IH]; [reflexivity|]. cbn. destruct (k =? p); [reflexivity|]. cbn. now rewrite IH. }
    now rewrite Q.
  - exact (i_req _ _ _ _ I).
  - exact (i_unf _ _ _ _ I).
  - intros q inf. rewrite with_get. destruct (Z.eqb_spec q p) as [->|N]; intros X.
    + injection X as <-. rewrite <- C. exact (i_nodup _ _ _ _ I p i G).
    + apply (i_nodup _ _ _ _ I q inf). rewrite with_get. now destruct (Z.eqb_spec q p).
  - intros q inf x. rewrite with_get. destruct (Z.eqb_spec q p) as [->|N]; intros X.
    + injection X as <-. rewrite <- C. exact (i_entry _ _ _ _ I p i x G).
    + apply (i_entry _ _ _ _ I q inf x). rewrite with_get. now destruct (Z.eqb_spec q p).
  - intros q inf. rewrite with_get. destruct (Z.eqb_spec q p) as [->|N]; intros X.
    + injection X as <-. rewrite <- C. exact (i_active _ _ _ _ I p i G).
    + apply (i_active _ _ _ _ I q inf). rewrite with_get. now destruct (Z.eqb_spec q p).
  - intros idx r q X Y. destruct (i_peers _ _ _ _ I idx r q X Y) as (inf & Z1 & Z2). rewrite with_get in *. destruct (Z.eqb_spec q p) as [->|N].
    + injection Z1 as <-. exists i'. rewrite <- C. auto.
    + exists inf. auto.
  - exact (i_sorted _ _ _ _ I).
Qed.

Lemma Delta_cur t H p i d i1 d' i2 : Delta t H p i d i1 d' -> cur i1 = cur i2 -> suspGroup i2 = suspGroup i1 -> suspicion i2 = suspicion i1 -> Delta t H p i d i2 d'.
Proof.
  intros (F1 & G1 & G2 & R1 & N1 & U1 & C1 & k1 & S1 & D1 & A1 & O1 & I1) C E1 E2. split; [exact F1|]. split; [congruence|]. split; [congruence|]. split; [exact R1|].
  split; [exact N1|]. split; [exact U1|]. split; [now rewrite <- C|]. exists k1. rewrite <- C. split; [exact S1|]. split; [exact D1|]. split; [exact A1|]. split; [exact O1|].
  intros a k. unfold flagged in *. rewrite <- C. apply I1.
Qed.

(** A piece is added to the peer's list, nothing asked yet *)
Lemma pick_step t n H d p info idx r d1 : plain t n -> Inv t n H (with_ d p info) -> 0 <= idx < n -> isMissing d idx = true -> ~ In idx (map rIdx (cur info)) -> H p idx ->
  getRequest t d idx = (r, d1) ->
  let e := {| rIdx := psIndex (rPiece r); rActive := 0; rBlocks := repeat false (length (psBlocks (rPiece r))) |} in
  let d2 := setReqs (aset idx (addPeer p r) (dReqs d1)) d1 in
  let info2 := setCur (cur info ++ [e]) info in
  psIndex (rPiece r) = idx /\ Inv t n H (with_ d2 p info2) /\ Delta t H p info d info2 d2.
Proof.
  intros P I Hi Mi Nc Hp G e d2 info2.
  assert (Gp : aget p (dPeers (with_ d p info)) = Some info) by (rewrite with_get, Z.eqb_refl; reflexivity).
  assert (Facts : partway t idx (rPiece r) /\ dReqs d2 = aset idx (addPeer p r) (dReqs d) /\ Frame d d2 /\ dSent d2 = dSent d /\
    (forall u, In u (dUnf d2) -> In u (dUnf d) \/ psBlocks u = []) /\
    (forall r0, aget idx (dReqs d) = Some r0 -> r0 = r) /\
    (aget idx (dReqs d) = None -> rPeers r = [] /\ (rPiece r = initPiece idx (getPieceBlocksCount t idx) \/ (In (rPiece r) (dUnf d) /\ psBlocks (rPiece r) <> [])))).
  { unfold getRequest in G. destruct (aget idx (dReqs d)) as [r0|] eqn:E.
    - injection G as <- <-. split; [exact (proj2 (i_req _ _ _ _ I idx r0 E))|]. split; [reflexivity|]. split; [unfold Frame; repeat split|]. split; [reflexivity|]. split; [auto|].
      split; [intros r1 X; congruence|discriminate].
    - destruct (loadUnf idx (dUnf d)) as [ps unf] eqn:L. destruct (loadUnf_ok _ _ _ _ L) as (A & B).
      assert (Init : partway t idx (initPiece idx (getPieceBlocksCount t idx))).
      { specialize (P idx Hi). unfold partway, initPiece. cbn [psIndex psBlocks psRemaining]. rewrite zeros_repeat. unfold zlen. rewrite repeat_length. lia. }
      injection G as <- <-. cbn [rPiece rPeers].
      assert (PP : partway t idx match psBlocks ps with [] => initPiece idx (getPieceBlocksCount t idx) | _ :: _ => ps end /\
        (match psBlocks ps with [] => initPiece idx (getPieceBlocksCount t idx) | _ :: _ => ps end = initPiece idx (getPieceBlocksCount t idx) \/
         (In match psBlocks ps with [] => initPiece idx (getPieceBlocksCount t idx) | _ :: _ => ps end (dUnf d) /\
          psBlocks match psBlocks ps with [] => initPiece idx (getPieceBlocksCount t idx) | _ :: _ => ps end <> []))).
      { destruct (psBlocks ps) as [|b bs] eqn:Q; [auto|]. assert (N : psBlocks ps <> []) by congruence. destruct (A ltac:(congruence)) as (X & Y).
        destruct (i_unf _ _ _ _ I ps X) as [Z|Z]; [congruence|]. rewrite Y in Z. auto. }
      split; [tauto|]. split; [cbn; now rewrite aset_aset|]. split; [unfold Frame; repeat split|]. split; [reflexivity|]. split; [exact B|]. split; [discriminate|]. tauto. }
  destruct Facts as (PW & RD & FR & SE & UN & KN & NW).
  assert (PI : psIndex (rPiece r) = idx) by exact (proj1 PW).
  assert (EO : entryOk t e).
  { unfold entryOk, e. cbn. rewrite ones_none, PI. split; [|reflexivity]. destruct PW as (_ & X & _). unfold zlen in *. now rewrite repeat_length. }
  assert (Ee : rIdx e = idx) by exact PI.
  split; [exact PI|].
  assert (RB : forall i rr, aget i (dReqs d) = Some rr -> exists r0, aget i (dReqs d2) = Some r0 /\ rPiece r0 = rPiece rr /\ incl (rPeers rr) (rPeers r0) /\ rSources r0 = rSources rr).
  { intros i rr X. rewrite RD. destruct (Z.eq_dec i idx) as [->|N].
    - rewrite aget_set_same. exists (addPeer p r). rewrite (KN _ X) in *. split; [reflexivity|]. split; [reflexivity|]. split; [|reflexivity].
      cbn. destruct (existsb (Z.eqb p) (rPeers r)); [apply incl_refl|apply incl_appl, incl_refl].
    - rewrite aget_set_other by assumption. exists rr. split; [exact X|]. split; [reflexivity|]. split; [apply incl_refl|reflexivity]. }
  assert (Pin : In p (rPeers (addPeer p r))).
  { cbn. destruct (existsb (Z.eqb p) (rPeers r)) eqn:X; [|apply in_or_app; right; now left]. apply existsb_exists in X. destruct X as (x & X1 & X2). apply Z.eqb_eq in X2. now subst x. }
  assert (Pback : forall q, In q (rPeers (addPeer p r)) -> q = p \/ In q (rPeers r)).
  { cbn. intros q. destruct (existsb (Z.eqb p) (rPeers r)); [auto|]. intros K. apply in_app_or in K. destruct K as [K|[K|[]]]; [auto|left; congruence]. }
  destruct FR as (FR1 & FR2 & FR3 & FR4 & FR5 & FR6 & FR7 & FR8).
  split.
  { assert (GG : forall q, aget q (dPeers (with_ d2 p info2)) = if q =? p then Some info2 else aget q (dPeers d)) by (intros q; rewrite with_get, FR1; reflexivity).
    assert (GO : forall q inf, q <> p -> aget q (dPeers d) = Some inf -> aget q (dPeers (with_ d p info)) = Some inf).
    { intros q inf N X. rewrite with_get. now destruct (Z.eqb_spec q p). }
    split.
    - change (zlen (pieces (dProg d2)) = n). rewrite FR2. exact (i_len _ _ _ _ I).
    - change (NoDup (map fst (dReqs d2))). rewrite RD. apply NoDup_aset. exact (i_keys _ _ _ _ I).
    - change (NoDup (map fst (aset p info2 (dPeers d2)))). rewrite FR1. pose proof (i_pkeys _ _ _ _ I) as K. cbn in K.
      assert (Q : map fst (aset p info2 (dPeers d)) = map fst (aset p info (dPeers d))).
      { clear. induction (dPeers d) as [|[k v] m IH]; [reflexivity|]. cbn. destruct (k =? p); [reflexivity|]. cbn. now rewrite IH. }
      now rewrite Q.
    - intros i rr. change (dReqs (with_ d2 p info2)) with (dReqs d2). rewrite RD. destruct (Z.eq_dec i idx) as [->|N].
      + rewrite aget_set_same. intros X. injection X as <-. auto.
      + rewrite aget_set_other by assumption. exact (i_req _ _ _ _ I i rr).
    - intros u U. destruct (UN u U) as [X|X]; [exact (i_unf _ _ _ _ I u X)|now left].
    - intros q inf. rewrite GG. destruct (Z.eqb_spec q p) as [->|N]; intros X.
      + injection X as <-. unfold info2. cbn [cur setCur]. rewrite map_app. cbn [map]. rewrite Ee. apply NoDup_app_i.
        * exact (i_nodup _ _ _ _ I p info Gp).
        * constructor; [tauto|constructor].
        * intros x X1 [X2|[]]. subst x. contradiction.
      + exact (i_nodup _ _ _ _ I q inf (GO q inf N X)).
    - intros q inf x. rewrite GG. destruct (Z.eqb_spec q p) as [->|N]; intros X K.
      + injection X as <-. unfold info2 in K. cbn [cur setCur] in K. apply in_app_or in K. destruct K as [K|[<-|[]]].
        * destruct (i_entry _ _ _ _ I p info x Gp K) as (Q1 & (r0 & X0 & Y0) & Q3). split; [exact Q1|]. split; [|exact Q3]. destruct (RB _ _ X0) as (r1 & Z1 & Z2 & Z3 & _). exists r1. split; [exact Z1|now apply Z3].
        * split; [exact EO|]. rewrite Ee. split; [|exact Hp]. exists (addPeer p r). change (dReqs (with_ d2 p info2)) with (dReqs d2). rewrite RD, aget_set_same. auto.
      + destruct (i_entry _ _ _ _ I q inf x (GO q inf N X) K) as (Q1 & (r0 & X0 & Y0) & Q3). split; [exact Q1|]. split; [|exact Q3]. destruct (RB _ _ X0) as (r1 & Z1 & Z2 & Z3 & _). exists r1. split; [exact Z1|now apply Z3].
    - intros q inf. rewrite GG. destruct (Z.eqb_spec q p) as [->|N]; intros X.
      + injection X as <-. unfold info2. cbn [cur setCur]. rewrite activeOf_app. unfold activeOf at 2. cbn. pose proof (i_active _ _ _ _ I p info Gp). lia.
      + exact (i_active _ _ _ _ I q inf (GO q inf N X)).
    - intros i rr q. change (dReqs (with_ d2 p info2)) with (dReqs d2). rewrite RD, GG.
      assert (Old : forall r0, aget i (dReqs d) = Some r0 -> In q (rPeers r0) -> exists inf, (if q =? p then Some info2 else aget q (dPeers d)) = Some inf /\ In i (map rIdx (cur inf))).
      { intros r0 X K. destruct (i_peers _ _ _ _ I i r0 q X K) as (inf & Z1 & Z2). rewrite with_get in Z1. destruct (Z.eqb_spec q p) as [->|N].
        - injection Z1 as <-. exists info2. split; [reflexivity|]. unfold info2. cbn [cur setCur]. rewrite map_app. apply in_or_app. now left.
        - exists inf. auto. }
      destruct (Z.eq_dec i idx) as [->|N].
      + rewrite aget_set_same. intros X. injection X as <-. intros K. destruct (Pback q K) as [->|K'].
        * rewrite Z.eqb_refl. exists info2. split; [reflexivity|]. unfold info2. cbn [cur setCur]. rewrite map_app. apply in_or_app. right. left. exact Ee.
        * destruct (aget idx (dReqs d)) as [r0|] eqn:E; [|destruct (NW eq_refl) as (X & _); rewrite X in K'; contradiction]. rewrite (KN r0 eq_refl) in *. exact (Old r eq_refl K').
      + rewrite aget_set_other by assumption. apply Old.
    - change (in_range n (dSorted d2)). rewrite FR3. exact (i_sorted _ _ _ _ I). }
  split; [unfold Frame; repeat split; assumption|]. split; [reflexivity|]. split; [reflexivity|].
  split. { intros i rr X. destruct (RB i rr X) as (r0 & Z1 & Z2 & _ & Z3). exists r0. auto. }
  split.
  { intros i rr X No. rewrite RD in X. destruct (Z.eq_dec i idx) as [->|N].
    - rewrite aget_set_same in X. injection X as <-. split; [exact Mi|]. cbn [rPiece addPeer]. exact (proj2 (NW No)).
    - rewrite aget_set_other in X by assumption. congruence. }
  split; [exact UN|]. split. { unfold info2. cbn [cur setCur]. rewrite map_app. apply incl_appl, incl_refl. }
  exists []. rewrite SE. cbn [map]. rewrite app_nil_r. split; [reflexivity|]. split; [constructor|].
  split. { unfold info2. cbn [cur setCur]. rewrite activeOf_app. unfold activeOf at 2. cbn. unfold zlen. cbn. lia. }
  split; [constructor|]. intros i k. split.
  - intros (x & X1 & X2 & X3 & X4). left. unfold info2 in X1. cbn [cur setCur] in X1. apply in_app_or in X1. destruct X1 as [X1|[<-|[]]]; [exists x; auto|].
    exfalso. cbn in X4. clear - X4. revert X4. generalize (length (psBlocks (rPiece r))). intros m. revert m. generalize (Z.to_nat k). induction n as [|j IH]; intros [|m]; cbn; try discriminate. apply IH.
  - intros [(x & X1 & X)|[]]. exists x. split; [|exact X]. unfold info2. cbn [cur setCur]. apply in_or_app. now left.
Qed.

Lemma Asked_delta t H p info d info' d' : Delta t H p info d info' d' -> Asked t (with_ d p info) ->
  (forall idx, In idx (asked info') \/ In idx (map rIdx (cur info')) -> In idx (asked info) \/ In idx (map rIdx (cur info)) \/
     exists k, 0 <= k < getPieceBlocksCount t idx /\ In (p, getPieceBlockInfo t idx k) (dSent d')) ->
  Asked t (with_ d' p info').
Proof.
  intros D A N. destruct D as ((FP & _) & _ & _ & _ & _ & _ & _ & ks & S & _).
  assert (G : aget p (dPeers (with_ d p info)) = Some info) by (rewrite with_get, Z.eqb_refl; reflexivity).
  intros q inf idx. rewrite with_get. destruct (Z.eqb_spec q p) as [->|Nq].
  - intros X K. injection X as <-. destruct (N idx K) as [X|[X|X]]; [| |exact X].
    + destruct (A p info idx G (or_introl X)) as (k & B & Y). exists k. split; [exact B|]. change (dSent (with_ d' p info')) with (dSent d'). rewrite S. apply in_or_app. now left.
    + destruct (A p info idx G (or_intror X)) as (k & B & Y). exists k. split; [exact B|]. change (dSent (with_ d' p info')) with (dSent d'). rewrite S. apply in_or_app. now left.
  - rewrite FP. intros X K. destruct (A q inf idx) with (2 := K) as (k & B & Y).
    + rewrite with_get. now destruct (Z.eqb_spec q p).
    + exists k. split; [exact B|]. change (dSent (with_ d' p info')) with (dSent d'). rewrite S. apply in_or_app. now left.
Qed.

Definition left_over (d : dl) (info : peerInfo) : nat := length (filter (fun ip => negb (existsb (Z.eqb (fst ip)) (map rIdx (cur info)))) (dSorted d)).

Lemma filter_lt {A} (f g : A -> bool) l x : (forall y, g y = true -> f y = true) -> In x l -> f x = true -> g x = false -> (length (filter g l) < length (filter f l))%nat.
Proof.
  intros S. assert (LE : forall l, (length (filter g l) <= length (filter f l))%nat).
  { induction l0 as [|y l0 IH]; [auto|]. cbn. specialize (S y). destruct (g y); [rewrite S by reflexivity; cbn; lia|]. destruct (f y); cbn; lia. }
  induction l as [|y l IH]; [contradiction|]. intros [->|K] F G.
  - cbn. rewrite F, G. cbn. specialize (LE l). lia.
  - cbn. specialize (IH K F G). specialize (S y). destruct (g y); [rewrite S by reflexivity; cbn; lia|]. destruct (f y); cbn; lia.
Qed.

Lemma left_over_less d d' info info' idx : dSorted d' = dSorted d -> In idx (map fst (dSorted d)) -> ~ In idx (map rIdx (cur info)) ->
  In idx (map rIdx (cur info')) -> incl (map rIdx (cur info)) (map rIdx (cur info')) -> (left_over d' info' < left_over d info)%nat.
Proof.
  intros E K N I C. unfold left_over. rewrite E. apply in_map_iff in K. destruct K as ([i pr] & K1 & K2). cbn in K1. subst i.
  apply filter_lt with (x := (idx, pr)); [|exact K2| |]; cbn [fst].
  - intros [y q]. cbn [fst]. rewrite !negb_true_iff. intros X. destruct (existsb (Z.eqb y) (map rIdx (cur info))) eqn:Y; [|reflexivity].
    apply existsb_exists in Y. destruct Y as (z & Y1 & Y2). exfalso. enough (existsb (Z.eqb y) (map rIdx (cur info')) = true) by congruence.
    apply existsb_exists. exists z. split; [now apply C|exact Y2].
  - apply negb_true_iff. destruct (existsb (Z.eqb idx) (map rIdx (cur info))) eqn:Y; [|reflexivity]. apply existsb_exists in Y. destruct Y as (z & Y1 & Y2).
    apply Z.eqb_eq in Y2. subst z. contradiction.
  - apply negb_false_iff. apply existsb_exists. exists idx. split; [exact I|apply Z.eqb_refl].
Qed.

Lemma Inv_fast t n H d p info f : Inv t n H (with_ d p info) -> Inv t n H (with_ (setFast f d) p info).
Proof. intros I. destruct I. split; assumption. Qed.

Lemma Delta_fast t H p i d i' d' f : Delta t H p i (setFast f d) i' d' -> Delta t H p i d i' d'.
Proof. intros D. exact D. Qed.

Lemma Delta_fast2 t H p i d i' d' f : Delta t H p i d i' d' -> Delta t H p i d i' (setFast f d').
Proof. intros D. exact D. Qed.

Lemma chooseMore_ok t n (H : Z -> Z -> Prop) v p max : plain t n -> max <= 100 -> (forall idx, has v idx = true -> H p idx) ->
  forall fuel info d, Inv t n H (with_ d p info) -> Asked t (with_ d p info) -> (left_over d info < fuel)%nat ->
  (activeOf (cur info) < max -> Forall (complete t d) (cur info)) ->
  exists info' d', chooseMore fuel t v p max info (activeOf (cur info)) d = Ok (info', d') /\
    Inv t n H (with_ d' p info') /\ Asked t (with_ d' p info') /\ Delta t H p info d info' d' /\ activeOf (cur info') <= Z.max max (activeOf (cur info)) /\
    (activeOf (cur info') < max -> Forall (complete t d') (cur info') /\ forall idx, In idx (map fst (dSorted d)) -> wanted d v idx -> busy d' info' idx).
Proof.
  intros P M HH. induction fuel as [|fuel IH]; intros info d I A LO CO; [lia|].
  cbn [chooseMore]. destruct (Z.ltb_spec (activeOf (cur info)) max) as [LT|GE].
  2: { exists info, d. split; [reflexivity|]. split; [exact I|]. split; [exact A|]. split; [apply Delta_refl|]. split; [lia|]. intros X. lia. }
  destruct (getBestNextRequest d v info) as [[idx|] f] eqn:B.
  - destruct (best_some _ _ _ _ _ _ _ _ _ I B) as (B1 & (B2 & B2') & B3).
    destruct (getRequest t (setFast f d) idx) as [r d1] eqn:G.
    assert (Hi : 0 <= idx < n). { pose proof (i_sorted _ _ _ _ I) as S. unfold in_range in S. rewrite Forall_forall in S. apply in_map_iff in B1. destruct B1 as (ip & <- & B1). exact (S ip B1). }
    destruct (pick_step t n H (setFast f d) p info idx r d1 P (Inv_fast _ _ _ _ _ _ _ I) Hi B2 B3 (HH idx B2') G) as (PI & I2 & D2).
    set (e := {| rIdx := psIndex (rPiece r); rActive := 0; rBlocks := repeat false (length (psBlocks (rPiece r))) |}) in *.
    set (d2 := setReqs (aset idx (addPeer p r) (dReqs d1)) d1) in *. set (info2 := setCur (cur info ++ [e]) info) in *.
    assert (AC2 : activeOf (cur info2) = activeOf (cur info)).
    { unfold info2. cbn [cur setCur]. rewrite activeOf_app. unfold activeOf at 2. cbn. lia. }
    assert (Ee : rIdx e = idx) by exact PI.
    destruct (send_step t n H d2 p info2 (cur info) e [] (addPeer p r) (max - activeOf (cur info)) P I2 eq_refl) as (n' & e' & r' & out & S & I3 & D3 & AC & MX & RI & C3 & _ & _ & NE);
      [rewrite Ee; apply aget_set_same|lia|lia|].
    rewrite S. cbn [bind]. cbn zeta in I3, D3, AC, C3. rewrite Ee in I3, D3, C3, RI.
    assert (Q : addSent p out (setReqs (aset idx r' (dReqs d2)) d2) = addSent p out (setReqs (aset idx r' (dReqs d1)) d1)).
    { unfold d2. cbn [dReqs setReqs]. rewrite aset_aset. reflexivity. }
    rewrite Q in I3, D3, C3. set (d3 := addSent p out (setReqs (aset idx r' (dReqs d1)) d1)) in *.
    set (info3 := {| cur := cur info ++ [e']; asked := asked info ++ [psIndex (rPiece r)]; suspGroup := suspGroup info; suspicion := suspicion info |}).
    assert (I4 : Inv t n H (with_ d3 p info3)) by (eapply Inv_cur; [exact I3|reflexivity]).
    assert (D4 : Delta t H p info d info3 d3).
    { apply Delta_fast with f. eapply Delta_trans; [exact D2|]. eapply Delta_cur; [exact D3| | |]; reflexivity. }
    assert (AC4 : activeOf (cur info) + n' = activeOf (cur info3)).
    { rewrite <- AC2. rewrite <- AC. reflexivity. }
    rewrite AC4.
    destruct (NE ltac:(cbn; apply ones_none)) as (k & Kb & Ko). rewrite Ee in Kb, Ko.
    assert (Sent : In (p, getPieceBlockInfo t idx k) (dSent d3)).
    { cbn [dSent d3 addSent]. apply in_or_app. right. now apply in_map. }
    destruct (IH info3 d3) as (info' & d' & CH & I5 & A5 & D5 & AC5 & FIN).
    + exact I4.
    + apply (Asked_delta t H p info d); [exact D4|exact A|]. intros i [X|X].
      * cbn [asked info3] in X. apply in_app_or in X. destruct X as [X|[X|[]]]; [now left|]. right. right. exists k. rewrite PI in X. subst i. auto.
      * unfold info3 in X. cbn [cur] in X. rewrite map_app in X. apply in_app_or in X. destruct X as [X|[X|[]]]; [right; now left|]. right. right. exists k. rewrite RI in X. subst i. auto.
    + assert (L : (left_over d3 info3 < left_over d info)%nat).
      { apply left_over_less with idx; [|exact B1|exact B3| |]; [destruct D4 as ((_ & _ & X & _) & _); exact X| |].
        - unfold info3. cbn [cur]. rewrite map_app. apply in_or_app. right. left. exact RI.
        - unfold info3. cbn [cur]. rewrite map_app. apply incl_appl, incl_refl. }
      lia.
    + intros X. unfold info3. cbn [cur]. apply Forall_app. split; [|constructor; [|constructor]].
      * specialize (CO LT). apply Forall_forall. intros x K. rewrite Forall_forall in CO. apply (complete_delta t H p info d info3 d3); [exact D4| |now apply CO].
        destruct (cur_req _ _ _ _ _ _ x I K) as (rx & X1 & _). congruence.
      * apply C3. lia.
    + exists info', d'. rewrite CH. split; [reflexivity|]. split; [exact I5|]. split; [exact A5|]. split; [eapply Delta_trans; eassumption|]. split; [lia|].
      intros X. destruct (FIN X) as (F1 & F2). split; [exact F1|]. destruct D4 as (F4 & _). intros i Ki (W1 & W2). apply F2.
      * destruct F4 as (_ & _ & E & _). now rewrite E.
      * split; [|exact W2]. rewrite (isMissing_frame d d3) by exact F4. exact W1.
  - exists info, (setFast f d). split; [reflexivity|]. split; [now apply Inv_fast|]. split; [exact A|]. split; [apply Delta_fast2, Delta_refl|]. split; [lia|].
    intros X. split; [exact (CO X)|]. intros idx K W. exact (best_none d v info f B idx K W).
Qed.

(** ** Evaluating a peer *)
Lemma aset_same {A} k (v : A) m : aget k m = Some v -> aset k v m = m.
Proof. induction m as [|[k1 v1] m IH]; cbn; [discriminate|]. destruct (Z.eqb_spec k1 k); [intros X; injection X as ->; now subst|]. intros X. now rewrite IH. Qed.

Lemma setPeers_same d : setPeers (dPeers d) d = d.
Proof. now destruct d. Qed.

Lemma with_same d p info : aget p (dPeers d) = Some info -> with_ d p info = d.
Proof. intros E. unfold with_. rewrite (aset_same _ _ _ E). apply setPeers_same. Qed.

Lemma limit_bounds v : 5 <= limit v <= 100.
Proof. unfold limit. lia. Qed.

Lemma evaluate_ok t n (H : Z -> Z -> Prop) v p d info : plain t n -> (forall idx, has v idx = true -> H p idx) -> Inv t n H d -> Asked t d -> aget p (dPeers d) = Some info -> choking v = false ->
  exists info' d', evaluateNextRequests t v p d = Ok (with_ d' p info') /\ Inv t n H (with_ d' p info') /\ Asked t (with_ d' p info') /\ Delta t H p info d info' d' /\
    activeOf (cur info') <= Z.max (limit v) (activeOf (cur info)) /\
    (activeOf (cur info') < limit v -> Forall (complete t d') (cur info') /\ forall idx, In idx (map fst (dSorted d)) -> wanted d v idx -> busy d' info' idx).
Proof.
  intros P HH I A G C. unfold evaluateNextRequests. rewrite G, C. cbn zeta.
  pose proof (limit_bounds v) as LB.
  assert (Fe : Forall (entryOk t) (cur info)). { apply Forall_forall. intros x X. now destruct (i_entry _ _ _ _ I p info x G X). }
  pose proof (activeOf_nonneg t _ Fe) as N0. pose proof (i_active _ _ _ _ I p info G) as N1.
  assert (U : u32 (activeOf (cur info)) = activeOf (cur info)) by (unfold u32; apply Z.mod_small; lia). rewrite U.
  rewrite <- (with_same d p info G) in I, A.
  assert (LO : forall d1 i1, dSorted d1 = dSorted d -> (left_over d1 i1 < S (length (dSorted d)))%nat).
  { intros d1 i1 E. unfold left_over. rewrite E.
    assert (X : forall (f : Z * Z -> bool) l, (length (filter f l) <= length l)%nat) by (intros f l; induction l as [|y l IH]; cbn; [lia|destruct (f y); cbn; lia]).
    specialize (X (fun ip => negb (existsb (Z.eqb (fst ip)) (map rIdx (cur i1)))) (dSorted d)). lia. }
  destruct (Z.ltb_spec (activeOf (cur info)) (limit v)) as [LT|GE].
  - destruct (topUp_ok t n H p (limit v) P ltac:(lia) (cur info) [] info d I eq_refl (Forall_nil _) LT) as (es & d1 & T & I1 & D1 & M1 & MI & C1).
    rewrite T. cbn [bind]. cbn [app] in *. cbn zeta in I1, D1, M1, MI, C1. set (info1 := setCur es info) in *.
    assert (A1 : Asked t (with_ d1 p info1)).
    { apply (Asked_delta t H p info d); [exact D1|exact A|]. intros i [X|X]; [now left|]. rewrite MI in X. right. now left. }
    destruct (chooseMore_ok t n H v p (limit v) P ltac:(lia) HH (S (length (dSorted d))) info1 d1 I1 A1) as (info2 & d2 & CH & I2 & A2 & D2 & M2 & C2).
    { apply LO. destruct D1 as ((_ & _ & X & _) & _). exact X. }
    { exact C1. }
    change (activeOf es) with (activeOf (cur info1)). rewrite CH. cbn [bind]. exists info2, d2. split; [reflexivity|]. split; [exact I2|]. split; [exact A2|].
    split; [eapply Delta_trans; eassumption|]. split; [lia|]. intros X. destruct (C2 X) as (F1 & F2). split; [exact F1|]. destruct D1 as (F4 & _). intros i Ki (W1 & W2). apply F2.
    + destruct F4 as (_ & _ & E & _). now rewrite E.
    + split; [|exact W2]. rewrite (isMissing_frame d d1) by exact F4. exact W1.
  - cbn [bind]. rewrite setCur_id.
    destruct (chooseMore_ok t n H v p (limit v) P ltac:(lia) HH (S (length (dSorted d))) info d I A) as (info2 & d2 & CH & I2 & A2 & D2 & M2 & C2).
    { now apply LO. }
    { intros X. lia. }
    rewrite CH. cbn [bind]. exists info2, d2. auto 10.
Qed.
