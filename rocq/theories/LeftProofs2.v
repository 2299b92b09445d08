(** Proofs about what is left: the sums *)
From Verif Require Import Base BaseLemmas LayoutModel LayoutSpec LayoutProofs ProgressModel ProgressSpec ProgressProofs ProgressProofs2 Assoc DlModel DlSpec DlProofs DlProofs2 DlProofs5 CheckProofs LeftModel LeftSpec LeftProofs.

Lemma sum_ext {A} (f g : A -> Z) l : (forall x, In x l -> f x = g x) -> sum_of (map f l) = sum_of (map g l).
Proof. intros H. f_equal. now apply map_ext_in. Qed.
Lemma sum_add {A} (f g : A -> Z) l : sum_of (map (fun x => f x + g x) l) = sum_of (map f l) + sum_of (map g l).
Proof. induction l as [|x l IH]; cbn [map sum_of fold_right] in *; [lia|]. unfold sum_of in IH. rewrite IH. lia. Qed.
Lemma sum_sub {A} (f g : A -> Z) l : sum_of (map (fun x => f x - g x) l) = sum_of (map f l) - sum_of (map g l).
Proof. induction l as [|x l IH]; cbn [map sum_of fold_right] in *; [lia|]. unfold sum_of in IH. rewrite IH. lia. Qed.
Lemma sum_zero {A} (f : A -> Z) l : (forall x, In x l -> f x = 0) -> sum_of (map f l) = 0.
Proof. induction l as [|x l IH]; intros H; cbn [map sum_of fold_right] in *; [lia|]. unfold sum_of in IH. rewrite IH by (intros; apply H; now right). rewrite H by now left. lia. Qed.
Lemma sum_pos {A} (f : A -> Z) l : (forall x, In x l -> 0 <= f x) -> 0 <= sum_of (map f l).
Proof. induction l as [|x l IH]; intros H; cbn [map sum_of fold_right] in *; [lia|]. unfold sum_of in IH. specialize (IH (fun y Y => H y (or_intror Y))). specialize (H x (or_introl eq_refl)). lia. Qed.
Lemma sum_app a b : sum_of (a ++ b) = sum_of a + sum_of b.
Proof. unfold sum_of. induction a as [|x a IH]; cbn [app fold_right] in *; [lia|]. rewrite IH. lia. Qed.

(** ** One piece *)
Lemma marks_sum t i : forall l m k, (length l <= m)%nat ->
  sum_of (map (fun j => if negb (nth (j - k) l 0 =? 0) then 0 else len t i j) (seq k m)) = sum_of (map (len t i) (seq k m)) - weight t i k l.
Proof.
  induction l as [|x l IH]; intros m k L.
  - cbn [weight]. rewrite Z.sub_0_r. apply sum_ext. intros j _. destruct (j - k)%nat; reflexivity.
  - destruct m as [|m]; [cbn in L; lia|]. cbn [seq map sum_of fold_right weight]. rewrite Nat.sub_diag. change (nth 0 (x :: l) 0) with x.
    specialize (IH m (S k) ltac:(cbn in L; lia)). unfold sum_of in IH.
    assert (E : fold_right Z.add 0 (map (fun j => if negb (nth (j - k) (x :: l) 0 =? 0) then 0 else len t i j) (seq (S k) m)) =
                fold_right Z.add 0 (map (fun j => if negb (nth (j - S k) l 0 =? 0) then 0 else len t i j) (seq (S k) m))).
    { f_equal. apply map_ext_in. intros j J. apply in_seq in J. replace (j - k)%nat with (S (j - S k)) by lia. reflexivity. }
    rewrite E, IH. unfold len at 1. destruct (x =? 0); cbn [negb]; fold (len t i k); lia.
Qed.

Definition size_i (t : torrentInfo) (i : Z) : Z := size_of_piece (pieceSize t) (fullSize t) i.

Lemma piece_left_ok t d i : info_ok t -> 0 <= i <= lastPieceIndex t -> zlen (blocks_at d i) <= getPieceBlocksCount t i ->
  piece_left t d i = if is_received (dProg d) i then 0 else size_i t i - weight t i 0 (blocks_at d i).
Proof.
  intros IO R L. unfold piece_left, block_left. destruct (is_received (dProg d) i); cbn [orb]; [now apply sum_zero|].
  destruct (piece_sum t i IO R) as (S & _). unfold size_i. rewrite <- S, <- marks_sum; [|unfold zlen in L; lia]. apply sum_ext. intros j _. now rewrite Nat.sub_0_r.
Qed.

(** ** The book of the pieces under way *)
Definition book (d : dl) : list (Z * Z) := map (fun ir => (fst ir, psSize (rPiece (snd ir)))) (dReqs d) ++ map (fun u => (psIndex u, psSize u)) (filter nz (dUnf d)).

Definition entry (b : list (Z * Z)) (i : Z) : Z := match aget i b with Some v => v | None => 0 end.

Lemma delta_sum k v : forall m s, sum_of (map (fun i => if Z.of_nat i =? k then v else 0) (seq s m)) = if (Z.of_nat s <=? k) && (k <? Z.of_nat (s + m)) then v else 0.
Proof.
  induction m as [|m IH]; intros s; cbn [seq map sum_of fold_right].
  - destruct (Z.leb_spec (Z.of_nat s) k), (Z.ltb_spec k (Z.of_nat (s + 0))); cbn [andb]; lia.
  - specialize (IH (S s)). unfold sum_of in IH. rewrite IH.
    destruct (Z.eqb_spec (Z.of_nat s) k), (Z.leb_spec (Z.of_nat (S s)) k), (Z.ltb_spec k (Z.of_nat (S s + m))), (Z.leb_spec (Z.of_nat s) k), (Z.ltb_spec k (Z.of_nat (s + S m))); cbn [andb]; lia.
Qed.

Lemma book_sum N : forall b, NoDup (map fst b) -> Forall (fun x => 0 <= fst x < Z.of_nat N) b ->
  sum_of (map (fun i => entry b (Z.of_nat i)) (seq 0 N)) = sum_of (map snd b).
Proof.
  induction b as [|(k & v) b IH]; intros D F.
  - now apply sum_zero.
  - cbn [map] in D. inversion D; subst. inversion F; subst. cbn [map sum_of fold_right snd]. specialize (IH H2 H4). unfold sum_of in IH at 2. rewrite <- IH.
    cbn [fst] in *. rewrite (sum_ext _ (fun i => (if Z.of_nat i =? k then v else 0) + entry b (Z.of_nat i))).
    + rewrite sum_add, delta_sum. destruct (Z.leb_spec (Z.of_nat 0) k), (Z.ltb_spec k (Z.of_nat (0 + N))); cbn [andb]; lia.
    + intros i _. unfold entry. cbn [aget]. rewrite (Z.eqb_sym k). destruct (Z.eqb_spec (Z.of_nat i) k) as [<-|NE]; [|destruct (aget (Z.of_nat i) b); lia].
      destruct (aget (Z.of_nat i) b) eqn:E; [|lia]. exfalso. apply H1. apply aget_In_fst. congruence.
Qed.

Lemma aget_app {A} i (a b : list (Z * A)) : aget i (a ++ b) = match aget i a with Some v => Some v | None => aget i b end.
Proof. induction a as [|(k & v) a IH]; cbn; [reflexivity|]. destruct (k =? i); [reflexivity|exact IH]. Qed.

Lemma book_aget d i : aget i (book d) = match aget i (dReqs d) with Some r => Some (psSize (rPiece r))
  | None => match find (fun u => (psIndex u =? i) && negb (psSize u =? 0)) (dUnf d) with Some u => Some (psSize u) | None => None end end.
Proof.
  unfold book. rewrite aget_app. rewrite (aget_map (fun _ r => psSize (rPiece r)) i (dReqs d)). destruct (aget i (dReqs d)); cbn [option_map]; [reflexivity|].
  induction (dUnf d) as [|u l IH]; [reflexivity|]. cbn [filter find]. unfold nz at 1. destruct (negb (psSize u =? 0)); cbn [andb map aget fst]; [|now rewrite andb_false_r].
  rewrite andb_true_r. destruct (psIndex u =? i); [reflexivity|exact IH].
Qed.

Lemma book_keys d : map fst (book d) = map fst (dReqs d) ++ map psIndex (filter nz (dUnf d)).
Proof. unfold book. now rewrite map_app, !map_map. Qed.

Lemma find_unf l i u : find (fun u => (psIndex u =? i) && negb (psSize u =? 0)) l = Some u -> In u (filter nz l) /\ psIndex u = i.
Proof.
  intros F. apply find_some in F. destruct F as (F & K). apply andb_true_iff in K. destruct K as (K1 & K2). apply Z.eqb_eq in K1. split; [|exact K1]. apply filter_In. auto.
Qed.

Lemma entry_ok t n H d i : Good t n H d -> Acc t n d -> 0 <= i < n ->
  zlen (blocks_at d i) <= getPieceBlocksCount t i /\ entry (book d) i = weight t i 0 (blocks_at d i) /\ (is_received (dProg d) i = true -> entry (book d) i = 0).
Proof.
  intros G A R. pose proof (g_inv _ _ _ _ G) as I. unfold entry. rewrite book_aget. unfold blocks_at.
  assert (C0 : 0 <= getPieceBlocksCount t i) by (pose proof (zlen_nonneg (makePieceBlocksInfo t i)); unfold getPieceBlocksCount, u32, BlockMaxSize in *; destruct (_ =? _); qlia).
  destruct (aget i (dReqs d)) as [r|] eqn:E.
  - destruct (i_req _ _ _ _ I i r E) as (_ & (_ & W & _)). destruct (a_req _ _ _ A i r E) as (X & Y). split; [lia|]. split; [exact Y|congruence].
  - destruct (find _ (dUnf d)) as [u|] eqn:F.
    + destruct (find_unf _ _ _ F) as (F1 & F2). destruct (a_unf _ _ _ A u F1) as (_ & X & Y). rewrite F2 in X, Y. split; [|split; [exact Y|congruence]].
      apply filter_In in F1. destruct (i_unf _ _ _ _ I u (proj1 F1)) as [Z|(_ & W & _)]; [rewrite Z; exact C0|rewrite F2 in W; lia].
    + split; [exact C0|]. auto.
Qed.

(** ** All of it *)
Lemma sum_sizes_seq f ps fs n : forall l i, sum_sizes f ps fs n i l = sum_of (map (fun k => if f (nth k l 0) then piece_size ps fs n (i + Z.of_nat k) else 0) (seq 0 (length l))).
Proof.
  induction l as [|x l IH]; intros i; cbn [sum_sizes length seq map sum_of fold_right]; [reflexivity|]. rewrite IH. cbn [nth]. rewrite Z.add_0_r. f_equal. unfold sum_of. f_equal.
  rewrite <- seq_shift, map_map. apply map_ext. intros k. cbn [nth]. replace (i + 1 + Z.of_nat k) with (i + Z.of_nat (S k)) by lia. reflexivity.
Qed.

Lemma size_sum ps fs n : sizes_ok ps fs (Z.of_nat n) -> (1 <= n)%nat -> sum_of (map (fun k => size_of_piece ps fs (Z.of_nat k)) (seq 0 n)) = fs.
Proof.
  intros S N. destruct S as (S1 & S2 & _). destruct n as [|n]; [lia|]. rewrite seq_S, map_app, sum_app. cbn [map sum_of fold_right Nat.add].
  assert (E : forall m s, Z.of_nat (s + m) <= Z.of_nat n -> sum_of (map (fun k => size_of_piece ps fs (Z.of_nat k)) (seq s m)) = Z.of_nat m * ps).
  { induction m as [|m IH]; intros s L; cbn [seq map sum_of fold_right]; [lia|]. specialize (IH (S s) ltac:(lia)). unfold sum_of in IH. rewrite IH. unfold size_of_piece.
    assert (Z.of_nat s * ps + ps <= Z.of_nat n * ps) by (replace (Z.of_nat s * ps + ps) with ((Z.of_nat s + 1) * ps) by ring; apply Z.mul_le_mono_nonneg_r; lia). lia. }
  fold (sum_of (map (fun k => size_of_piece ps fs (Z.of_nat k)) (seq 0 n))). rewrite E by lia. unfold size_of_piece. lia.
Qed.

Lemma u64_fold {A} (f : A -> Z) : forall l s, u64 (fold_left (fun s x => u64 (s + f x)) l s) = u64 (s + sum_of (map f l)).
Proof.
  induction l as [|x l IH]; intros s; cbn [fold_left map sum_of fold_right]; [now rewrite Z.add_0_r|]. rewrite IH. unfold u64, sum_of. rewrite Zplus_mod_idemp_l. f_equal. lia.
Qed.

Lemma book_total d : sum_of (map snd (book d)) = sum_of (map psSize (dUnf d)) + sum_of (map (fun ir => psSize (rPiece (snd ir))) (dReqs d)).
Proof.
  unfold book. rewrite map_app, sum_app, !map_map. cbn [snd]. rewrite Z.add_comm. f_equal.
  induction (dUnf d) as [|u l IH]; [reflexivity|]. cbn [filter]. unfold nz at 1. destruct (Z.eqb_spec (psSize u) 0); cbn [negb map sum_of fold_right]; unfold sum_of in IH; rewrite IH; lia.
Qed.

Lemma unfinished_total d : u64 (getUnfinishedPiecesDownloadSize d) = u64 (sum_of (map snd (book d))).
Proof.
  unfold getUnfinishedPiecesDownloadSize, requestsSize, unfinishedSize. rewrite (u64_fold (fun ir => psSize (rPiece (snd ir)))). unfold u64. rewrite <- Zplus_mod_idemp_l.
  pose proof (u64_fold psSize (dUnf d) 0) as E. unfold u64 in E. rewrite E, Zplus_mod_idemp_l, book_total. f_equal. 
Qed.

Definition slip (t : torrentInfo) (n : Z) (d : dl) : Z := if is_received (dProg d) (n - 1) && (fullSize t mod pieceSize t =? 0) then pieceSize t else 0.

Lemma left_ok t n H d : info_ok t -> n = lastPieceIndex t + 1 -> fullSize t < 9223372036854775808 -> Good t n H d -> Acc t n d ->
  dataLeft t d = all_left t n d + slip t n d /\ 0 <= all_left t n d <= fullSize t /\ finishedBytes t d = fullSize t - all_left t n d - slip t n d.
Proof.
  intros IO NL FS G A. pose proof (g_inv _ _ _ _ G) as I. pose proof (i_len _ _ _ _ I) as L. pose proof IO as (I1 & I2 & I3 & I4).
  assert (SO : sizes_ok (pieceSize t) (fullSize t) (zlen (pieces (dProg d)))) by (rewrite L; split; [lia|]; split; [|exact FS]; subst n; rewrite Z.mul_comm, (Z.mul_comm _ (lastPieceIndex t + 1)); replace (lastPieceIndex t + 1 - 1) with (lastPieceIndex t) by lia; exact I3).
  assert (NE : pieces (dProg d) <> []) by (intros E; rewrite E in L; cbn in L; unfold zlen in L; cbn in L; lia).
  pose proof (receivedBytes_ok _ _ _ (g_flags _ _ _ _ G) (g_exact _ _ _ _ G) SO NE) as RB.
  set (N := Z.to_nat n). assert (LN : length (pieces (dProg d)) = N) by (unfold zlen in L; lia).
  assert (IR : forall k, is_received (dProg d) (Z.of_nat k) = received (nth k (pieces (dProg d)) 0)) by (intros k; unfold is_received; rewrite Nat2Z.id; destruct (Z.leb_spec 0 (Z.of_nat k)); [reflexivity|lia]).
  assert (SZ : forall k, In k (seq 0 N) -> piece_size (pieceSize t) (fullSize t) n (0 + Z.of_nat k) = size_i t (Z.of_nat k)).
  { intros k K. apply in_seq in K. cbn [Nat.add] in K. unfold piece_size, size_i, size_of_piece. rewrite Z.add_0_l. assert (KB : Z.of_nat k <= n - 1) by lia. destruct (Z.eqb_spec (Z.of_nat k) (n - 1)) as [E|E].
    - rewrite E, NL. replace (lastPieceIndex t + 1 - 1) with (lastPieceIndex t) by lia. lia.
    - assert ((Z.of_nat k + 1) * pieceSize t <= lastPieceIndex t * pieceSize t) by (apply Z.mul_le_mono_nonneg_r; lia). lia. }
  assert (P0 : all_left t n d = sum_of (map (fun k => size_i t (Z.of_nat k)) (seq 0 N)) - sum_of (map (fun k => if received (nth k (pieces (dProg d)) 0) then piece_size (pieceSize t) (fullSize t) n (0 + Z.of_nat k) else 0) (seq 0 N))
                              - sum_of (map (fun k => entry (book d) (Z.of_nat k)) (seq 0 N))).
  { rewrite <- !sum_sub. unfold all_left. apply sum_ext. intros k K. pose proof (SZ k K) as S1. apply in_seq in K. cbn [Nat.add] in K.
    destruct (entry_ok t n H d (Z.of_nat k) G A ltac:(lia)) as (E1 & E2 & E3). rewrite (piece_left_ok t d (Z.of_nat k) IO ltac:(lia) E1), S1, <- IR.
    destruct (is_received (dProg d) (Z.of_nat k)); [rewrite E3 by reflexivity; lia|rewrite <- E2; lia]. }
  assert (SS : sum_of (map (fun k => size_i t (Z.of_nat k)) (seq 0 N)) = fullSize t) by (apply size_sum; [rewrite <- LN; exact SO|lia]).
  rewrite SS in P0.
  assert (P1 : sum_of (map (fun k => if received (nth k (pieces (dProg d)) 0) then piece_size (pieceSize t) (fullSize t) n (0 + Z.of_nat k) else 0) (seq 0 N)) = sum_sizes received (pieceSize t) (fullSize t) n 0 (pieces (dProg d))).
  { rewrite sum_sizes_seq. now rewrite LN. }
  rewrite P1 in P0. rewrite (book_sum N (book d)) in P0.
  2:{ rewrite book_keys. apply A. }
  2:{ apply Forall_forall. intros x X. assert (Kx : In (fst x) (map fst (book d))) by now apply in_map. rewrite book_keys in Kx. apply in_app_or in Kx. destruct Kx as [Kx|Kx].
      - apply aget_In_fst in Kx. destruct (aget (fst x) (dReqs d)) as [r|] eqn:E; [|congruence]. destruct (i_req _ _ _ _ I _ r E). lia.
      - apply in_map_iff in Kx. destruct Kx as (u & <- & U). apply (a_unf _ _ _ A) in U. lia. }
  assert (LP : 0 <= all_left t n d).
  { unfold all_left. apply sum_pos. intros k K. apply in_seq in K. cbn [Nat.add] in K. unfold piece_left. apply sum_pos. intros j J. apply in_seq in J. unfold block_left. destruct (_ || _); [lia|].
    destruct (piece_sum t (Z.of_nat k) IO ltac:(lia)) as (_ & PP). specialize (PP j ltac:(lia)). unfold len in PP. lia. }
  assert (ER : received (last (pieces (dProg d)) 0) = is_received (dProg d) (n - 1)).
  { rewrite last_nth by exact NE. replace (n - 1) with (Z.of_nat (length (pieces (dProg d)) - 1)) by (unfold zlen in L; lia). now rewrite IR. }
  rewrite L, ER in RB. fold (slip t n d) in RB.
  assert (WP : 0 <= sum_of (map snd (book d))).
  { apply sum_pos. intros x X. rewrite (surjective_pairing x) in X. apply In_aget in X; [|rewrite book_keys; apply A]. rewrite book_aget in X.
    assert (W0 : forall i, 0 <= i < n -> forall l, zlen l <= getPieceBlocksCount t i -> 0 <= weight t i 0 l).
    { intros i Ri l Ll. apply weight_le. intros j J. destruct (piece_sum t i IO ltac:(lia)) as (_ & PP). apply PP. unfold zlen in Ll. lia. }
    destruct (aget (fst x) (dReqs d)) as [r|] eqn:E.
    - injection X as <-. destruct (i_req _ _ _ _ I _ r E) as (R & (_ & W & _)). rewrite (proj2 (a_req _ _ _ A _ r E)). apply W0; lia.
    - destruct (find _ (dUnf d)) as [u|] eqn:F; [|discriminate]. injection X as <-. destruct (find_unf _ _ _ F) as (F1 & F2). destruct (a_unf _ _ _ A u F1) as (X1 & _ & Y). rewrite Y. apply W0; [exact X1|].
      apply filter_In in F1. destruct (i_unf _ _ _ _ I u (proj1 F1)) as [ZB|(_ & W & _)]; [|lia]. rewrite ZB. change (zlen (@nil Z)) with 0. pose proof (zlen_nonneg (psBlocks u)). unfold getPieceBlocksCount, u32, BlockMaxSize. destruct (_ =? _); qlia. }
  assert (SL : 0 <= slip t n d <= sum_sizes received (pieceSize t) (fullSize t) n 0 (pieces (dProg d))).
  { assert (X : 0 <= getReceivedBytes (dProg d) (pieceSize t) (fullSize t)) by (unfold getReceivedBytes, u64; destruct (_ =? _); [lia|]; destruct (hasBit _ _); apply Z.mod_pos_bound; lia). unfold slip in *. destruct (_ && _) eqn:Q; lia. }
  assert (FB : finishedBytes t d = fullSize t - all_left t n d - slip t n d).
  { unfold finishedBytes. assert (E : u64 (getReceivedBytes (dProg d) (pieceSize t) (fullSize t) + getUnfinishedPiecesDownloadSize d) = u64 (getReceivedBytes (dProg d) (pieceSize t) (fullSize t) + sum_of (map snd (book d)))).
    { pose proof (unfinished_total d) as X. unfold u64 in *. rewrite <- Zplus_mod_idemp_r, X, Zplus_mod_idemp_r. reflexivity. }
    rewrite E, RB. unfold u64. rewrite Z.mod_small; lia. }
  split; [|split; [lia|exact FB]]. unfold dataLeft. rewrite FB. unfold u64. rewrite Z.mod_small; lia.
Qed.

(** ** Nothing left *)
Lemma sum_pick {A} (f : A -> Z) l x : (forall y, In y l -> 0 <= f y) -> In x l -> f x <= sum_of (map f l).
Proof.
  induction l as [|y l IH]; intros P []; cbn [map sum_of fold_right].
  - subst. pose proof (sum_pos f l (fun z Z => P z (or_intror Z))). unfold sum_of in *. lia.
  - specialize (IH (fun z Z => P z (or_intror Z)) H). specialize (P y (or_introl eq_refl)). unfold sum_of in *. lia.
Qed.

Lemma weight_nth t i : forall l k, (forall j, (k <= j < k + length l)%nat -> 0 < len t i j) -> 0 < zeros l -> weight t i k l < sum_of (map (len t i) (seq k (length l))).
Proof.
  induction l as [|x l IH]; intros k F Z0; [cbn in Z0; unfold zeros, zlen in Z0; cbn in Z0; lia|]. cbn [weight length seq map sum_of fold_right]. pose proof (F k ltac:(cbn; lia)).
  assert (F' : forall j, (S k <= j < S k + length l)%nat -> 0 < len t i j) by (intros j J; apply F; cbn; lia).
  pose proof (weight_le t i l (S k) F') as W. unfold sum_of in *. fold (len t i k). destruct (Z.eqb_spec x 0); [lia|].
  assert (0 < zeros l). { unfold zeros, zlen in *. cbn [filter] in Z0. destruct (Z.eqb_spec 0 x); [congruence|exact Z0]. }
  specialize (IH (S k) F' H0). lia.
Qed.

Lemma none_left t n H d : info_ok t -> n = lastPieceIndex t + 1 -> Good t n H d -> Acc t n d -> (all_left t n d = 0 <-> forall i, 0 <= i < n -> is_received (dProg d) i = true).
Proof.
  intros IO NL G A. pose proof (g_inv _ _ _ _ G) as I. split.
  - intros Z0 i R. destruct (is_received (dProg d) i) eqn:Q; [reflexivity|]. exfalso.
    destruct (piece_sum t i IO ltac:(lia)) as (PS & PP).
    assert (BP : forall j k, (j < Z.to_nat n)%nat -> (k < Z.to_nat (getPieceBlocksCount t (Z.of_nat j)))%nat -> 0 <= block_left t d (Z.of_nat j) k).
    { intros j k J K. unfold block_left. destruct (_ || _); [lia|]. destruct (piece_sum t (Z.of_nat j) IO ltac:(lia)) as (_ & P2). specialize (P2 k K). unfold len in P2. lia. }
    assert (L : piece_left t d i <= all_left t n d).
    { unfold all_left. replace i with (Z.of_nat (Z.to_nat i)) at 1 by lia. apply (sum_pick (fun j => piece_left t d (Z.of_nat j))); [|apply in_seq; lia]. intros j J. apply in_seq in J. apply sum_pos. intros k K. apply in_seq in K. apply BP; lia. }
    destruct (entry_ok t n H d i G A R) as (E1 & E2 & _). rewrite (piece_left_ok t d i IO ltac:(lia) E1), Q in L.
    assert (0 < size_i t i).
    { unfold size_i, size_of_piece. destruct IO as (I1 & I2 & I3 & _). assert (i * pieceSize t <= lastPieceIndex t * pieceSize t) by (apply Z.mul_le_mono_nonneg_r; lia). lia. }
    assert (W : weight t i 0 (blocks_at d i) < size_i t i); [|lia].
    assert (C : blocks_at d i = [] \/ (zlen (blocks_at d i) = getPieceBlocksCount t i /\ 0 < zeros (blocks_at d i))).
    { unfold blocks_at. destruct (aget i (dReqs d)) as [r|] eqn:E; [destruct (i_req _ _ _ _ I i r E) as (_ & (_ & Y1 & _ & Y2)); auto|].
      destruct (find _ (dUnf d)) as [u|] eqn:F; [|auto]. destruct (find_unf _ _ _ F) as (F1 & F2). apply filter_In in F1. destruct (i_unf _ _ _ _ I u (proj1 F1)) as [Y|(_ & Y1 & _ & Y2)]; [auto|]. rewrite F2 in Y1. auto. }
    destruct C as [C|(C1 & C2)]; [rewrite C; cbn; lia|]. unfold size_i. rewrite <- PS. replace (Z.to_nat (getPieceBlocksCount t i)) with (length (blocks_at d i)) by (unfold zlen in C1; lia).
    apply weight_nth; [|exact C2]. intros j J. apply PP. unfold zlen in C1. lia.
  - intros F. unfold all_left. apply sum_zero. intros k K. apply in_seq in K. unfold piece_left. apply sum_zero. intros j _. unfold block_left. rewrite F by lia. reflexivity.
Qed.

(** ** Files *)
Lemma entry_aset b k v i : entry (aset k v b) i = if k =? i then v else entry b i.
Proof. unfold entry. destruct (Z.eqb_spec k i) as [->|NE]; [now rewrite aget_set_same|]. rewrite aget_set_other by congruence. reflexivity. Qed.

Lemma unfMap_entry i : forall l m, 0 <= entry m i < 4294967296 ->
  entry (fold_left (fun m u => aset (psIndex u) (u32 (match aget (psIndex u) m with Some s => s | None => 0 end + psSize u)) m) l m) i =
  u32 (entry m i + sum_of (map (fun u => if psIndex u =? i then psSize u else 0) l)).
Proof.
  induction l as [|u l IH]; intros m R; cbn [fold_left map sum_of fold_right]; [rewrite Z.add_0_r; unfold u32; symmetry; now apply Z.mod_small|].
  rewrite IH; rewrite entry_aset; fold (entry m (psIndex u)); destruct (Z.eqb_spec (psIndex u) i) as [->|NE].
  - unfold u32, sum_of. rewrite Zplus_mod_idemp_l. f_equal. lia.
  - unfold sum_of. f_equal.
  - unfold u32. apply Z.mod_pos_bound. lia.
  - exact R.
Qed.

Lemma reqMap_entry i : forall (l : list (Z * reqInfo)) m, NoDup (map fst l) ->
  entry (fold_left (fun m ir => aset (fst ir) (psSize (rPiece (snd ir))) m) l m) i = match aget i l with Some r => psSize (rPiece r) | None => entry m i end.
Proof.
  induction l as [|(k & r) l IH]; intros m D; [reflexivity|]. cbn [map] in D. inversion D; subst. cbn [fold_left fst snd aget]. rewrite IH by assumption. rewrite entry_aset.
  cbn [fst] in *. destruct (Z.eqb_spec k i) as [->|NE]; [|reflexivity]. destruct (aget i l) eqn:E; [|reflexivity]. exfalso. apply H1, aget_In_fst. congruence.
Qed.

Lemma unf_sum i l : NoDup (map psIndex (filter nz l)) ->
  sum_of (map (fun u => if psIndex u =? i then psSize u else 0) l) = match find (fun u => (psIndex u =? i) && negb (psSize u =? 0)) l with Some u => psSize u | None => 0 end.
Proof.
  induction l as [|u l IH]; [reflexivity|]. cbn [filter find map sum_of fold_right]. unfold nz at 1. unfold sum_of in IH.
  destruct (Z.eqb_spec (psSize u) 0) as [Z0|Z0]; cbn [negb]; [intros N; rewrite andb_false_r, IH by exact N; destruct (psIndex u =? i); lia|].
  cbn [map]. rewrite andb_true_r. intros N. inversion N; subst. specialize (IH H2). destruct (Z.eqb_spec (psIndex u) i) as [E|E]; [|rewrite IH; lia].
  rewrite IH. destruct (find _ l) as [w|] eqn:F; [|lia]. exfalso. apply find_unf in F. destruct F as (F1 & F2). apply H1. rewrite E, <- F2. now apply in_map.
Qed.

Lemma sizeMap_ok t n H d i : info_ok t -> n = lastPieceIndex t + 1 -> Good t n H d -> Acc t n d -> 0 <= i < n -> entry (sizeMap d) i = piece_part t d i.
Proof.
  intros IO NL G A R. destruct (NoDup_app_e _ _ (a_nodup _ _ _ A)) as (N1 & N2 & _). destruct (entry_ok t n H d i G A R) as (E1 & E2 & _).
  unfold piece_part. rewrite <- E2. unfold sizeMap. rewrite reqMap_entry by exact N1. unfold entry at 2. rewrite book_aget. destruct (aget i (dReqs d)) as [r|] eqn:E; [reflexivity|].
  unfold unfinishedMap. rewrite unfMap_entry by (cbn; lia). cbn [entry aget]. rewrite unf_sum by exact N2. change (entry [] i) with 0. rewrite Z.add_0_l.
  assert (B : 0 <= entry (book d) i < 4294967296).
  { rewrite E2. destruct (piece_sum t i IO ltac:(lia)) as (PS & PP).
    assert (K : (length (blocks_at d i) <= Z.to_nat (getPieceBlocksCount t i))%nat) by (unfold zlen in E1; lia).
    pose proof (weight_le t i (blocks_at d i) 0 ltac:(intros j J; apply PP; lia)) as W.
    pose proof (marks_sum t i (blocks_at d i) _ 0 K) as MS. rewrite PS in MS.
    assert (0 <= sum_of (map (fun j => if negb (nth (j - 0) (blocks_at d i) 0 =? 0) then 0 else len t i j) (seq 0 (Z.to_nat (getPieceBlocksCount t i))))).
    { apply sum_pos. intros j J. apply in_seq in J. specialize (PP j ltac:(lia)). destruct (negb _); lia. }
    unfold size_of_piece in MS. destruct IO as ((_ & PZ) & _). lia. }
  unfold entry in B. rewrite book_aget, E in B. destruct (find _ (dUnf d)) as [u|]; [unfold u32; now apply Z.mod_small|reflexivity].
Qed.

Lemma filePieces_ok t n H d : info_ok t -> n = lastPieceIndex t + 1 -> Good t n H d -> Acc t n d -> forall k p rc sz, 0 <= p -> p + Z.of_nat k <= n ->
  0 <= rc -> rc + Z.of_nat k < 4294967296 -> 0 <= sz < 4294967296 ->
  let l := map (fun j => p + Z.of_nat j) (seq 0 k) in
  filePieces (dProg d) (sizeMap d) k p rc sz = Ok (rc + zlen (filter (is_received (dProg d)) l), u32 (sz + sum_of (map (piece_part t d) (filter (fun i => negb (is_received (dProg d) i)) l)))).
Proof.
  intros IO NL G A. pose proof (g_inv _ _ _ _ G) as I. induction k as [|k IH]; intros p rc sz P0 PN R0 RB SB l.
  - subst l. cbn. unfold zlen, u32. cbn. rewrite !Z.add_0_r, Z.mod_small by lia. reflexivity.
  - assert (EL : l = p :: map (fun j => p + 1 + Z.of_nat j) (seq 0 k)).
    { subst l. cbn [seq map]. rewrite Z.add_0_r. f_equal. rewrite <- seq_shift, map_map. apply map_ext. intros j. lia. }
    rewrite EL. cbn [filePieces filter].
    assert (HP : hasPiece (dProg d) p = Ok (is_received (dProg d) p)) by (unfold is_received; destruct (Z.leb_spec 0 p); [|lia]; apply has_ok; [apply G|apply G|rewrite (i_len _ _ _ _ I); lia]).
    rewrite HP. cbn [bind]. destruct (is_received (dProg d) p) eqn:Q; cbn [negb].
    + rewrite (IH (p + 1) (u32 (rc + 1)) sz) by (unfold u32; rewrite ?Z.mod_small by lia; lia). rewrite zlen_cons. unfold u32 at 1. rewrite Z.mod_small by lia. f_equal. f_equal; lia.
    + pose proof (sizeMap_ok t n H d p IO NL G A ltac:(lia)) as SM. unfold entry in SM. cbn [map sum_of fold_right].
      set (sz2 := match aget p (sizeMap d) with Some s => u32 (sz + s) | None => sz end).
      assert (SZ : sz2 = u32 (sz + piece_part t d p)).
      { unfold sz2. destruct (aget p (sizeMap d)); [now rewrite <- SM|]. rewrite <- SM. unfold u32. rewrite Z.add_0_r. symmetry. now apply Z.mod_small. }
      rewrite (IH (p + 1) rc sz2); [|lia|lia|lia|lia|rewrite SZ; unfold u32; apply Z.mod_pos_bound; lia]. f_equal. f_equal. rewrite SZ. unfold u32, sum_of. rewrite Zplus_mod_idemp_l. f_equal. lia.
Qed.

Lemma files_ok t n H d : info_ok t -> n = lastPieceIndex t + 1 -> n < 4294967296 -> Good t n H d -> Acc t n d -> forall fs,
  Forall (fun f => 0 <= startPiece f /\ endPiece f < n) fs ->
  getFilesProgress d fs = Ok (map (fun f => (zlen (filter (is_received (dProg d)) (pieces_of f)), u32 (sum_of (map (piece_part t d) (filter (fun i => negb (is_received (dProg d) i)) (pieces_of f)))))) fs).
Proof.
  intros IO NL NB G A. induction fs as [|f fs IH]; intros F; [reflexivity|]. inversion F; subst. cbn [getFilesProgress map]. unfold fileProgress.
  destruct (Z.leb_spec (startPiece f) (endPiece f)).
  - rewrite (filePieces_ok t _ H d IO eq_refl G A) by lia. cbn [bind]. rewrite IH by assumption. cbn [bind]. unfold pieces_of. do 3 f_equal.
  - unfold pieces_of. replace (Z.to_nat (endPiece f - startPiece f + 1)) with O by lia. cbn. unfold pieces_of in IH. rewrite IH by assumption. reflexivity.
Qed.
