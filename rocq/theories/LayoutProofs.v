From Verif Require Import Base BaseLemmas LayoutModel LayoutSpec.

Lemma total_cons s l : total (s :: l) = s + total l. Proof. reflexivity. Qed.
Lemma total_app a b : total (a ++ b) = total a + total b.
Proof. induction a as [|x a IH]; [reflexivity|]. cbn [app]. rewrite !total_cons, IH. lia. Qed.
Lemma total_nonneg l : Forall (fun s => 0 <= s) l -> 0 <= total l.
Proof. induction 1; [cbn; lia|]. rewrite total_cons. lia. Qed.

Definition file_at (ps o : Z) (size : Z) (f : file) : Prop :=
  fsize f = size /\ first_byte ps f = o /\ 0 <= startPos f < ps /\
  endPos f = (o + size) mod ps /\
  endPiece f * ps + (if negb (size =? 0) && ((o + size) mod ps =? 0) then ps else endPos f) = o + size /\
  0 <= startPiece f <= endPiece f.

Lemma makeFile_at ps o size : 0 < ps < 4294967296 -> 0 <= o -> 0 <= size -> o + size < 9223372036854775808 ->
  (o + size) / ps < 4294967295 -> file_at ps o size (makeFile ps o size).
Proof.
  intros Hp Ho Hs Hb Hi. unfold makeFile, file_at, first_byte.
  assert (U : u64 (o + size) = o + size) by (unfold u64; apply Z.mod_small; lia).
  rewrite U.
  assert (D0 : 0 <= o / ps <= (o + size) / ps) by (split; [apply Z.div_pos; lia|apply Z.div_le_mono; lia]).
  assert (M0 : 0 <= o mod ps < ps) by (apply Z.mod_pos_bound; lia).
  assert (M1 : 0 <= (o + size) mod ps < ps) by (apply Z.mod_pos_bound; lia).
  pose proof (Z.div_mod o ps ltac:(lia)) as E0. pose proof (Z.div_mod (o + size) ps ltac:(lia)) as E1.
  unfold getPieceIndex. cbn [fsize startPiece startPos endPiece endPos andb].
  assert (V : forall x, 0 <= x < 4294967296 -> u32 x = x) by (intros; unfold u32; now apply Z.mod_small).
  rewrite (V (o / ps)), (V ((o + size) / ps)), (V (o mod ps)), (V ((o + size) mod ps)) by lia.
  split; [reflexivity|]. split; [lia|]. split; [assumption|]. split; [reflexivity|].
  destruct (Z.eqb_spec size 0) as [Z0|Z0]; cbn [negb andb].
  - subst size. rewrite !Z.add_0_r in *. lia.
  - destruct (Z.eqb_spec ((o + size) mod ps) 0) as [Z1|Z1].
    + assert (P : 1 <= (o + size) / ps).
      { destruct (Z.eq_dec ((o + size) / ps) 0) as [Q|Q]; [|lia]. rewrite Q, Z1 in E1. lia. }
      rewrite V by lia. split; [lia|]. split; [lia|].
      assert (ps * (o / ps) < ps * ((o + size) / ps)) by lia.
      assert (o / ps < (o + size) / ps) by (apply (Z.mul_lt_mono_pos_l ps); lia). lia.
    + split; lia.
Qed.

Lemma makeFiles_at ps sizes : forall o, 0 < ps < 4294967296 -> 0 <= o -> Forall (fun s => 0 <= s) sizes ->
  o + total sizes < 9223372036854775808 -> (o + total sizes) / ps < 4294967295 ->
  snd (makeFiles ps o sizes) = o + total sizes /\ length (fst (makeFiles ps o sizes)) = length sizes /\
  forall k, (k < length sizes)%nat -> file_at ps (o + offset sizes k) (nth k sizes 0) (nth k (fst (makeFiles ps o sizes)) noFile).
Proof.
  induction sizes as [|s l IH]; intros o Hp Ho F Hb Hi.
  - cbn. split; [lia|]. split; [reflexivity|]. intros k Hk. cbn in Hk. lia.
  - inversion F; subst. rewrite total_cons in *. pose proof (total_nonneg l H2).
    assert (U : u64 (o + s) = o + s) by (unfold u64; apply Z.mod_small; lia).
    cbn [makeFiles]. rewrite U.
    destruct (IH (o + s)) as (I1 & I2 & I3); try assumption; try lia.
    { now rewrite <- Z.add_assoc. }
    destruct (makeFiles ps (o + s) l) as [fs t]. cbn [fst snd] in *. split; [lia|]. split; [cbn [length]; now rewrite I2|].
    intros k Hk. destruct k as [|k]; cbn [nth].
    + unfold offset. cbn [firstn total fold_right]. rewrite Z.add_0_r. apply makeFile_at; try lia.
      assert ((o + s) / ps <= (o + (s + total l)) / ps) by (apply Z.div_le_mono; lia). lia.
    + replace (o + offset (s :: l) (S k)) with (o + s + offset l k) by (unfold offset; cbn [firstn]; rewrite total_cons; lia).
      apply I3. cbn [length] in Hk. lia.
Qed.

Lemma pieces_exact ps o size f p : 0 < ps -> file_at ps o size f -> 0 < size ->
  (startPiece f <= p <= endPiece f <-> has_byte_in ps o size p).
Proof.
  intros Hp (H1 & H2 & H3 & H4 & H5 & H6) Hs. unfold first_byte in H2.
  assert (E : exists e, endPiece f * ps + e = o + size /\ 0 < e <= ps).
  { pose proof (Z.mod_pos_bound (o + size) ps Hp). destruct (Z.eqb_spec size 0); [lia|]. cbn [negb andb] in H5.
    destruct (Z.eqb_spec ((o + size) mod ps) 0); [exists ps|exists (endPos f)]; lia. }
  destruct E as (e & E1 & E2). unfold has_byte_in. split.
  - intros Hr. exists (Z.max o (p * ps)). 
    assert (A : startPiece f * ps <= p * ps) by (apply Z.mul_le_mono_nonneg_r; lia).
    assert (B : p * ps <= endPiece f * ps) by (apply Z.mul_le_mono_nonneg_r; lia).
    split; [lia|]. symmetry. apply (Z.div_unique _ ps p (Z.max o (p * ps) - p * ps)); [|lia].
    left. destruct (Z.eq_dec p (startPiece f)) as [->|N]; [lia|].
    assert ((startPiece f + 1) * ps <= p * ps) by (apply Z.mul_le_mono_nonneg_r; lia). lia.
  - intros (b & Hb & <-). split.
    + apply Z.div_le_lower_bound; lia.
    + apply Z.lt_succ_r. apply Z.div_lt_upper_bound; [lia|]. lia.
Qed.

Lemma one_file sizes : Forall (fun s => 0 <= s) sizes -> forall b, 0 <= b < total sizes ->
  exists k, (k < length sizes)%nat /\ offset sizes k <= b < offset sizes k + nth k sizes 0 /\
    forall j, (j < length sizes)%nat -> offset sizes j <= b < offset sizes j + nth j sizes 0 -> j = k.
Proof.
  induction sizes as [|s l IH]; intros F b Hb; [cbn in Hb; lia|]. inversion F; subst. rewrite total_cons in Hb.
  assert (O : forall j, offset (s :: l) (S j) = s + offset l j) by (intros; unfold offset; cbn [firstn]; now rewrite total_cons).
  assert (O0 : offset (s :: l) 0 = 0) by reflexivity.
  assert (OP : forall j, 0 <= offset l j).
  { intros j. unfold offset. apply total_nonneg. rewrite <- (firstn_skipn j l) in H2. now apply Forall_app in H2. }
  destruct (Z.ltb_spec b s) as [L|L].
  - exists 0%nat. split; [cbn; lia|]. rewrite O0. cbn [nth]. split; [lia|]. intros j Hj Hx. destruct j as [|j]; [reflexivity|].
    rewrite O in Hx. specialize (OP j). cbn [nth] in Hx. lia.
  - destruct (IH H2 (b - s)) as (k & K1 & K2 & K3); [lia|]. exists (S k). split; [cbn; lia|]. rewrite O. cbn [nth]. split; [lia|].
    intros j Hj Hx. destruct j as [|j].
    + rewrite O0 in Hx. cbn [nth] in Hx. lia.
    + f_equal. apply K3; [cbn in Hj; lia|]. rewrite O in Hx. cbn [nth] in Hx. lia.
Qed.

(** Blocks. *)
Lemma tiles_app from a mid b to : tiles from a mid -> tiles mid b to -> tiles from (a ++ b) to.
Proof.
  revert from. induction a as [|x a IH]; intros from H1 H2; cbn [app tiles] in *; [now subst|].
  destruct H1 as (A & B & C). split; [assumption|]. split; [assumption|]. now apply IH.
Qed.

Lemma tiles_full t idx : forall n k, (forall i, (k <= i < k + n)%nat -> bbegin (getPieceBlockInfo t idx (Z.of_nat i)) = Z.of_nat i * 16384 /\
    blength (getPieceBlockInfo t idx (Z.of_nat i)) = 16384) ->
  tiles (Z.of_nat k * 16384) (map (fun i => getPieceBlockInfo t idx (Z.of_nat i)) (seq k n)) (Z.of_nat (k + n) * 16384).
Proof.
  induction n as [|n IH]; intros k H; cbn [seq map tiles]; [f_equal; lia|].
  destruct (H k) as [A B]; [lia|]. rewrite A, B. split; [reflexivity|]. split; [lia|].
  replace (Z.of_nat k * 16384 + 16384) with (Z.of_nat (S k) * 16384) by lia.
  replace (k + S n)%nat with (S k + n)%nat by lia. apply IH. intros i Hi. apply H. lia.
Qed.

(** A torrent whose last piece has its true size. *)
Definition info_ok (t : torrentInfo) : Prop :=
  0 < pieceSize t < 2147483648 /\ 0 <= lastPieceIndex t /\
  lastPieceIndex t * pieceSize t < fullSize t <= (lastPieceIndex t + 1) * pieceSize t /\
  lastPieceSize t = fullSize t - lastPieceIndex t * pieceSize t /\
  lastPieceLastBlockIndex t = (lastPieceSize t - 1) / 16384 /\
  lastPieceLastBlockSize t = lastPieceSize t - lastPieceLastBlockIndex t * 16384.

Lemma u32_id x : 0 <= x < 4294967296 -> u32 x = x.
Proof. intros. unfold u32. now apply Z.mod_small. Qed.

Lemma blocks_tile t idx : info_ok t -> 0 <= idx <= lastPieceIndex t ->
  tiles 0 (makePieceBlocksInfo t idx) (size_of_piece (pieceSize t) (fullSize t) idx) /\
  getPieceSize t idx = size_of_piece (pieceSize t) (fullSize t) idx.
Proof.
  intros (P & L0 & FS & LS & LB & LBS) Hi. unfold size_of_piece, getPieceSize, makePieceBlocksInfo, getPieceBlocksCount, BlockMaxSize.
  set (ps := pieceSize t) in *. set (lp := lastPieceIndex t) in *.
  destruct (Z.eqb_spec idx lp) as [->|N].
  - split; [|lia]. set (m := lastPieceSize t) in *. assert (M : 0 < m <= ps) by lia.
    replace (Z.min ps (fullSize t - lp * ps)) with m by lia.
    set (lb := lastPieceLastBlockIndex t) in *.
    assert (B : 0 <= lb /\ lb * 16384 < m <= lb * 16384 + 16384) by lia.
    rewrite u32_id by lia. replace (Z.to_nat (lb + 1)) with (Z.to_nat lb + 1)%nat by lia. rewrite seq_app, map_app.
    apply (tiles_app 0 _ (lb * 16384)).
    + pose proof (tiles_full t lp (Z.to_nat lb) 0) as T. cbn [Nat.add] in T. rewrite Z2Nat.id in T by lia. apply T. intros i Hx.
      unfold getPieceBlockInfo, BlockMaxSize. cbn [bbegin blength]. fold lp lb ps. rewrite Z.eqb_refl. cbn [andb].
      destruct (Z.eqb_spec (Z.of_nat i) lb); [lia|]. rewrite !u32_id by lia. split; [reflexivity|].
      assert (Z.of_nat i * 16384 + 16384 <= lb * 16384) by lia. lia.
    + cbn [seq map tiles]. unfold getPieceBlockInfo, BlockMaxSize. cbn [bbegin blength]. fold lp lb ps.
      cbn [Nat.add]. rewrite Z2Nat.id by lia. rewrite !Z.eqb_refl. cbn [andb]. rewrite u32_id by lia. rewrite LBS. lia.
  - assert (I1 : (idx + 1) * ps <= lp * ps) by (apply Z.mul_le_mono_nonneg_r; lia).
    split; [|lia]. replace (Z.min ps (fullSize t - idx * ps)) with ps by lia.
    rewrite u32_id by lia. set (n := (ps + 16384 - 1) / 16384).
    assert (B : 1 <= n /\ (n - 1) * 16384 < ps <= n * 16384) by lia.
    assert (G : forall i, 0 <= i < n -> bbegin (getPieceBlockInfo t idx i) = i * 16384 /\ blength (getPieceBlockInfo t idx i) = Z.min 16384 (ps - i * 16384)).
    { intros i Hx. unfold getPieceBlockInfo, BlockMaxSize. cbn [bbegin blength]. fold lp ps. destruct (Z.eqb_spec idx lp); [lia|]. cbn [andb].
      assert (i * 16384 <= (n - 1) * 16384) by lia. rewrite !u32_id by lia. split; reflexivity. }
    replace (Z.to_nat n) with (Z.to_nat (n - 1) + 1)%nat by lia. rewrite seq_app, map_app.
    apply (tiles_app 0 _ ((n - 1) * 16384)).
    + pose proof (tiles_full t idx (Z.to_nat (n - 1)) 0) as T. cbn [Nat.add] in T. rewrite Z2Nat.id in T by lia. apply T. intros i Hx.
      destruct (G (Z.of_nat i)) as [G1 G2]; [lia|]. rewrite G1, G2. split; [reflexivity|].
      assert (Z.of_nat i * 16384 + 16384 <= (n - 1) * 16384) by lia. lia.
    + cbn [seq map tiles Nat.add]. rewrite Z2Nat.id by lia. destruct (G (n - 1)) as [G1 G2]; [lia|]. rewrite G1, G2.
      split; [reflexivity|]. lia.
Qed.

Lemma makeInfo_ok ps full fs : fs <> [] -> 0 < ps < 2147483648 -> 0 < full -> 
  0 <= endPiece (last fs noFile) -> end_byte ps (last fs noFile) = full -> 0 < endPos (last fs noFile) <= ps ->
  info_ok (makeInfo ps full fs).
Proof.
  intros Hn Hp Hf H0 He Hl. destruct fs as [|f fs]; [congruence|]. unfold makeInfo, info_ok, BlockMaxSize, end_byte in *.
  set (l := last (f :: fs) noFile) in *. cbn [pieceSize lastPieceIndex fullSize lastPieceSize lastPieceLastBlockIndex lastPieceLastBlockSize].
  rewrite (u32_id (endPos l - 1)) by lia.
  assert (B : 0 <= (endPos l - 1) / 16384 /\ (endPos l - 1) / 16384 * 16384 <= endPos l - 1) by lia.
  rewrite (u32_id ((endPos l - 1) / 16384 * 16384)) by lia.
  rewrite u32_id by lia. repeat split; lia.
Qed.
