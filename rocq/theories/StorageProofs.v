From Verif Require Import Base BaseLemmas LayoutModel LayoutSpec LayoutProofs StorageModel StorageSpec.
From Coq Require Import Permutation.

(** ** Lists by [Z] positions *)
Lemma zn_app a b i : 0 <= i -> zn (a ++ b) i = if i <? zlen a then zn a i else zn b (i - zlen a).
Proof.
  intros H. unfold zn, zlen. destruct (Z.ltb_spec i (Z.of_nat (length a))).
  - apply app_nth1. lia.
  - rewrite app_nth2 by lia. f_equal. lia.
Qed.

Lemma zn_oob l i : zlen l <= i -> zn l i = 0.
Proof. intros H. unfold zn, zlen in *. apply nth_overflow. lia. Qed.

Lemma zn_repeat n i : zn (repeat 0 n) i = 0.
Proof. unfold zn. generalize (Z.to_nat i). induction n as [|n IH]; intros [|k]; cbn [repeat nth]; auto. Qed.

Lemma zn_firstn n l i : 0 <= i < Z.of_nat n -> zn (firstn n l) i = zn l i.
Proof.
  intros H. unfold zn. assert (K : (Z.to_nat i < n)%nat) by lia. revert K. generalize (Z.to_nat i). clear H i. revert l.
  induction n as [|n IH]; intros l k K; [lia|]. destruct l as [|x l]; [reflexivity|]. destruct k as [|k]; [reflexivity|]. cbn [firstn nth]. apply IH. lia.
Qed.

Lemma zn_skipn n l i : 0 <= i -> zn (skipn n l) i = zn l (Z.of_nat n + i).
Proof.
  intros H. unfold zn. replace (Z.to_nat (Z.of_nat n + i)) with (n + Z.to_nat i)%nat by lia. revert l.
  induction n as [|n IH]; intros l; [reflexivity|]. destruct l as [|x l]; [destruct (Z.to_nat i); reflexivity|]. apply IH.
Qed.

Lemma zn_slice off n l i : 0 <= i < Z.of_nat n -> zn (slice off n l) i = zn l (Z.of_nat off + i).
Proof. intros H. unfold slice. rewrite zn_firstn by assumption. apply zn_skipn. lia. Qed.

Lemma zlen_slice off n (l : list Z) : zlen (slice off n l) = Z.min (Z.of_nat n) (Z.max 0 (zlen l - Z.of_nat off)).
Proof. unfold zlen, slice. rewrite firstn_length, skipn_length. lia. Qed.

Lemma zlen_writeAt c p d : 0 <= p -> zlen (writeAt c p d) = Z.max (zlen c) (p + zlen d).
Proof.
  intros H. unfold writeAt, zlen. rewrite !app_length, firstn_length, app_length, repeat_length, skipn_length. lia.
Qed.

Lemma zn_writeAt c p d i : 0 <= p -> 0 <= i ->
  zn (writeAt c p d) i = if (p <=? i) && (i <? p + zlen d) then zn d (i - p) else zn c i.
Proof.
  intros Hp Hi. unfold writeAt. assert (L : zlen (firstn (Z.to_nat p) (c ++ repeat 0 (Z.to_nat p - length c))) = p).
  { unfold zlen. rewrite firstn_length, app_length, repeat_length. lia. }
  rewrite zn_app, L by lia. destruct (Z.ltb_spec i p); destruct (Z.leb_spec p i); try lia; cbn [andb].
  - rewrite zn_firstn by lia. rewrite zn_app by lia. destruct (Z.ltb_spec i (zlen c)); [reflexivity|].
    rewrite zn_repeat, zn_oob by lia. reflexivity.
  - rewrite zn_app by lia. destruct (Z.ltb_spec (i - p) (zlen d)); destruct (Z.ltb_spec i (p + zlen d)); try lia.
    rewrite zn_skipn by lia. f_equal. unfold zlen in *. lia.
Qed.

Lemma list_zn_ext (a b : list Z) : zlen a = zlen b -> (forall i, 0 <= i < zlen a -> zn a i = zn b i) -> a = b.
Proof.
  intros L H. apply nth_ext_Z; [unfold zlen in L; lia|]. intros i Hi. specialize (H (Z.of_nat i)). unfold zn, zlen in H. rewrite Nat2Z.id in H. apply H. lia.
Qed.

(** ** Where a block lies in a file *)
Lemma position_ok ps o f idx off len : 0 < ps < 2147483648 -> placed ps o f -> startPiece f <= idx <= endPiece f ->
  0 <= off -> 0 <= len -> off + len <= ps -> o + fsize f < 9223372036854775808 ->
  let a := idx * ps + off in
  let lo := Z.max a o in
  let hi := Z.min (a + len) (o + fsize f) in
  let p := getFileBlockPosition ps f idx off len in
  if lo <? hi then dataPos p = lo - a /\ dataSize p = hi - lo /\ fileDataPos p = lo - o else dataSize p = 0.
Proof.
  intros Hp (P1 & P2 & P3 & P4 & P5 & P6 & P7 & P8) Hi Ho Hl Hol Hf a lo hi p.
  set (s := fsize f) in *.
  assert (Q1 : startPiece f = idx \/ (startPiece f + 1) * ps <= idx * ps /\ startPiece f < idx).
  { destruct (Z.eq_dec (startPiece f) idx); [now left|right]. split; [apply Z.mul_le_mono_nonneg_r|]; lia. }
  assert (Q2 : endPiece f = idx \/ (idx + 1) * ps <= endPiece f * ps /\ idx < endPiece f).
  { destruct (Z.eq_dec (endPiece f) idx); [now left|right]. split; [apply Z.mul_le_mono_nonneg_r|]; lia. }
  rewrite !Z.mul_add_distr_r, !Z.mul_1_l in Q1, Q2.
  assert (U : u32 (off + len) = off + len) by (apply u32_id; lia).
  assert (V : u32 (ps - startPos f + off) = ps - startPos f + off) by (apply u32_id; lia).
  unfold p, getFileBlockPosition. rewrite U, V.
  assert (W : startPiece f < idx -> (if idx >? u32 (startPiece f + 1) then u64 (ps - startPos f + off + u32 (idx - startPiece f - 1) * ps) else ps - startPos f + off) = a - o).
  { intros Hs. rewrite (u32_id (startPiece f + 1)) by lia. rewrite (u32_id (idx - startPiece f - 1)) by lia.
    assert (R : (idx - startPiece f - 1) * ps = idx * ps - startPiece f * ps - ps) by ring. rewrite R. unfold a.
    destruct (Z.gtb_spec idx (startPiece f + 1)).
    - unfold u64. rewrite Z.mod_small; lia.
    - assert (idx = startPiece f + 1) by lia. subst idx. lia. }
  destruct (Z.eqb_spec (startPiece f) idx) as [E1|E1]; cbn [andb].
  - destruct Q1 as [_|Q1]; [|lia].
    destruct (Z.gtb_spec (startPos f) (off + len)).
    + cbn [nowhere dataSize]. destruct (Z.ltb_spec lo hi); [|reflexivity]. unfold lo, hi, a in *. lia.
    + assert (X : forall q, (if startPos f >? off
         then {| dataPos := u32 (startPos f - off); dataSize := u32 (len - u32 (startPos f - off)); fileDataPos := 0 |}
         else {| dataPos := 0; dataSize := len; fileDataPos := u32 (off - startPos f) |}) = q ->
         dataPos q = Z.max 0 (startPos f - off) /\ dataSize q = len - Z.max 0 (startPos f - off) /\ fileDataPos q = Z.max 0 (off - startPos f)).
      { intros q <-. destruct (Z.gtb_spec (startPos f) off); cbn [dataPos dataSize fileDataPos].
        - rewrite (u32_id (startPos f - off)) by lia. rewrite (u32_id (len - (startPos f - off))) by lia. lia.
        - rewrite (u32_id (off - startPos f)) by lia. lia. }
      cbv zeta. set (q := if startPos f >? off then _ else _). specialize (X q eq_refl). destruct X as (X1 & X2 & X3).
      destruct (Z.eqb_spec (endPiece f) idx) as [E2|E2].
      * subst idx. rewrite E2 in *. destruct (Z.ltb_spec (endPos f) off).
        -- cbn [nowhere dataSize]. destruct (Z.ltb_spec lo hi); [|reflexivity]. unfold lo, hi, a in *. lia.
        -- destruct (Z.ltb_spec (endPos f) (off + len)); cbn [dataPos dataSize fileDataPos]; rewrite X1, X2, X3.
           ++ rewrite u32_id by lia. unfold lo, hi, a. destruct (Z.ltb_spec (Z.max (startPiece f * ps + off) o) (Z.min (startPiece f * ps + off + len) (o + s))); lia.
           ++ unfold lo, hi, a. destruct (Z.ltb_spec (Z.max (startPiece f * ps + off) o) (Z.min (startPiece f * ps + off + len) (o + s))); lia.
      * destruct Q2 as [|Q2]; [contradiction|]. rewrite X1, X2, X3. unfold lo, hi, a. rewrite <- E1.
        rewrite <- E1 in Q2.
        destruct (Z.ltb_spec (Z.max (startPiece f * ps + off) o) (Z.min (startPiece f * ps + off + len) (o + s))); lia.
  - destruct Q1 as [|[Q1 Q1']]; [contradiction|]. cbv zeta. rewrite (W Q1').
    destruct (Z.eqb_spec (endPiece f) idx) as [E2|E2].
    + subst idx. destruct (Z.ltb_spec (endPos f) off).
      * cbn [nowhere dataSize]. destruct (Z.ltb_spec lo hi); [|reflexivity]. unfold lo, hi, a in *. lia.
      * destruct (Z.ltb_spec (endPos f) (off + len)); cbn [dataPos dataSize fileDataPos].
        -- rewrite u32_id by lia. unfold lo, hi, a. destruct (Z.ltb_spec (Z.max (endPiece f * ps + off) o) (Z.min (endPiece f * ps + off + len) (o + s))); lia.
        -- unfold lo, hi, a. destruct (Z.ltb_spec (Z.max (endPiece f * ps + off) o) (Z.min (endPiece f * ps + off + len) (o + s))); lia.
    + destruct Q2 as [|[Q2 Q2']]; [contradiction|]. cbn [dataPos dataSize fileDataPos]. unfold lo, hi, a.
      destruct (Z.ltb_spec (Z.max (idx * ps + off) o) (Z.min (idx * ps + off + len) (o + s))); lia.
Qed.

(** ** Storing *)
Definition coversb (ps : Z) (b : blockInfo) (x : Z) : bool := (block_start ps b <=? x) && (x <? block_start ps b + blength b).

Lemma coversb_spec ps b x : coversb ps b x = true <-> covers ps b x.
Proof. unfold coversb, covers. rewrite andb_true_iff, Z.leb_le, Z.ltb_lt. reflexivity. Qed.

(** The byte at [x] after the blocks are laid over it one by one. *)
Definition overlay (ps : Z) (bs : list blockData) (x v : Z) : Z :=
  fold_left (fun v b => if coversb ps (binfo b) x then zn (bdata b) (x - block_start ps (binfo b)) else v) bs v.

Lemma overlay_none ps bs x v : (forall b, In b bs -> ~ covers ps (binfo b) x) -> overlay ps bs x v = v.
Proof.
  revert v. induction bs as [|b bs IH]; intros v H; [reflexivity|]. cbn [overlay fold_left].
  destruct (coversb ps (binfo b) x) eqn:E; [apply coversb_spec in E; exfalso; apply (H b); [now left|assumption]|].
  apply IH. intros b' Hb. apply H. now right.
Qed.

Lemma overlay_some ps bs x : agree ps bs -> forall b v, In b bs -> covers ps (binfo b) x ->
  overlay ps bs x v = zn (bdata b) (x - block_start ps (binfo b)).
Proof.
  induction bs as [|b0 bs IH] using rev_ind; intros A b v Hb C; [inversion Hb|].
  unfold overlay. rewrite fold_left_app. cbn [fold_left]. destruct (coversb ps (binfo b0) x) eqn:E.
  - apply coversb_spec in E. apply A; auto. apply in_or_app. right. now left.
  - apply in_app_or in Hb. destruct Hb as [Hb|[->|[]]]; [|apply coversb_spec in C; congruence].
    apply IH; auto. intros b1 b2 y H1 H2. apply A; apply in_or_app; now left.
Qed.

Lemma piece_in_file ps o f idx x : 0 < ps -> placed ps o f -> o <= x < o + fsize f -> idx * ps <= x < (idx + 1) * ps ->
  startPiece f <= idx <= endPiece f.
Proof.
  intros Hp (P1 & P2 & P3 & P4 & P5 & P6 & P7 & P8) Hx Hi. split; apply Z.lt_succ_r; unfold Z.succ; apply (Z.mul_lt_mono_pos_r ps); lia.
Qed.

Lemma storeInFile_ok ps o f c bs : 0 < ps < 2147483648 -> placed ps o f -> o + fsize f < 9223372036854775808 -> zlen c = fsize f -> Forall (block_ok ps) bs ->
  exists c', storeInFile ps f (Some c) bs = Ok (Success, Some c') /\ zlen c' = fsize f /\
    forall p, 0 <= p < fsize f -> zn c' p = overlay ps bs (o + p) (zn c p).
Proof.
  intros Hp P Hf Hc Fb.
  assert (G : forall bs c, zlen c = fsize f -> Forall (block_ok ps) bs -> exists c', writeBlocks ps f (fsize f) c (blocksInfo ps f bs) = Ok c' /\ zlen c' = fsize f /\
    forall p, 0 <= p < fsize f -> zn c' p = overlay ps bs (o + p) (zn c p)).
  { clear bs c Hc Fb. induction bs as [|b bs IH]; intros c Hc Fb.
    - exists c. split; [reflexivity|]. split; [assumption|]. reflexivity.
    - inversion Fb as [|? ? (B1 & B2 & B3 & B4 & B5) Fb']; subst. unfold blocksInfo. cbn [filter].
      assert (SKIP : (forall p, 0 <= p < fsize f -> coversb ps (binfo b) (o + p) = false) -> 
        exists c', writeBlocks ps f (fsize f) c (blocksInfo ps f bs) = Ok c' /\ zlen c' = fsize f /\ (forall p, 0 <= p < fsize f -> zn c' p = overlay ps (b :: bs) (o + p) (zn c p))).
      { intros N. destruct (IH c Hc Fb') as (c' & I1 & I2 & I3). exists c'. split; [assumption|]. split; [assumption|].
        intros p Hpp. rewrite I3 by assumption. cbn [overlay fold_left]. now rewrite N. }
      destruct (fileContainsPiece f (bindex (binfo b))) eqn:EC.
      + unfold fileContainsPiece in EC. apply andb_true_iff in EC. rewrite !Z.leb_le in EC.
        cbn [map filter snd]. pose proof (position_ok ps o f (bindex (binfo b)) (bbegin (binfo b)) (blength (binfo b)) Hp P EC B2 B3 B4 Hf) as PO.
        cbv zeta in PO. set (q := getFileBlockPosition ps f (bindex (binfo b)) (bbegin (binfo b)) (blength (binfo b))) in *.
        fold (block_start ps (binfo b)) in PO. set (a := block_start ps (binfo b)) in *.
        destruct (Z.ltb_spec (Z.max a o) (Z.min (a + blength (binfo b)) (o + fsize f))) as [L|L].
        * destruct PO as (P1 & P2 & P3). destruct (Z.eqb_spec (dataSize q) 0); [lia|]. cbn [negb writeBlocks]. rewrite Z.eqb_refl. cbn [orb].
          unfold memory. destruct (Z.leb_spec (dataPos q + dataSize q) (zlen (bdata b))); [|lia]. cbn [bind].
          set (d := slice (Z.to_nat (dataPos q)) (Z.to_nat (dataSize q)) (bdata b)).
          assert (Ld : zlen d = dataSize q) by (unfold d; rewrite zlen_slice; lia).
          destruct (IH (writeAt c (fileDataPos q) d)) as (c' & I1 & I2 & I3); [rewrite zlen_writeAt by lia; lia|assumption|].
          exists c'. split; [assumption|]. split; [assumption|]. intros p Hpp. rewrite I3 by assumption. cbn [overlay fold_left].
          fold (overlay ps bs (o + p) (if coversb ps (binfo b) (o + p) then zn (bdata b) (o + p - block_start ps (binfo b)) else zn c p)).
          f_equal. rewrite zn_writeAt by lia. rewrite Ld, P2, P3. unfold coversb. fold a.
          destruct (Z.leb_spec (Z.max a o - o) p); destruct (Z.ltb_spec p (Z.max a o - o + (Z.min (a + blength (binfo b)) (o + fsize f) - Z.max a o)));
            destruct (Z.leb_spec a (o + p)); destruct (Z.ltb_spec (o + p) (a + blength (binfo b))); try lia; cbn [andb]; try reflexivity.
          unfold d. rewrite zn_slice by lia. f_equal. lia.
        * rewrite PO. cbn [Z.eqb negb]. apply SKIP. intros p Hpp. unfold coversb. fold a.
          destruct (Z.leb_spec a (o + p)); destruct (Z.ltb_spec (o + p) (a + blength (binfo b))); try lia; reflexivity.
      + apply SKIP. intros p Hpp. destruct (coversb ps (binfo b) (o + p)) eqn:C; [|reflexivity]. exfalso. apply coversb_spec in C. unfold covers, block_start in C.
        pose proof (piece_in_file ps o f (bindex (binfo b)) (o + p) ltac:(lia) P ltac:(lia)) as Q. rewrite Z.mul_add_distr_r in Q. 
        specialize (Q ltac:(lia)). unfold fileContainsPiece in EC. apply andb_false_iff in EC. rewrite !Z.leb_gt in EC. lia. }
  destruct (G bs c Hc Fb) as (c' & G1 & G2 & G3). unfold storeInFile. destruct (blocksInfo ps f bs) eqn:E.
  - cbn [writeBlocks] in G1. inversion G1; subst c'. exists c. split; [reflexivity|]. split; [assumption|]. assumption.
  - rewrite Hc, G1. cbn [bind]. exists c'. split; [reflexivity|]. split; assumption.
Qed.

(** All files one after the other, from byte [o] on. *)
Fixpoint laid (ps o : Z) (fs : list file) (disk : list (option (list Z))) : Prop :=
  match fs, disk with
  | [], [] => True
  | f :: fs', Some c :: disk' => placed ps o f /\ zlen c = fsize f /\ laid ps (o + fsize f) fs' disk'
  | _, _ => False
  end.

Lemma laid_intro ps fs : forall o disk, all_placed ps o fs -> allocated fs disk -> laid ps o fs disk.
Proof.
  induction fs as [|f fs IH]; intros o disk H A; inversion A; subst; cbn [laid]; [exact I|].
  destruct H as [P1 P2]. match goal with X : exists c, _ |- _ => destruct X as (c & -> & L) end. split; [assumption|]. split; [assumption|]. now apply IH.
Qed.

Lemma laid_length ps fs : forall o disk, laid ps o fs disk -> allocated fs disk /\ zlen (bytes_of disk) = total (map fsize fs).
Proof.
  induction fs as [|f fs IH]; intros o [|[c|] disk] H; cbn [laid] in H; try contradiction; [split; [constructor|reflexivity]|].
  destruct H as (H1 & H2 & H3). destruct (IH _ _ H3) as [I1 I2]. split; [constructor; eauto|].
  unfold bytes_of in *. cbn [map concat]. rewrite zlen_app, I2, total_cons. lia.
Qed.

Lemma bytes_cons c disk x : 0 <= x -> zn (bytes_of (Some c :: disk)) x = if x <? zlen c then zn c x else zn (bytes_of disk) (x - zlen c).
Proof. intros H. unfold bytes_of. cbn [map concat]. now apply zn_app. Qed.

Lemma start_ge ps o f : 0 < ps -> placed ps o f -> forall i, i * ps <= o -> i <= startPiece f.
Proof.
  intros Hp (P1 & P2 & P3 & _) i Hi. apply Z.lt_succ_r. unfold Z.succ. apply (Z.mul_lt_mono_pos_r ps); lia.
Qed.

Lemma laid_start ps fs : forall o disk, 0 < ps -> laid ps o fs disk -> forall i, i * ps <= o -> Forall (fun f => i <= startPiece f) fs.
Proof.
  induction fs as [|f fs IH]; intros o disk Hp L i Hi; [constructor|]. destruct disk as [|[c|] disk]; cbn [laid] in L; try contradiction.
  destruct L as (L1 & L2 & L3). constructor; [now apply (start_ge ps o)|]. apply (IH (o + fsize f) disk); auto. destruct L1 as (_ & _ & _ & _ & ? & _). lia.
Qed.

(** Blocks of pieces before [lastIndex] only. *)
Lemma beyond ps o f fs disk lastIndex bs : 0 < ps -> laid ps o (f :: fs) disk -> lastIndex < startPiece f -> Forall (block_ok ps) bs ->
  Forall (fun b => bindex (binfo b) <= lastIndex) bs -> forall x v, o <= x -> overlay ps bs x v = v.
Proof.
  intros Hp L Hs Fb Fi x v Hx. destruct disk as [|[c|] disk]; cbn [laid] in L; try contradiction. destruct L as (L1 & _ & _).
  destruct L1 as (P1 & _ & P3 & _). apply overlay_none. intros b Hb C. rewrite Forall_forall in Fb, Fi. pose proof (Fb b Hb) as (B1 & B2 & B3 & B4 & _). specialize (Fi b Hb).
  unfold covers, block_start in C.
  assert ((bindex (binfo b) + 1) * ps <= startPiece f * ps) by (apply Z.mul_le_mono_nonneg_r; lia). rewrite Z.mul_add_distr_r in *. lia.
Qed.

Lemma storeFrom_ok ps bs lastIndex : 0 < ps < 2147483648 -> Forall (block_ok ps) bs -> Forall (fun b => bindex (binfo b) <= lastIndex) bs ->
  forall fs o disk st, laid ps o fs disk -> 0 <= o -> o + total (map fsize fs) < 9223372036854775808 ->
  exists st' disk', storeFrom ps fs disk bs lastIndex st = Ok (st', disk') /\ laid ps o fs disk' /\
    (st = Success -> st' = Success) /\ (match fs with f :: _ => startPiece f <= lastIndex | [] => False end -> st' = Success) /\
    forall p, 0 <= p < total (map fsize fs) -> zn (bytes_of disk') p = overlay ps bs (o + p) (zn (bytes_of disk) p).
Proof.
  intros Hp Fb Fi. induction fs as [|f fs IH]; intros o disk st L Ho Ht.
  - destruct disk; cbn [laid] in L; [|contradiction]. exists st, []. cbn [storeFrom map total fold_right laid]. intuition lia.
  - cbn [storeFrom]. destruct disk as [|[c|] disk]; cbn [laid] in L; try contradiction. destruct L as (L1 & L2 & L3).
    assert (Sf : 0 <= fsize f) by apply L1. cbn [map] in *. rewrite total_cons in *.
    assert (Tn : 0 <= total (map fsize fs)).
    { destruct (laid_length _ _ _ _ L3) as [_ <-]. apply zlen_nonneg. }
    destruct (Z.gtb_spec (startPiece f) lastIndex) as [G|G].
    + exists st, (Some c :: disk). split; [reflexivity|]. split; [cbn [laid]; auto|]. split; [auto|]. split; [lia|].
      intros p Hpp. symmetry. apply (beyond ps o f fs (Some c :: disk) lastIndex); try assumption; try lia. cbn [laid]. auto.
    + destruct (storeInFile_ok ps o f c bs Hp L1 ltac:(lia) L2 Fb) as (c' & S1 & S2 & S3). rewrite S1. cbn [bind isSuccess].
      destruct (IH (o + fsize f) disk Success L3 ltac:(lia) ltac:(lia)) as (st' & d' & I1 & I2 & I3 & _ & I4). rewrite I1. cbn [bind].
      exists st', (Some c' :: d'). split; [reflexivity|]. split; [cbn [laid]; auto|]. split; [auto|]. split; [auto|].
      intros p Hpp. rewrite !bytes_cons by lia. rewrite L2, S2. destruct (Z.ltb_spec p (fsize f)); [apply S3; lia|].
      rewrite I4 by lia. f_equal. lia.
Qed.

Lemma storeLowerBound_ok ps bs startIndex lastIndex : 0 < ps < 2147483648 -> Forall (block_ok ps) bs ->
  Forall (fun b => startIndex <= bindex (binfo b) <= lastIndex) bs -> startIndex <= lastIndex ->
  forall fs o disk, laid ps o fs disk -> 0 <= o -> o + total (map fsize fs) < 9223372036854775808 ->
  exists st' disk', storeLowerBound ps fs disk bs startIndex lastIndex = Ok (st', disk') /\ laid ps o fs disk' /\
    (o <= startIndex * ps -> startIndex * ps < o + total (map fsize fs) -> st' = Success) /\
    forall p, 0 <= p < total (map fsize fs) -> zn (bytes_of disk') p = overlay ps bs (o + p) (zn (bytes_of disk) p).
Proof.
  intros Hp Fb Fi Hsl. induction fs as [|f fs IH]; intros o disk L Ho Ht.
  - destruct disk; cbn [laid] in L; [|contradiction]. exists E_InvalidInput, []. cbn [storeLowerBound map total fold_right laid]. intuition lia.
  - cbn [storeLowerBound]. destruct disk as [|[c|] disk]; cbn [laid] in L; try contradiction. destruct L as (L1 & L2 & L3).
    assert (Sf : 0 <= fsize f) by apply L1. cbn [map] in Ht |- *. rewrite total_cons in *.
    assert (Tn : 0 <= total (map fsize fs)).
    { destruct (laid_length _ _ _ _ L3) as [_ <-]. apply zlen_nonneg. }
    destruct (Z.ltb_spec (endPiece f) startIndex) as [G|G].
    + destruct (IH (o + fsize f) disk L3 ltac:(lia) ltac:(lia)) as (st' & d' & I1 & I2 & I3 & I4). rewrite I1. cbn [bind].
      exists st', (Some c :: d'). split; [reflexivity|]. split; [cbn [laid]; auto|].
      destruct L1 as (P1 & P2 & P3 & P4 & P5 & P6 & P7 & P8).
      assert (X : (endPiece f + 1) * ps <= startIndex * ps) by (apply Z.mul_le_mono_nonneg_r; lia). rewrite Z.mul_add_distr_r in X.
      split; [intros; apply I3; lia|]. intros p Hpp. rewrite !bytes_cons by lia. rewrite L2. destruct (Z.ltb_spec p (fsize f)).
      * symmetry. apply overlay_none. intros b Hb C. rewrite Forall_forall in Fb, Fi. pose proof (Fb b Hb) as (B1 & B2 & B3 & B4 & _). specialize (Fi b Hb).
        unfold covers, block_start in C. assert (startIndex * ps <= bindex (binfo b) * ps) by (apply Z.mul_le_mono_nonneg_r; lia). lia.
      * rewrite I4 by lia. f_equal. lia.
    + destruct (storeFrom_ok ps bs lastIndex Hp Fb) with (fs := f :: fs) (o := o) (disk := Some c :: disk) (st := E_InvalidInput)
        as (st' & d' & I1 & I2 & I3 & I4 & I5); try assumption.
      * eapply Forall_impl; [|exact Fi]. cbn. intros. lia.
      * cbn [laid]. auto.
      * exists st', d'. split; [assumption|]. split; [assumption|]. split; [|intros; apply I5; cbn [map]; rewrite ?total_cons; lia].
        intros X1 X2. apply I4. destruct L1 as (P1 & _ & P3 & _). apply Z.le_trans with startIndex; [|lia].
        apply Z.lt_succ_r. unfold Z.succ. apply (Z.mul_lt_mono_pos_r ps); lia.
Qed.

Lemma insert_perm b l : Permutation (insertBlock b l) (b :: l).
Proof.
  induction l as [|x l IH]; cbn [insertBlock]; [reflexivity|]. destruct (placeLess x b); [|reflexivity].
  rewrite IH. apply perm_swap.
Qed.

Lemma sort_perm l : Permutation (sortBlocks l) l.
Proof. induction l as [|b l IH]; cbn [sortBlocks]; [reflexivity|]. rewrite insert_perm. now constructor. Qed.

(** In a sorted list the pieces grow. *)
Fixpoint growing (l : list blockData) : Prop :=
  match l with [] => True | b :: l' => Forall (fun x => bindex (binfo b) <= bindex (binfo x)) l' /\ growing l' end.

Lemma insert_growing b l : growing l -> growing (insertBlock b l).
Proof.
  induction l as [|x l IH]; intros G; cbn [insertBlock]; [cbn; auto|]. destruct G as [G1 G2].
  unfold placeLess. destruct (Z.ltb_spec (bindex (binfo x)) (bindex (binfo b))); destruct (Z.eqb_spec (bindex (binfo x)) (bindex (binfo b))); cbn [orb andb];
    try (destruct (Z.ltb_spec (bbegin (binfo x)) (bbegin (binfo b)))); cbn [growing];
    try (split; [rewrite insert_perm; constructor; [lia|assumption]|now apply IH]);
    (split; [constructor; [lia|eapply Forall_impl; [|exact G1]; cbn; intros; lia]|split; assumption]).
Qed.

Lemma sort_growing l : growing (sortBlocks l).
Proof. induction l as [|b l IH]; [exact I|]. now apply insert_growing. Qed.

Lemma last_cons {A} (l : list A) : forall x d, last (x :: l) d = last l x.
Proof.
  induction l as [|y l IH]; intros x d; [reflexivity|]. change (last (x :: y :: l) d) with (last (y :: l) d). now rewrite !IH.
Qed.

Lemma growing_bounds b l : growing (b :: l) -> Forall (fun x => bindex (binfo b) <= bindex (binfo x) <= bindex (binfo (last l b))) (b :: l).
Proof.
  revert b. induction l as [|x l IH]; intros b [G1 G2]; [constructor; [cbn; lia|constructor]|].
  specialize (IH x G2). assert (L : last (x :: l) b = last l x) by apply last_cons. rewrite L.
  constructor.
  - inversion G1; inversion IH; subst. lia.
  - apply Forall_forall. intros y Hy. rewrite Forall_forall in G1, IH. specialize (G1 y Hy). specialize (IH y Hy). lia.
Qed.

Lemma storePieceBlocks_ok t disk bs : 0 < pieceSize t < 2147483648 -> all_placed (pieceSize t) 0 (files t) -> allocated (files t) disk ->
  total (map fsize (files t)) < 9223372036854775808 -> bs <> [] -> Forall (block_ok (pieceSize t)) bs ->
  agree (pieceSize t) bs ->
  (forall b, In b bs -> bindex (binfo b) * pieceSize t < total (map fsize (files t))) ->
  exists disk', storePieceBlocks t disk bs = Ok (Success, disk') /\ allocated (files t) disk' /\
    stored (pieceSize t) bs (bytes_of disk) (bytes_of disk').
Proof.
  intros Hp P A Ht Hn Fb Ag Hin. unfold storePieceBlocks. pose proof (sort_perm bs) as Pm. pose proof (sort_growing bs) as G.
  destruct (sortBlocks bs) as [|b l]; [apply Permutation_nil in Pm; contradiction|].
  pose proof (growing_bounds _ _ G) as Gb. pose proof (laid_intro _ _ _ _ P A) as L.
  destruct (storeLowerBound_ok (pieceSize t) (b :: l) (bindex (binfo b)) (bindex (binfo (last l b)))) with (fs := files t) (o := 0) (disk := disk)
    as (st & d' & I1 & I2 & I3 & I4); try assumption; try lia.
  - now rewrite Pm.
  - inversion Gb; subst. lia.
  - exists d'. assert (Hb : In b bs) by (rewrite <- Pm; now left). rewrite I3 in I1; [|rewrite Forall_forall in Fb; specialize (Fb b Hb); destruct Fb; nia|rewrite Z.add_0_l; now apply Hin].
    split; [assumption|]. destruct (laid_length _ _ _ _ I2) as [A' T']. destruct (laid_length _ _ _ _ L) as [_ T]. split; [assumption|].
    split; [unfold zlen in T, T'; lia|]. rewrite T. intros x Hx.
    assert (Ag' : agree (pieceSize t) (b :: l)). { intros b1 b2 y H1 H2. apply Ag; eapply Permutation_in; eauto. }
    rewrite I4 by assumption. rewrite Z.add_0_l. split.
    + intros b1 H1 C. apply overlay_some; [assumption| |assumption]. eapply Permutation_in; [symmetry; exact Pm|assumption].
    + intros N. apply overlay_none. intros b1 H1. apply N. eapply Permutation_in; eauto.
Qed.

(** ** Loading *)
Definition in_offset (o : blockOffset) (i : Z) : bool := (obegin o <=? i) && (i <? obegin o + osize o).

Lemma fill_ok buffer pos d : 0 <= pos -> pos + zlen d <= zlen buffer -> exists b', fill buffer pos d = Ok b' /\ zlen b' = zlen buffer /\
  forall i, 0 <= i -> zn b' i = if (pos <=? i) && (i <? pos + zlen d) then zn d (i - pos) else zn buffer i.
Proof.
  intros Hp Hl. unfold fill. destruct (Z.leb_spec (pos + zlen d) (zlen buffer)); [|lia]. eexists. split; [reflexivity|].
  assert (E : firstn (Z.to_nat pos) buffer ++ d ++ skipn (Z.to_nat pos + length d) buffer = writeAt buffer pos d).
  { unfold writeAt. f_equal. pose proof (zlen_nonneg d). replace (Z.to_nat pos - length buffer)%nat with 0%nat by (unfold zlen in *; lia). cbn [repeat]. now rewrite app_nil_r. }
  rewrite E. split; [rewrite zlen_writeAt by lia; pose proof (zlen_nonneg d); lia|]. intros i Hi. now apply zn_writeAt.
Qed.

Lemma loadOffsets_ok m ps o f c idx : m <= ps -> 0 < ps < 2147483648 -> placed ps o f -> o + fsize f < 9223372036854775808 -> zlen c = fsize f -> 
  startPiece f <= idx <= endPiece f ->
  forall offs buffer, Forall (fun q => 0 <= obegin q /\ 0 <= osize q /\ obegin q + osize q <= m) offs -> m <= zlen buffer ->
  exists b', loadOffsets ps f c idx offs buffer = Ok b' /\ zlen b' = zlen buffer /\
    forall i, 0 <= i -> zn b' i = if existsb (fun q => in_offset q i) offs && (o <=? idx * ps + i) && (idx * ps + i <? o + fsize f) 
                                  then zn c (idx * ps + i - o) else zn buffer i.
Proof.
  intros Hm Hp P Hf Hc Hi. induction offs as [|q offs IH]; intros buffer F Hb.
  - exists buffer. split; [reflexivity|]. split; [reflexivity|]. reflexivity.
  - inversion F as [|? ? (Q1 & Q2 & Q3) F']; subst. cbn [loadOffsets existsb].
    pose proof (position_ok ps o f idx (obegin q) (osize q) Hp P Hi Q1 Q2 ltac:(lia) Hf) as PO. cbv zeta in PO.
    set (g := getFileBlockPosition ps f idx (obegin q) (osize q)) in *. set (a := idx * ps + obegin q) in *.
    destruct (Z.ltb_spec (Z.max a o) (Z.min (a + osize q) (o + fsize f))) as [L|L].
    + destruct PO as (P1 & P2 & P3). destruct (Z.gtb_spec (dataSize g) 0); [|lia].
      destruct (Z.ltb_spec (zlen c) (fsize f)); [lia|]. rewrite andb_false_r. cbv iota.
      set (d := readAt c (fileDataPos g) (dataSize g)). assert (Ld : zlen d = dataSize g) by (unfold d, readAt; rewrite zlen_slice; lia).
      destruct (fill_ok buffer (obegin q + dataPos g) d) as (b1 & F1 & F2 & F3); [lia|lia|]. rewrite F1. cbn [bind].
      destruct (Z.ltb_spec (zlen d) (dataSize g)); [lia|].
      destruct (IH b1 F' ltac:(lia)) as (b2 & I1 & I2 & I3). exists b2. split; [assumption|]. split; [lia|]. intros i Hii. rewrite I3 by assumption.
      destruct (existsb (fun q0 => in_offset q0 i) offs) eqn:EX; cbn [andb orb].
      * rewrite orb_true_r. cbn [andb]. destruct (Z.leb_spec o (idx * ps + i)); destruct (Z.ltb_spec (idx * ps + i) (o + fsize f)); cbn [andb]; try reflexivity;
        rewrite F3 by lia; rewrite Ld; destruct (Z.leb_spec (obegin q + dataPos g) i); destruct (Z.ltb_spec i (obegin q + dataPos g + dataSize g)); cbn [andb]; try reflexivity; lia.
      * rewrite orb_false_r. rewrite F3 by lia. rewrite Ld. unfold in_offset.
        destruct (Z.leb_spec (obegin q + dataPos g) i); destruct (Z.ltb_spec i (obegin q + dataPos g + dataSize g));
        destruct (Z.leb_spec (obegin q) i); destruct (Z.ltb_spec i (obegin q + osize q)); destruct (Z.leb_spec o (idx * ps + i)); destruct (Z.ltb_spec (idx * ps + i) (o + fsize f)); cbn [andb]; try reflexivity; try lia.
        unfold d, readAt. rewrite zn_slice by lia. f_equal. lia.
    + rewrite PO. cbn [Z.gtb Z.compare]. destruct (IH buffer F' Hb) as (b2 & I1 & I2 & I3). exists b2. split; [assumption|]. split; [assumption|].
      intros i Hii. rewrite I3 by assumption. unfold in_offset at 2.
      destruct (existsb (fun q0 => in_offset q0 i) offs); cbn [andb orb].
      * now rewrite orb_true_r.
      * destruct (Z.leb_spec (obegin q) i); destruct (Z.ltb_spec i (obegin q + osize q)); destruct (Z.leb_spec o (idx * ps + i)); destruct (Z.ltb_spec (idx * ps + i) (o + fsize f)); cbn [andb orb]; try reflexivity; lia.
Qed.

Lemma loadFrom_ok m ps idx offs : m <= ps -> 0 < ps < 2147483648 -> 0 <= idx ->
  Forall (fun q => 0 <= obegin q /\ 0 <= osize q /\ obegin q + osize q <= m) offs ->
  forall fs o disk buffer, laid ps o fs disk -> 0 <= o -> o + total (map fsize fs) < 9223372036854775808 -> m <= zlen buffer ->
  (match fs with f :: _ => idx <= endPiece f | [] => True end) ->
  exists b', loadFrom ps fs disk idx offs buffer = Ok (Success, b') /\ zlen b' = zlen buffer /\
    forall i, 0 <= i -> zn b' i = if existsb (fun q => in_offset q i) offs && (o <=? idx * ps + i) && (idx * ps + i <? o + total (map fsize fs))
                                  then zn (bytes_of disk) (idx * ps + i - o) else zn buffer i.
Proof.
  intros Hm Hp Hidx F. induction fs as [|f fs IH]; intros o disk buffer L Ho Ht Hb He.
  - destruct disk; cbn [laid] in L; [|contradiction]. exists buffer. split; [reflexivity|]. split; [reflexivity|]. intros i Hi. cbn [map total fold_right].
    destruct (Z.leb_spec o (idx * ps + i)); destruct (Z.ltb_spec (idx * ps + i) (o + 0)); try lia; rewrite ?andb_false_r; reflexivity.
  - destruct disk as [|[c|] disk]; cbn [laid] in L; try contradiction. destruct L as (L1 & L2 & L3).
    assert (Sf : 0 <= fsize f) by apply L1. cbn [map] in Ht |- *. rewrite total_cons in *.
    assert (Tn : 0 <= total (map fsize fs)).
    { destruct (laid_length _ _ _ _ L3) as [_ <-]. apply zlen_nonneg. }
    assert (OFF : forall i, existsb (fun q => in_offset q i) offs = true -> i < ps).
    { intros i Hi. apply existsb_exists in Hi. destruct Hi as (q & Hq & Hi). rewrite Forall_forall in F. specialize (F q Hq). unfold in_offset in Hi.
      apply andb_true_iff in Hi. rewrite Z.leb_le, Z.ltb_lt in Hi. lia. }
    cbn [loadFrom]. destruct (fileContainsPiece f idx) eqn:EC.
    + unfold fileContainsPiece in EC. apply andb_true_iff in EC. rewrite !Z.leb_le in EC.
      destruct (loadOffsets_ok m ps o f c idx Hm Hp L1 ltac:(lia) L2 EC offs buffer F Hb) as (b1 & O1 & O2 & O3).
      cbn [loadFromFile]. rewrite O1. cbn [bind isSuccess].
      destruct (IH (o + fsize f) disk b1 L3 ltac:(lia) ltac:(lia) ltac:(lia)) as (b2 & I1 & I2 & I3).
      { destruct fs as [|f2 fs]; [exact I|]. destruct disk as [|[c2|] disk]; cbn [laid] in L3; try contradiction. destruct L3 as (L3 & _).
        destruct L1 as (P1 & P2 & P3 & P4 & P5 & P6 & P7 & P8). apply Z.le_trans with (startPiece f2); [|apply L3].
        apply (start_ge ps (o + fsize f)); [lia|assumption|]. assert (idx * ps <= endPiece f * ps) by (apply Z.mul_le_mono_nonneg_r; lia). lia. }
      exists b2. split; [assumption|]. split; [lia|]. intros i Hi. rewrite I3, O3 by assumption.
      destruct (existsb (fun q => in_offset q i) offs) eqn:EX; cbn [andb]; [|reflexivity].
      destruct (Z.leb_spec (o + fsize f) (idx * ps + i)); cbn [andb].
      * destruct (Z.leb_spec o (idx * ps + i)); [|lia]. cbn [andb].
        destruct (Z.ltb_spec (idx * ps + i) (o + fsize f)); [lia|].
        destruct (Z.ltb_spec (idx * ps + i) (o + fsize f + total (map fsize fs))); destruct (Z.ltb_spec (idx * ps + i) (o + (fsize f + total (map fsize fs)))); try lia.
        rewrite bytes_cons by lia. rewrite L2. destruct (Z.ltb_spec (idx * ps + i - o) (fsize f)); [lia|]. f_equal. lia.
      * destruct (Z.leb_spec o (idx * ps + i)); cbn [andb]; [|reflexivity].
        destruct (Z.ltb_spec (idx * ps + i) (o + fsize f)); [|lia]. destruct (Z.ltb_spec (idx * ps + i) (o + (fsize f + total (map fsize fs)))); [|lia].
        rewrite bytes_cons by lia. rewrite L2. destruct (Z.ltb_spec (idx * ps + i - o) (fsize f)); [reflexivity|lia].
    + exists buffer. split; [reflexivity|]. split; [reflexivity|]. intros i Hi. unfold fileContainsPiece in EC.
      assert (G : idx < startPiece f) by (apply andb_false_iff in EC; rewrite !Z.leb_gt in EC; lia).
      destruct (existsb (fun q => in_offset q i) offs) eqn:EX; cbn [andb]; [|reflexivity]. specialize (OFF i EX).
      destruct L1 as (P1 & _ & P3 & _). assert ((idx + 1) * ps <= startPiece f * ps) by (apply Z.mul_le_mono_nonneg_r; lia). rewrite Z.mul_add_distr_r in *.
      destruct (Z.leb_spec o (idx * ps + i)); [lia|]. reflexivity.
Qed.

Lemma loadLowerBound_ok m ps idx offs : m <= ps -> 0 < ps < 2147483648 -> 0 <= idx ->
  Forall (fun q => 0 <= obegin q /\ 0 <= osize q /\ obegin q + osize q <= m) offs ->
  forall fs o disk buffer, laid ps o fs disk -> 0 <= o -> o + total (map fsize fs) < 9223372036854775808 -> m <= zlen buffer ->
  exists b', loadLowerBound ps fs disk idx offs buffer = Ok (Success, b') /\ zlen b' = zlen buffer /\
    forall i, 0 <= i -> zn b' i = if existsb (fun q => in_offset q i) offs && (o <=? idx * ps + i) && (idx * ps + i <? o + total (map fsize fs))
                                  then zn (bytes_of disk) (idx * ps + i - o) else zn buffer i.
Proof.
  intros Hm Hp Hidx F. induction fs as [|f fs IH]; intros o disk buffer L Ho Ht Hb.
  - destruct disk; cbn [laid] in L; [|contradiction]. exists buffer. split; [reflexivity|]. split; [reflexivity|]. intros i Hi. cbn [map total fold_right].
    destruct (Z.leb_spec o (idx * ps + i)); destruct (Z.ltb_spec (idx * ps + i) (o + 0)); try lia; rewrite ?andb_false_r; reflexivity.
  - destruct disk as [|[c|] disk]; [contradiction| |contradiction]. cbn [loadLowerBound].
    destruct (Z.ltb_spec (endPiece f) idx) as [G|G].
    + cbn [laid] in L. destruct L as (L1 & L2 & L3).
      assert (Sf : 0 <= fsize f) by apply L1. cbn [map] in Ht |- *. rewrite total_cons in *.
      assert (Tn : 0 <= total (map fsize fs)).
      { destruct (laid_length _ _ _ _ L3) as [_ <-]. apply zlen_nonneg. }
      destruct (IH (o + fsize f) disk buffer L3 ltac:(lia) ltac:(lia) Hb) as (b2 & I1 & I2 & I3).
      exists b2. split; [assumption|]. split; [assumption|]. intros i Hi. rewrite I3 by assumption.
      destruct (existsb (fun q => in_offset q i) offs); cbn [andb]; [|reflexivity].
      destruct L1 as (P1 & P2 & P3 & P4 & P5 & P6 & P7 & P8).
      assert ((endPiece f + 1) * ps <= idx * ps) by (apply Z.mul_le_mono_nonneg_r; lia). rewrite Z.mul_add_distr_r in *.
      destruct (Z.leb_spec (o + fsize f) (idx * ps + i)); [|lia]. destruct (Z.leb_spec o (idx * ps + i)); [|lia]. cbn [andb].
      destruct (Z.ltb_spec (idx * ps + i) (o + fsize f + total (map fsize fs))); destruct (Z.ltb_spec (idx * ps + i) (o + (fsize f + total (map fsize fs)))); try lia.
      rewrite bytes_cons by lia. rewrite L2. destruct (Z.ltb_spec (idx * ps + i - o) (fsize f)); [lia|]. f_equal. lia.
    + apply (loadFrom_ok m); assumption.
Qed.
