(** C18 and C53: blocks of pieces in files. *)
From Verif Require Import Base BaseLemmas LayoutModel LayoutSpec LayoutProofs LayoutProps StorageModel StorageSpec StorageProofs.

(** Torrents as the parser makes them: of one file, or of several of which no (non-empty) file ends
    on the boundary of a piece. *)
Inductive laid_out : torrentInfo -> Prop :=
| one_file_torrent ps size t : 0 < ps < 2147483648 -> 0 < size < 9223372036854775808 -> (size + ps - 1) / ps < 4294967295 ->
    parseSingleFile ps size ((size + ps - 1) / ps) = Ok t -> laid_out t
| files_torrent ps sizes t : sizes_fit ps sizes -> ps < 2147483648 ->
    (forall k, (k < length sizes)%nat -> 0 < nth k sizes 0 -> (offset sizes k + nth k sizes 0) mod ps <> 0) ->
    parseMultiFile ps sizes = Ok t -> laid_out t.

Lemma all_placed_nth ps fs : forall o, (forall k, (k < length fs)%nat -> placed ps (o + total (firstn k (map fsize fs))) (nth k fs noFile)) -> all_placed ps o fs.
Proof.
  induction fs as [|f fs IH]; intros o H; [exact I|]. split.
  - specialize (H 0%nat). cbn in H. rewrite Z.add_0_r in H. apply H. lia.
  - apply IH. intros k Hk. specialize (H (S k)). cbn [length firstn map nth] in H. rewrite total_cons in H.
    replace (o + fsize f + total (firstn k (map fsize fs))) with (o + (fsize f + total (firstn k (map fsize fs)))) by lia. apply H. lia.
Qed.

Lemma laid_out_ok t : laid_out t -> 0 < pieceSize t < 2147483648 /\ all_placed (pieceSize t) 0 (files t) /\
  total (map fsize (files t)) < 9223372036854775808 /\ fullSize t = total (map fsize (files t)).
Proof.
  intros [ps size t' H1 H2 H3 H4|ps sizes t' H1 H2 H3 H4].
  - assert (Q : 0 <= (size + ps - 1) / ps) by (apply Z.div_pos; lia).
    destruct (C16_single ps size ((size + ps - 1) / ps)) as (t1 & f & T1 & T2 & T3 & T4 & T5 & T6); try lia.
    rewrite T1 in H4. inversion H4; subst t'. unfold parseSingleFile in T1. destruct (Z.eqb_spec ps 0); [lia|]. inversion T1 as [T0].
    cbn [makeInfo pieceSize fullSize files map total fold_right]. rewrite <- T0 in T2. cbn [makeInfo files] in T2. inversion T2 as [T7]. rewrite T7, T3, Z.add_0_r.
    split; [assumption|]. split; [|lia]. cbn [all_placed]. split; [|exact I].
    assert (S0 : startPiece f = 0 /\ startPos f = 0) by (rewrite <- T7; auto). destruct S0 as [S1 S2].
    assert (EO : 0 < endPos f <= ps).
    { rewrite <- T7. unfold singleFile. cbn [endPos]. pose proof (Z.mod_pos_bound size ps ltac:(lia)).
      rewrite u32_id; destruct (Z.eqb_spec (size mod ps) 0); cbn [negb]; lia. }
    assert (EP : endPiece f = (size + ps - 1) / ps - 1).
    { rewrite <- T7. cbn [singleFile endPiece]. apply u32_id. split; [|lia].
      enough (1 <= (size + ps - 1) / ps) by lia. apply Z.div_le_lower_bound; lia. }
    assert (1 <= (size + ps - 1) / ps) by (apply Z.div_le_lower_bound; lia).
    unfold first_byte, end_byte in *. unfold placed. rewrite T3, S1, S2, EP in *. lia.
  - destruct (multi ps sizes H1) as (t1 & T1 & T2 & T3 & T4 & T5 & T6 & T7). rewrite T1 in H4. inversion H4; subst t'. rewrite T5.
    assert (SZ : map fsize (files t1) = sizes).
    { apply nth_ext with (d := fsize noFile) (d' := 0); rewrite map_length; [assumption|]. intros k Hk. rewrite map_nth. rewrite T6 in Hk. now destruct (T7 k Hk). }
    rewrite SZ. destruct H1 as (A1 & A2 & A3 & A4). split; [lia|]. split; [|split; assumption].
    apply all_placed_nth. rewrite SZ, T6. intros k Hk. destruct (T7 k Hk) as (B1 & B2 & B3 & B4 & B5 & B6). rewrite Z.add_0_l. fold (offset sizes k).
    assert (S0 : 0 <= nth k sizes 0) by (rewrite Forall_forall in A2; apply A2; now apply nth_In).
    specialize (H3 k Hk). unfold first_byte in B2.
    assert (O0 : 0 <= offset sizes k + nth k sizes 0 <= total sizes).
    { assert (X : sizes = firstn (S k) sizes ++ skipn (S k) sizes) by (symmetry; apply firstn_skipn).
      assert (Y : total (firstn (S k) sizes) = offset sizes k + nth k sizes 0).
      { unfold offset. clear -Hk. revert sizes Hk. induction k as [|k IH]; intros [|s l] Hk; cbn [length] in Hk; try lia.
        - cbn. lia.
        - cbn [firstn nth]. rewrite !total_cons. cbn [firstn] in IH. rewrite <- Z.add_assoc, <- IH by lia. reflexivity. }
      rewrite <- Y. pose proof (f_equal total X) as Z0. rewrite total_app in Z0.
      assert (0 <= total (skipn (S k) sizes)) by (apply total_nonneg; rewrite X in A2; apply Forall_app in A2; apply A2).
      assert (0 <= total (firstn (S k) sizes)) by (apply total_nonneg; rewrite X in A2; apply Forall_app in A2; apply A2). lia. }
    assert (M : 0 <= (offset sizes k + nth k sizes 0) mod ps < ps) by (apply Z.mod_pos_bound; lia).
    assert (E : endPiece (nth k (files t1) noFile) * ps + endPos (nth k (files t1) noFile) = offset sizes k + nth k sizes 0).
    { destruct (Z.eqb_spec (nth k sizes 0) 0); cbn [negb andb] in B5; [assumption|].
      destruct (Z.eqb_spec ((offset sizes k + nth k sizes 0) mod ps) 0); [|assumption]. exfalso. apply H3; lia. }
    unfold placed. rewrite B1. split; [assumption|]. split; [assumption|]. split; [assumption|]. split; [lia|]. split; [assumption|]. split; [assumption|].
    split.
    + assert (X : endPiece (nth k (files t1) noFile) <= total sizes / ps); [|lia]. apply Z.div_le_lower_bound; lia.
    + intros. specialize (H3 ltac:(lia)). lia.
Qed.

(** Blocks which are stored, in any order, become the bytes of the files at their places, and
    nothing else changes. Missing: torrents with a file which ends on a piece boundary, for which
    it is false (see [C18_boundary_refuted]), and files of which only the ends are allocated. *)
Theorem C18_store_partial : forall t disk bs, laid_out t -> allocated (files t) disk -> bs <> [] ->
  Forall (block_ok (pieceSize t)) bs -> agree (pieceSize t) bs ->
  (forall b, In b bs -> bindex (binfo b) * pieceSize t < fullSize t) ->
  exists disk', storePieceBlocks t disk bs = Ok (Success, disk') /\ allocated (files t) disk' /\
    stored (pieceSize t) bs (bytes_of disk) (bytes_of disk').
Proof.
  intros t disk bs L A N B G R. destruct (laid_out_ok t L) as (H1 & H2 & H3 & H4). rewrite H4 in R. now apply storePieceBlocks_ok.
Qed.
Print Assumptions C18_store_partial.

(** Loading ranges of a piece puts the bytes of the files there, and nothing elsewhere. *)
Theorem C18_load_partial : forall t disk idx offs buffer, laid_out t -> allocated (files t) disk -> 0 <= idx -> pieceSize t <= zlen buffer ->
  Forall (fun q => 0 <= obegin q /\ 0 <= osize q /\ obegin q + osize q <= pieceSize t) offs ->
  exists buffer', loadPieceBlocks t disk idx offs buffer = Ok (Success, buffer') /\ zlen buffer' = zlen buffer /\
    forall i, 0 <= i < zlen buffer ->
      ((exists q, In q offs /\ obegin q <= i < obegin q + osize q) -> idx * pieceSize t + i < fullSize t ->
        zn buffer' i = zn (bytes_of disk) (idx * pieceSize t + i)) /\
      ((forall q, In q offs -> ~ obegin q <= i < obegin q + osize q) -> zn buffer' i = zn buffer i).
Proof.
  intros t disk idx offs buffer L A Hi Hb F. destruct (laid_out_ok t L) as (H1 & H2 & H3 & H4).
  destruct (loadLowerBound_ok (pieceSize t) (pieceSize t) idx offs (Z.le_refl _) H1 Hi F (files t) 0 disk buffer) as (b' & B1 & B2 & B3); try lia; [now apply laid_intro|].
  exists b'. split; [assumption|]. split; [assumption|]. intros i Hii. rewrite B3 by lia. rewrite H4, Z.add_0_l, Z.sub_0_r. split.
  - intros (q & Q1 & Q2) Q3.
    assert (X : existsb (fun q => in_offset q i) offs = true).
    { apply existsb_exists. exists q. split; [assumption|]. unfold in_offset. lia. }
    rewrite X. assert (0 <= idx * pieceSize t) by (apply Z.mul_nonneg_nonneg; lia).
    destruct (Z.leb_spec 0 (idx * pieceSize t + i)); [|lia]. destruct (Z.ltb_spec (idx * pieceSize t + i) (total (map fsize (files t)))); [reflexivity|lia].
  - intros N. assert (X : existsb (fun q => in_offset q i) offs = false).
    { apply not_true_is_false. intros E. apply existsb_exists in E. destruct E as (q & Q1 & Q2). apply (N q Q1). unfold in_offset in Q2. lia. }
    now rewrite X.
Qed.
Print Assumptions C18_load_partial.

(** A block which was stored is what loading it returns. *)
Theorem C18_round_trip_partial : forall t disk bs b, laid_out t -> allocated (files t) disk -> 
  Forall (block_ok (pieceSize t)) bs -> agree (pieceSize t) bs ->
  (forall b, In b bs -> bindex (binfo b) * pieceSize t + bbegin (binfo b) + blength (binfo b) <= fullSize t /\ 0 < blength (binfo b)) ->
  In b bs ->
  exists disk', storePieceBlocks t disk bs = Ok (Success, disk') /\
    forall buffer, zlen buffer = pieceSize t ->
    exists rest, loadPieceBlock t disk' (binfo b) buffer = Ok (Success, bdata b ++ rest) /\
      rest = skipn (length (bdata b)) buffer.
Proof.
  intros t disk bs b L A F G R Hb.
  assert (BO : block_ok (pieceSize t) b) by (rewrite Forall_forall in F; now apply F). destruct BO as (K1 & K2 & K3 & K4 & K5).
  destruct (C18_store_partial t disk bs L A) as (d' & S1 & S2 & S3 & S4); try assumption.
  { intros ->. inversion Hb. }
  { intros x Hx. destruct (R x Hx). rewrite Forall_forall in F. destruct (F x Hx) as (_ & ? & _). lia. }
  exists d'. split; [assumption|]. intros buffer LB. unfold loadPieceBlock.
  assert (LR : zlen (repeat 0 (Z.to_nat (bbegin (binfo b))) ++ buffer) = bbegin (binfo b) + zlen buffer) by (rewrite zlen_app; unfold zlen; rewrite repeat_length; lia).
  destruct (C18_load_partial t d' (bindex (binfo b)) [{| obegin := bbegin (binfo b); osize := blength (binfo b) |}]
     (repeat 0 (Z.to_nat (bbegin (binfo b))) ++ buffer) L S2) as (b' & B1 & B2 & B3); try lia.
  { constructor; [cbn; lia|constructor]. }
  rewrite B1. cbn [bind]. eexists. split; [|reflexivity]. f_equal. f_equal.
  destruct (laid_out_ok t L) as (H1 & H2 & H3 & H4). destruct (laid_length _ _ _ _ (laid_intro _ _ _ _ H2 A)) as [_ T].
  destruct (R b Hb) as [R1 R2].
  apply list_zn_ext.
  - rewrite zlen_app. unfold zlen in *. rewrite !skipn_length. lia.
  - intros i Hi. assert (Hi' : i < zlen buffer) by (unfold zlen in *; rewrite skipn_length in Hi; lia).
    rewrite zn_skipn by lia. rewrite Z2Nat.id by lia. rewrite zn_app by lia. rewrite K5. destruct (B3 (bbegin (binfo b) + i)) as [B4 B5]; [lia|].
    destruct (Z.ltb_spec i (blength (binfo b))).
    + assert (0 <= bindex (binfo b) * pieceSize t) by (apply Z.mul_nonneg_nonneg; lia).
      rewrite B4; [|eexists; split; [now left|cbn; lia]|lia].
      destruct (S4 (bindex (binfo b) * pieceSize t + (bbegin (binfo b) + i))) as [S5 _]; [lia|].
      rewrite (S5 b Hb) by (unfold covers, block_start; lia). f_equal. unfold block_start. lia.
    + rewrite B5; [|intros q [<-|[]]; cbn; lia]. rewrite zn_app by lia.
      assert (LZ : zlen (repeat 0 (Z.to_nat (bbegin (binfo b)))) = bbegin (binfo b)) by (unfold zlen; rewrite repeat_length; lia). rewrite LZ.
      destruct (Z.ltb_spec (bbegin (binfo b) + i) (bbegin (binfo b))); [lia|].
      replace (bbegin (binfo b) + i - bbegin (binfo b)) with i by lia.
      rewrite zn_skipn by lia. f_equal. unfold zlen in *. lia.
Qed.
Print Assumptions C18_round_trip_partial.

Definition exBlock (i b : Z) (d : list Z) : blockData := {| bdata := d; binfo := {| bindex := i; bbegin := b; blength := zlen d |} |}.

(** Three files of 3, 0 and 6 bytes in pieces of 4: the pieces share the files. *)
Example C18_meets : exists t, parseMultiFile 4 [3; 0; 6] = Ok t /\ laid_out t /\
  let disk := [Some [0; 0; 0]; Some []; Some [0; 0; 0; 0; 0; 0]] in
  let bs := [exBlock 1 1 [15; 16; 17]; exBlock 0 2 [12; 13]] in
  allocated (files t) disk /\ Forall (block_ok 4) bs /\ agree 4 bs /\ 
  storePieceBlocks t disk bs = Ok (Success, [Some [0; 0; 12]; Some []; Some [13; 0; 15; 16; 17; 0]]).
Proof.
  eexists. split; [reflexivity|]. split.
  - eapply files_torrent with (ps := 4) (sizes := [3; 0; 6]); [vm_compute; intuition (try congruence); repeat constructor; discriminate|lia| |reflexivity].
    intros [|[|[|k]]] Hk; cbn [length] in Hk; try lia; vm_compute; congruence.
  - cbv zeta. split; [repeat constructor; eexists; split; reflexivity|]. split; [repeat constructor; cbn; unfold zlen; cbn; try lia|].
    split; [|reflexivity]. intros b b' x H1 H2 C1 C2. cbn [In] in H1, H2.
    destruct H1 as [<-|[<-|[]]]; destruct H2 as [<-|[<-|[]]]; try reflexivity; exfalso; unfold covers, block_start in *; cbn in *; unfold zlen in *; cbn in *; lia.
Qed.

(** Finding: of a file which ends on a piece boundary in a torrent of several files, nothing of its
    last piece is ever written to it. *)
Theorem C18_boundary_refuted : forall ps sizes k disk bs, sizes_fit ps sizes -> ps < 2147483648 -> (k < length sizes)%nat ->
  0 < nth k sizes 0 -> (offset sizes k + nth k sizes 0) mod ps = 0 -> ps < nth k sizes 0 ->
  exists t, parseMultiFile ps sizes = Ok t /\
    let f := nth k (files t) noFile in
    (Forall (block_ok ps) bs -> Forall (fun b => bindex (binfo b) = (offset sizes k + nth k sizes 0) / ps - 1) bs ->
     storeInFile ps f disk bs = Ok (Success, disk)).
Proof.
  intros ps sizes k disk bs H Hp Hk Hs M Hbig. destruct (C16_boundary_refuted ps sizes k H Hk Hs M) as (t & T1 & T2 & T3). exists t. split; [assumption|].
  intros f Fb Fi. fold f in T2, T3. unfold end_byte in T3. rewrite T2 in T3.
  destruct (multi ps sizes H) as (t1 & U1 & _ & _ & _ & _ & _ & U7). rewrite U1 in T1. inversion T1; subst t1. destruct (U7 k Hk) as (B1 & B2 & B3 & B4 & B5 & B6). fold f in B1, B2, B3, B4, B5, B6.
  destruct H as (H1 & _). unfold first_byte in B2.
  assert (E : endPiece f = (offset sizes k + nth k sizes 0) / ps - 1).
  { enough (endPiece f + 1 = (offset sizes k + nth k sizes 0) / ps) by lia. apply (Z.div_unique _ ps _ 0); lia. }
  assert (S : startPiece f < endPiece f).
  { apply (Z.mul_lt_mono_pos_r ps); lia. }
  unfold storeInFile. enough (X : blocksInfo ps f bs = []) by now rewrite X.
  rewrite <- E in Fi. unfold blocksInfo. induction bs as [|b bs IH]; [reflexivity|]. inversion Fb as [|? ? (Q1 & Q2 & Q3 & Q4 & Q5) Fb']; inversion Fi; subst. cbn [filter].
  destruct (fileContainsPiece f (bindex (binfo b))); [|now apply IH]. cbn [map filter snd].
  assert (D : dataSize (getFileBlockPosition ps f (bindex (binfo b)) (bbegin (binfo b)) (blength (binfo b))) = 0).
  { unfold getFileBlockPosition. rewrite H4, Z.eqb_refl, T2. destruct (Z.eqb_spec (startPiece f) (endPiece f)); [lia|]. cbn [andb].
    destruct (Z.ltb_spec 0 (bbegin (binfo b))); [reflexivity|]. rewrite u32_id by lia.
    destruct (Z.ltb_spec 0 (bbegin (binfo b) + blength (binfo b))); cbn [dataSize]; [|lia].
    replace (blength (binfo b) - (bbegin (binfo b) + blength (binfo b) - 0)) with 0 by lia. reflexivity. }
  rewrite D. cbn [Z.eqb negb]. now apply IH.
Qed.
Print Assumptions C18_boundary_refuted.

Example C18_boundary_meets : sizes_fit 4 [3; 5; 1] /\ (offset [3; 5; 1] 1 + nth 1 [3; 5; 1] 0) mod 4 = 0 /\ 4 < nth 1 [3; 5; 1] 0.
Proof. vm_compute. intuition (try congruence); repeat constructor; discriminate. Qed.

(** Finding: when such a file also begins inside that piece, storing the first block of the piece
    reads 4 GiB behind the block. *)
Theorem C18_padding_refuted : forall ps sizes k c b, sizes_fit ps sizes -> ps < 2147483648 -> (k < length sizes)%nat ->
  0 < nth k sizes 0 -> (offset sizes k + nth k sizes 0) mod ps = 0 -> nth k sizes 0 < ps ->
  block_ok ps b -> bindex (binfo b) = offset sizes k / ps -> bbegin (binfo b) = 0 -> offset sizes k mod ps <= blength (binfo b) ->
  exists t, parseMultiFile ps sizes = Ok t /\ storeInFile ps (nth k (files t) noFile) (Some c) [b] = UB.
Proof.
  intros ps sizes k c b H Hp Hk Hs M Hsmall (Q1 & Q2 & Q3 & Q4 & Q5) Hi Hb0 Hl. destruct (C16_boundary_refuted ps sizes k H Hk Hs M) as (t & T1 & T2 & T3). exists t. split; [assumption|].
  set (f := nth k (files t) noFile) in *. unfold end_byte in T3. rewrite T2 in T3.
  destruct (multi ps sizes H) as (t1 & U1 & _ & _ & _ & _ & _ & U7). rewrite U1 in T1. inversion T1; subst t1. destruct (U7 k Hk) as (B1 & B2 & B3 & B4 & B5 & B6). fold f in B1, B2, B3, B4, B5, B6.
  destruct H as (H1 & _). unfold first_byte in B2.
  assert (S : startPiece f = offset sizes k / ps) by (apply (Z.div_unique _ ps _ (startPos f)); [left; lia|lia]).
  assert (SP : startPos f = offset sizes k mod ps) by (apply (Z.mod_unique _ ps (startPiece f)); [left; lia|lia]).
  assert (E : endPiece f = startPiece f).
  { assert (endPiece f < startPiece f + 1); [|lia]. apply (Z.mul_lt_mono_pos_r ps); lia. }
  assert (P0 : 0 < startPos f). { rewrite E in T3. lia. }
  unfold storeInFile, blocksInfo. cbn [filter]. unfold fileContainsPiece. rewrite Hi, <- S, E, Z.leb_refl. cbn [andb map filter snd].
  assert (D : dataSize (getFileBlockPosition ps f (startPiece f) (bbegin (binfo b)) (blength (binfo b))) = 4294967296 - startPos f).
  { unfold getFileBlockPosition. rewrite E, Z.eqb_refl, T2, Hb0, Z.add_0_l. rewrite (u32_id (blength (binfo b))) by lia.
    destruct (Z.gtb_spec (startPos f) (blength (binfo b))); [lia|]. cbn [andb]. destruct (Z.gtb_spec (startPos f) 0); [|lia].
    rewrite Z.ltb_irrefl. destruct (Z.ltb_spec 0 (blength (binfo b))); [|lia]. cbn [dataSize].
    rewrite (u32_id (startPos f - 0)) by lia. rewrite (u32_id (blength (binfo b) - (startPos f - 0))) by lia.
    replace (blength (binfo b) - (startPos f - 0) - (blength (binfo b) - 0)) with (4294967296 - startPos f + (-1) * 4294967296) by lia.
    unfold u32. rewrite Z.mod_add by lia. apply Z.mod_small. lia. }
  rewrite Hi, <- S, D. destruct (Z.eqb_spec (4294967296 - startPos f) 0); [lia|]. cbn [negb writeBlocks]. rewrite Hi, <- S, Z.eqb_refl, orb_true_r.
  unfold memory. rewrite D. 
  assert (0 <= dataPos (getFileBlockPosition ps f (startPiece f) (bbegin (binfo b)) (blength (binfo b)))).
  { unfold getFileBlockPosition. rewrite E, Z.eqb_refl, T2, Hb0, Z.add_0_l. rewrite (u32_id (blength (binfo b))) by lia.
    destruct (Z.gtb_spec (startPos f) (blength (binfo b))); [lia|]. cbn [andb]. destruct (Z.gtb_spec (startPos f) 0); [|lia].
    rewrite Z.ltb_irrefl. destruct (Z.ltb_spec 0 (blength (binfo b))); [|lia]. cbn [dataPos]. rewrite u32_id; lia. }
  destruct (Z.leb_spec (dataPos (getFileBlockPosition ps f (startPiece f) (bbegin (binfo b)) (blength (binfo b))) + (4294967296 - startPos f)) (zlen (bdata b))); [lia|]. reflexivity.
Qed.
Print Assumptions C18_padding_refuted.

Example C18_padding_meets : sizes_fit 4 [3; 1; 5] /\ (offset [3; 1; 5] 1 + nth 1 [3; 1; 5] 0) mod 4 = 0 /\ nth 1 [3; 1; 5] 0 < 4 /\
  block_ok 4 (exBlock 0 0 [1; 2; 3; 4]) /\ offset [3; 1; 5] 1 mod 4 <= 4.
Proof. vm_compute. intuition (try congruence); repeat constructor; discriminate. Qed.

(** C53. Making a file longer keeps its bytes and adds zeroes. Missing: a file which holds only the
    ends of its range (see [C53_temporary_refuted]). *)
Theorem C53_allocate_partial : forall ps f disk size, 0 <= size ->
  let old := match disk with Some c => c | None => [] end in
  zlen old <= size -> zlen old <> u32 (u32 (ps - startPos f) + endPos f) \/ endPos f = 0 \/ zlen old = size ->
  exists c, preallocate ps f disk size = Some c /\ zlen c = size /\ forall i, 0 <= i < size -> zn c i = zn old i.
Proof.
  intros ps f disk size Hs old Hl Hn. destruct disk as [c|]; cbn [preallocate]; unfold old in *.
  - destruct (Z.eqb_spec (zlen c) size); [exists c; auto|]. destruct (Z.gtb_spec (zlen c) size); [lia|].
    assert (X : (zlen c =? u32 (u32 (ps - startPos f) + endPos f)) && negb (endPos f =? 0) = false).
    { apply andb_false_iff. rewrite negb_false_iff, Z.eqb_eq, Z.eqb_neq. tauto. }
    rewrite X. destruct (Z.eqb_spec size 0); [pose proof (zlen_nonneg c); lia|]. cbn [negb]. eexists. split; [reflexivity|].
    split; [rewrite zlen_writeAt, zlen_cons, zlen_nil by lia; lia|]. intros i Hi. rewrite zn_writeAt by lia. rewrite zlen_cons, zlen_nil.
    destruct (Z.leb_spec (size - 1) i); destruct (Z.ltb_spec i (size - 1 + (1 + 0))); cbn [andb]; try reflexivity; try lia.
    replace (i - (size - 1)) with 0 by lia. symmetry. apply zn_oob. lia.
  - destruct (Z.eqb_spec size 0); cbn [negb].
    + exists []. subst. split; [reflexivity|]. split; [reflexivity|]. intros; lia.
    + eexists. split; [reflexivity|]. split; [rewrite zlen_writeAt, zlen_cons, zlen_nil by lia; change (zlen (@nil Z)) with 0; lia|]. intros i Hi. rewrite zn_writeAt by lia. rewrite zlen_cons, zlen_nil.
      destruct (Z.leb_spec (size - 1) i); destruct (Z.ltb_spec i (size - 1 + (1 + 0))); cbn [andb]; try reflexivity; try lia.
      replace (i - (size - 1)) with 0 by lia. symmetry; apply zn_oob; change (zlen (@nil Z)) with 0; lia.
Qed.
Print Assumptions C53_allocate_partial.

(** Making it shorter is only done down to its own size, and keeps the bytes before. *)
Theorem C53_shrink : forall ps f c size, 0 <= fsize f -> size < zlen c ->
  exists c', preallocate ps f (Some c) size = Some c' /\ forall i, 0 <= i < zlen c' -> zn c' i = zn c i /\ 
    (zlen c' = zlen c \/ size = fsize f /\ zlen c' = fsize f).
Proof.
  intros ps f c size Hf Hs. cbn [preallocate]. destruct (Z.eqb_spec (zlen c) size); [lia|]. destruct (Z.gtb_spec (zlen c) size); [|lia].
  destruct (Z.eqb_spec size (fsize f)).
  - eexists. split; [reflexivity|]. assert (L : zlen (firstn (Z.to_nat (fsize f)) c) = fsize f) by (unfold zlen in *; rewrite firstn_length; lia). rewrite L.
    intros i Hi. split; [apply zn_firstn; lia|right; split; [assumption|reflexivity]].
  - exists c. split; [reflexivity|]. intros. split; [reflexivity|now left].
Qed.
Print Assumptions C53_shrink.

(** Finding: a file of which only the first and last piece are kept (it was not selected) is made
    too long when it is selected, with its last piece in the wrong place; after that nothing is
    written to the pieces between. *)
Theorem C53_temporary_refuted : forall ps f c b, 0 < ps < 2147483648 -> 0 <= startPos f < ps -> 2 <= endPos f <= ps ->
  zlen c = ps - startPos f + endPos f -> ps - startPos f + endPos f < fsize f ->
  startPiece f < bindex (binfo b) < endPiece f ->
  exists c', preallocate ps f (Some c) (fsize f) = Some c' /\ zlen c' = fsize f - 1 + endPos f /\
    (forall i, 0 <= i < endPos f -> zn c' (fsize f - 1 + i) = zn c (ps - startPos f + i)) /\
    storeInFile ps f (Some c') [b] = Ok (Success, Some c').
Proof.
  intros ps f c b Hp Hs He Hc Hf Hb. cbn [preallocate]. destruct (Z.eqb_spec (zlen c) (fsize f)); [lia|]. destruct (Z.gtb_spec (zlen c) (fsize f)); [lia|].
  rewrite (u32_id (ps - startPos f)) by lia. rewrite (u32_id (ps - startPos f + endPos f)) by lia. rewrite Hc, Z.eqb_refl. cbn [andb].
  destruct (Z.eqb_spec (endPos f) 0); [lia|]. cbn [negb]. eexists. split; [reflexivity|].
  assert (L : zlen (readAt c (ps - startPos f) (endPos f)) = endPos f) by (unfold readAt; rewrite zlen_slice; lia).
  assert (Lc : zlen (writeAt c (fsize f - 1) (readAt c (ps - startPos f) (endPos f))) = fsize f - 1 + endPos f) by (rewrite zlen_writeAt, L by lia; lia).
  split; [assumption|]. split.
  - intros i Hi. rewrite zn_writeAt by lia. rewrite L. destruct (Z.leb_spec (fsize f - 1) (fsize f - 1 + i)); [|lia].
    destruct (Z.ltb_spec (fsize f - 1 + i) (fsize f - 1 + endPos f)); [|lia]. cbn [andb]. unfold readAt. rewrite zn_slice by lia. f_equal. lia.
  - unfold storeInFile. destruct (blocksInfo ps f [b]) as [|x l] eqn:E; [reflexivity|]. rewrite Lc.
    assert (F : Forall (fun p => fst p = b) (x :: l)).
    { rewrite <- E. unfold blocksInfo. apply Forall_forall. intros p Hin. apply filter_In in Hin. destruct Hin as [Hin _]. apply in_map_iff in Hin.
      destruct Hin as (b' & <- & Hin). apply filter_In in Hin. destruct Hin as [[<-|[]] _]. reflexivity. }
    set (c' := writeAt _ _ _). enough (X : writeBlocks ps f (fsize f - 1 + endPos f) c' (x :: l) = Ok c') by now rewrite X.
    clear E. revert F. generalize (x :: l). clear x l. intros l. induction l as [|[b' p] l IH]; intros F; [reflexivity|]. pose proof (Forall_inv F) as F1. pose proof (Forall_inv_tail F) as F2. cbn [fst] in F1. subst b'.
    cbn [writeBlocks]. destruct (Z.eqb_spec (fsize f - 1 + endPos f) (fsize f)); [lia|]. destruct (Z.eqb_spec (bindex (binfo b)) (startPiece f)); [lia|]. cbn [orb].
    destruct (Z.eqb_spec (bindex (binfo b)) (endPiece f)); [lia|]. now apply IH.
Qed.
Print Assumptions C53_temporary_refuted.

Example C53_temporary_meets : exists t, parseMultiFile 4 [3; 15] = Ok t /\ let f := nth 1 (files t) noFile in
  startPos f = 3 /\ endPos f = 2 /\ fsize f = 15 /\ startPiece f = 0 /\ endPiece f = 4.
Proof. eexists. split; reflexivity || (cbn; auto). Qed.
