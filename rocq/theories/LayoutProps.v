(** C16 and C17: file layout and blocks. *)
From Verif Require Import Base BaseLemmas LayoutModel LayoutSpec LayoutProofs.

Lemma multi ps sizes : sizes_fit ps sizes -> exists t, parseMultiFile ps sizes = Ok t /\
  files t = fst (makeFiles ps 0 sizes) /\ t = makeInfo ps (total sizes) (files t) /\ fullSize t = total sizes /\ pieceSize t = ps /\
  length (files t) = length sizes /\
  forall k, (k < length sizes)%nat -> file_at ps (offset sizes k) (nth k sizes 0) (nth k (files t) noFile).
Proof.
  intros (H1 & H2 & H3 & H4). unfold parseMultiFile. destruct (Z.eqb_spec ps 0); [lia|]. cbn [andb].
  destruct (makeFiles_at ps sizes 0 H1 ltac:(lia) H2 H3 H4) as (A & B & C). destruct (makeFiles ps 0 sizes) as [fs t]. cbn [fst snd] in *. subst t.
  rewrite Z.add_0_l.
  assert (F : files (makeInfo ps (total sizes) fs) = fs) by (destruct fs; reflexivity).
  eexists. split; [reflexivity|]. rewrite F. split; [reflexivity|]. split; [reflexivity|]. split; [destruct fs; reflexivity|]. split; [destruct fs; reflexivity|]. split; [exact B|].
  intros k Hk. specialize (C k Hk). rewrite Z.add_0_l in C. exact C.
Qed.

(** Every file starts at the sum of the sizes before it and its pieces are exactly those which
    hold one of its bytes. *)
Theorem C16_pieces_of_files : forall ps sizes, sizes_fit ps sizes ->
  exists t, parseMultiFile ps sizes = Ok t /\ fullSize t = total sizes /\ length (files t) = length sizes /\
    forall k, (k < length sizes)%nat ->
      let f := nth k (files t) noFile in
      fsize f = nth k sizes 0 /\ first_byte ps f = offset sizes k /\ 0 <= startPos f < ps /\
      (0 < nth k sizes 0 -> forall p, startPiece f <= p <= endPiece f <-> has_byte_in ps (offset sizes k) (nth k sizes 0) p).
Proof.
  intros ps sizes H. destruct (multi ps sizes H) as (t & T1 & _ & _ & T2 & _ & T3 & T4). exists t. do 3 (split; [assumption|]).
  intros k Hk f. destruct (T4 k Hk) as (A & B & C & D). fold f in A, B, C, D. do 3 (split; [assumption|]). intros Hs p.
  apply pieces_exact; [apply H|apply T4, Hk|assumption].
Qed.
Print Assumptions C16_pieces_of_files.

(** Every byte of the torrent lies in exactly one file. *)
Theorem C16_every_byte_once : forall ps sizes, sizes_fit ps sizes ->
  exists t, parseMultiFile ps sizes = Ok t /\
    forall b, 0 <= b < fullSize t ->
      exists k, (k < length (files t))%nat /\
        first_byte ps (nth k (files t) noFile) <= b < first_byte ps (nth k (files t) noFile) + fsize (nth k (files t) noFile) /\
        forall j, (j < length (files t))%nat ->
          first_byte ps (nth j (files t) noFile) <= b < first_byte ps (nth j (files t) noFile) + fsize (nth j (files t) noFile) -> j = k.
Proof.
  intros ps sizes H. destruct (multi ps sizes H) as (t & T1 & _ & _ & T2 & _ & T3 & T4). exists t. split; [assumption|]. rewrite T2, T3.
  intros b Hb. destruct (one_file sizes (proj1 (proj2 H)) b Hb) as (k & K1 & K2 & K3). exists k. split; [assumption|].
  destruct (T4 k K1) as (A & B & _). rewrite A, B. split; [assumption|]. intros j Hj.
  destruct (T4 j Hj) as (A' & B' & _). rewrite A', B'. apply K3, Hj.
Qed.
Print Assumptions C16_every_byte_once.

(** The end of a file is where its last byte is. Missing: files which end on a piece boundary
    (see [C16_boundary_refuted]). *)
Theorem C16_end_partial : forall ps sizes, sizes_fit ps sizes ->
  exists t, parseMultiFile ps sizes = Ok t /\
    forall k, (k < length sizes)%nat -> (offset sizes k + nth k sizes 0) mod ps <> 0 \/ nth k sizes 0 = 0 ->
      end_byte ps (nth k (files t) noFile) = offset sizes k + nth k sizes 0.
Proof.
  intros ps sizes H. destruct (multi ps sizes H) as (t & T1 & _ & _ & T2 & _ & T3 & T4). exists t. split; [assumption|].
  intros k Hk D. destruct (T4 k Hk) as (_ & _ & _ & _ & E & _). unfold end_byte.
  destruct (Z.eqb_spec (nth k sizes 0) 0); cbn [negb andb] in E; [assumption|].
  destruct (Z.eqb_spec ((offset sizes k + nth k sizes 0) mod ps) 0); [|assumption]. destruct D; contradiction.
Qed.
Print Assumptions C16_end_partial.

Example C16_meets : sizes_fit 16384 [20000; 0; 12768; 5] /\ parseMultiFile 16384 [20000; 0; 12768; 5] <> UB.
Proof. vm_compute. intuition (try congruence); repeat constructor; discriminate. Qed.

(** Finding: a file of a multi-file torrent which ends on a piece boundary is recorded as ending
    a whole piece earlier. *)
Theorem C16_boundary_refuted : forall ps sizes k, sizes_fit ps sizes -> (k < length sizes)%nat ->
  0 < nth k sizes 0 -> (offset sizes k + nth k sizes 0) mod ps = 0 ->
  exists t, parseMultiFile ps sizes = Ok t /\ endPos (nth k (files t) noFile) = 0 /\
    end_byte ps (nth k (files t) noFile) = offset sizes k + nth k sizes 0 - ps.
Proof.
  intros ps sizes k H Hk Hs M. destruct (multi ps sizes H) as (t & T1 & _ & _ & T2 & _ & T3 & T4). exists t. split; [assumption|].
  destruct (T4 k Hk) as (_ & _ & _ & D & E & _). rewrite M in *. unfold end_byte. split; [assumption|].
  destruct (Z.eqb_spec (nth k sizes 0) 0); [lia|]. cbn [negb andb] in E. rewrite Z.eqb_refl in E. lia.
Qed.
Print Assumptions C16_boundary_refuted.

Example C16_boundary_meets : sizes_fit 16384 [20000; 12768; 5] /\ (offset [20000; 12768; 5] 1 + nth 1 [20000; 12768; 5] 0) mod 16384 = 0.
Proof. vm_compute. intuition (try congruence); repeat constructor; discriminate. Qed.

(** A single file: one range of all pieces, with the right end. *)
Theorem C16_single : forall ps size pieces, 0 < ps < 4294967296 -> 0 < size -> 0 <= pieces < 4294967296 ->
  pieces = (size + ps - 1) / ps ->
  exists t f, parseSingleFile ps size pieces = Ok t /\ files t = [f] /\ fsize f = size /\ first_byte ps f = 0 /\
    end_byte ps f = size /\ forall p, startPiece f <= p <= endPiece f <-> has_byte_in ps 0 size p.
Proof.
  intros ps size pieces Hp Hs Hq E. unfold parseSingleFile. destruct (Z.eqb_spec ps 0); [lia|].
  eexists; eexists. split; [reflexivity|]. split; [reflexivity|].
  assert (D : exists e, (pieces - 1) * ps + e = size /\ 0 < e <= ps /\ 0 <= pieces - 1 /\ size mod ps = if e =? ps then 0 else e).
  { subst pieces. exists (size - ((size + ps - 1) / ps - 1) * ps).
    pose proof (Z.div_mod (size + ps - 1) ps ltac:(lia)) as X. pose proof (Z.mod_pos_bound (size + ps - 1) ps ltac:(lia)) as Y.
    set (q := (size + ps - 1) / ps) in *. assert (ps * q = q * ps) by ring. assert ((q - 1) * ps = q * ps - ps) by ring.
    assert (0 < q) by (apply (Z.mul_pos_cancel_r q ps); lia).
    split; [lia|]. split; [lia|]. split; [lia|].
    destruct (Z.eqb_spec (size - (q - 1) * ps) ps) as [Q|Q].
    - replace size with (q * ps) by lia. apply Z.mod_mul. lia.
    - symmetry. apply (Z.mod_unique size ps (q - 1)); [left; lia|]. lia. }
  destruct D as (e & D1 & D2 & D3 & D4). unfold singleFile, first_byte, end_byte. cbn [fsize startPiece startPos endPiece endPos].
  assert (X : (if negb (size mod ps =? 0) then size mod ps else ps) = e).
  { rewrite D4. destruct (Z.eqb_spec e ps) as [->|Q]; [reflexivity|]. destruct (Z.eqb_spec e 0); [lia|reflexivity]. }
  rewrite X, (u32_id (pieces - 1)), (u32_id e) by lia. split; [reflexivity|]. split; [lia|].
  split; [assumption|]. intros p. unfold has_byte_in. split.
  - intros Hr. exists (p * ps). assert (p * ps <= (pieces - 1) * ps) by (apply Z.mul_le_mono_nonneg_r; lia). split; [nia|]. apply Z.div_mul. lia.
  - intros (b & Hb & <-). split; [apply Z.div_pos; lia|]. apply Z.lt_succ_r. apply Z.div_lt_upper_bound; lia.
Qed.
Print Assumptions C16_single.

(** Finding: a torrent without or with a zero piece length divides by zero when it is parsed. *)
Theorem C16_zero_piece_length_refuted : forall s sizes n,
  parseMultiFile 0 (s :: sizes) = UB /\ parseSingleFile 0 s n = UB.
Proof. exact (fun _ _ _ => conj eq_refl eq_refl). Qed.
Print Assumptions C16_zero_piece_length_refuted.

(** Finding: an empty last file behind a full last piece gets a piece which does not exist. *)
Theorem C16_empty_last_refuted : forall ps sizes, sizes_fit ps (sizes ++ [0]) -> total sizes mod ps = 0 ->
  exists t, parseMultiFile ps (sizes ++ [0]) = Ok t /\
    startPiece (nth (length sizes) (files t) noFile) = total sizes / ps /\ lastPieceIndex t = total sizes / ps.
Proof.
  intros ps sizes H M. destruct (multi ps _ H) as (t & T1 & T5 & T6 & T2 & T7 & T3 & T4). exists t. split; [assumption|].
  rewrite app_length in *. cbn [length] in *. destruct (T4 (length sizes)) as (A & B & C & D & E & F); [lia|].
  unfold offset in *. rewrite firstn_app_exact in *. rewrite app_nth2, Nat.sub_diag in * by lia. cbn [nth] in *.
  rewrite Z.add_0_r, M in *. unfold first_byte in B. change (negb (0 =? 0) && (0 =? 0)) with false in E. cbv iota in E.
  destruct H as (H1 & _).
  assert (S : startPiece (nth (length sizes) (files t) noFile) = total sizes / ps).
  { apply (Z.div_unique _ ps _ (startPos (nth (length sizes) (files t) noFile))); [left; assumption|]. lia. }
  split; [assumption|].
  assert (L : last (files t) noFile = nth (length sizes) (files t) noFile).
  { assert (N : files t <> []) by (intros X; rewrite X in T3; simpl in T3; lia).
    pose proof (app_removelast_last noFile N) as X. rewrite X at 2. 
    rewrite app_nth2; assert (LL : length (removelast (files t)) = length sizes) by (rewrite X, app_length in T3; simpl in T3; lia); rewrite LL; [|lia].
    rewrite Nat.sub_diag. reflexivity. }
  rewrite T6. destruct (files t) as [|f0 fs]; [simpl in T3; lia|]. unfold makeInfo. cbn [lastPieceIndex]. rewrite L.
  set (f := nth (length sizes) (f0 :: fs) noFile) in *. apply (Z.div_unique _ ps _ (endPos f)); [left; lia|]. lia.
Qed.
Print Assumptions C16_empty_last_refuted.

Example C16_empty_last_meets : sizes_fit 16384 ([32768] ++ [0]) /\ total [32768] mod 16384 = 0.
Proof. vm_compute. intuition (try congruence); repeat constructor; discriminate. Qed.

(** The blocks of every piece tile it, for a torrent of one file. *)
Theorem C17_single : forall ps size pieces idx, 0 < ps < 2147483648 -> 0 < size -> pieces < 4294967296 ->
  pieces = (size + ps - 1) / ps -> 0 <= idx < pieces ->
  exists t, parseSingleFile ps size pieces = Ok t /\ tiles 0 (makePieceBlocksInfo t idx) (size_of_piece ps size idx) /\
    getPieceSize t idx = size_of_piece ps size idx /\ Forall (fun b => bindex b = idx) (makePieceBlocksInfo t idx).
Proof.
  intros ps size pieces idx Hp Hs Hq E Hi.
  destruct (C16_single ps size pieces) as (t & f & T1 & T2 & T3 & T4 & T5 & T6); try lia.
  assert (T : t = makeInfo ps size [singleFile ps size pieces]).
  { unfold parseSingleFile in T1. destruct (Z.eqb_spec ps 0); [lia|]. congruence. }
  assert (Ff : f = singleFile ps size pieces) by (rewrite T in T2; cbn in T2; congruence).
  assert (EP : endPiece f = pieces - 1) by (rewrite Ff; cbn; apply u32_id; lia).
  assert (EO : 0 < endPos f <= ps).
  { rewrite Ff. unfold singleFile. cbn [endPos]. pose proof (Z.mod_pos_bound size ps ltac:(lia)).
    rewrite u32_id; destruct (Z.eqb_spec (size mod ps) 0); cbn [negb]; lia. }
  assert (I : info_ok t).
  { rewrite T. apply makeInfo_ok; try lia; try congruence; cbn [last]; rewrite <- Ff; try lia. }
  exists t. split; [assumption|].
  assert (P : pieceSize t = ps /\ fullSize t = size /\ lastPieceIndex t = pieces - 1) by (rewrite T; cbn; rewrite Ff in EP; cbn in EP; auto).
  destruct P as (P1 & P2 & P3).
  pose proof (blocks_tile t idx I) as B. rewrite P1, P2, P3 in B. destruct B as [B1 B2]; [lia|]. do 2 (split; [assumption|]).
  unfold makePieceBlocksInfo. apply Forall_map, Forall_forall. reflexivity.
Qed.
Print Assumptions C17_single.

Example C17_single_meets : (100000 + 65536 - 1) / 65536 = 2.
Proof. reflexivity. Qed.

(** The same for several files. Missing: a total which is a multiple of the piece size (see
    [C17_multiple_refuted]). *)
Theorem C17_multi_partial : forall ps sizes idx, sizes_fit ps sizes -> ps < 2147483648 -> sizes <> [] -> total sizes mod ps <> 0 ->
  0 <= idx <= total sizes / ps ->
  exists t, parseMultiFile ps sizes = Ok t /\ tiles 0 (makePieceBlocksInfo t idx) (size_of_piece ps (total sizes) idx) /\
    getPieceSize t idx = size_of_piece ps (total sizes) idx.
Proof.
  intros ps sizes idx H Hp Hn M Hi. destruct (multi ps sizes H) as (t & T1 & T5 & T6 & T2 & T7 & T3 & T4). exists t. split; [assumption|].
  destruct H as (H1 & H2 & H3 & H4).
  destruct (exists_last Hn) as (l & s & Ls). subst sizes. rewrite app_length in T3, T4. cbn [length] in T3, T4.
  destruct (T4 (length l)) as (A & B & C & D & E & F); [lia|]. unfold offset in *. rewrite firstn_app_exact in *.
  rewrite app_nth2, Nat.sub_diag in * by lia. cbn [nth] in *.
  assert (TT : total (l ++ [s]) = total l + s) by (rewrite total_app; cbn; lia). rewrite TT in *.
  assert (L : last (files t) noFile = nth (length l) (files t) noFile).
  { assert (N : files t <> []) by (intros X; rewrite X in T3; simpl in T3; lia).
    pose proof (app_removelast_last noFile N) as X. rewrite X at 2. 
    rewrite app_nth2; assert (LL : length (removelast (files t)) = length l) by (rewrite X, app_length in T3; simpl in T3; lia); rewrite LL; [|lia].
    rewrite Nat.sub_diag. reflexivity. }
  set (f := nth (length l) (files t) noFile) in *.
  assert (E' : endPiece f * ps + endPos f = total l + s).
  { destruct (Z.eqb_spec s 0); cbn [negb andb] in E; [assumption|]. destruct (Z.eqb_spec ((total l + s) mod ps) 0); [contradiction|assumption]. }
  assert (NN : 0 <= total l + s) by (rewrite <- TT; apply total_nonneg, H2).
  pose proof (Z.mod_pos_bound (total l + s) ps ltac:(lia)).
  assert (I : info_ok t).
  { rewrite T6. apply makeInfo_ok; rewrite ?L; unfold end_byte; try lia.
    - intros X. rewrite X in T3. simpl in T3. lia.
    - destruct (Z.eq_dec (total l + s) 0) as [Q|Q]; [rewrite Q in M; rewrite Z.mod_0_l in M; lia|lia]. }
  assert (LP : lastPieceIndex t = (total l + s) / ps).
  { assert (X : lastPieceIndex t = endPiece f).
    { rewrite T6. destruct (files t) as [|f0 fs]; [simpl in T3; lia|]. unfold makeInfo. cbn [lastPieceIndex]. now rewrite L. }
    rewrite X. apply (Z.div_unique _ ps _ (endPos f)); [left; lia|]. lia. }
  pose proof (blocks_tile t idx I) as Bt. rewrite T2, T7, LP in Bt. apply Bt. lia.
Qed.
Print Assumptions C17_multi_partial.

Example C17_multi_meets : sizes_fit 32768 [20000; 0; 12768; 5] /\ total [20000; 0; 12768; 5] mod 32768 <> 0.
Proof. vm_compute. intuition (try congruence); repeat constructor; discriminate. Qed.

(** Finding: when several files fill their last piece, that piece has size 0 and 262144 blocks. *)
Theorem C17_multiple_refuted : forall ps sizes s, sizes_fit ps (sizes ++ [s]) -> 0 < s -> total (sizes ++ [s]) mod ps = 0 ->
  exists t, parseMultiFile ps (sizes ++ [s]) = Ok t /\ lastPieceIndex t = total (sizes ++ [s]) / ps - 1 /\
    getPieceSize t (lastPieceIndex t) = 0 /\ zlen (makePieceBlocksInfo t (lastPieceIndex t)) = 262144.
Proof.
  intros ps l s H Hs M. destruct (multi ps _ H) as (t & T1 & T5 & T6 & T2 & T7 & T3 & T4). exists t. split; [assumption|].
  destruct H as (H1 & H2 & H3 & H4).
  rewrite app_length in T3, T4. cbn [length] in T3, T4.
  destruct (T4 (length l)) as (A & B & C & D & E & F); [lia|]. unfold offset in *. rewrite firstn_app_exact in *.
  rewrite app_nth2, Nat.sub_diag in * by lia. cbn [nth] in *.
  assert (TT : total (l ++ [s]) = total l + s) by (rewrite total_app; cbn; lia). rewrite TT in *.
  assert (L : last (files t) noFile = nth (length l) (files t) noFile).
  { assert (N : files t <> []) by (intros X; rewrite X in T3; simpl in T3; lia).
    pose proof (app_removelast_last noFile N) as X. rewrite X at 2. 
    rewrite app_nth2; assert (LL : length (removelast (files t)) = length l) by (rewrite X, app_length in T3; simpl in T3; lia); rewrite LL; [|lia].
    rewrite Nat.sub_diag. reflexivity. }
  set (f := nth (length l) (files t) noFile) in *. rewrite M in *.
  destruct (Z.eqb_spec s 0); [lia|]. cbn [negb andb] in E. rewrite Z.eqb_refl in E.
  assert (X : lastPieceIndex t = endPiece f /\ lastPieceSize t = 0 /\ lastPieceLastBlockIndex t = 262143).
  { rewrite T6. destruct (files t) as [|f0 fs]; [simpl in T3; lia|]. unfold makeInfo. cbn [lastPieceIndex lastPieceSize lastPieceLastBlockIndex].
    rewrite L, D. repeat split. }
  destruct X as (X1 & X2 & X3). split.
  - rewrite X1. assert (G : endPiece f + 1 = (total l + s) / ps); [|lia]. apply (Z.div_unique _ ps _ 0); [left; lia|]. lia.
  - unfold getPieceSize, makePieceBlocksInfo, getPieceBlocksCount. rewrite Z.eqb_refl, X3. split; [assumption|].
    unfold zlen. rewrite map_length, seq_length, Z2Nat.id by (vm_compute; discriminate). reflexivity.
Qed.
Print Assumptions C17_multiple_refuted.

Example C17_multiple_meets : sizes_fit 16384 ([20000] ++ [12768]) /\ total ([20000] ++ [12768]) mod 16384 = 0.
Proof. vm_compute. intuition (try congruence); repeat constructor; discriminate. Qed.
