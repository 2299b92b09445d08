(** C90: the check of the stored files. *)
From Verif Require Import Base BaseLemmas LayoutModel LayoutSpec LayoutProofs LayoutProps StorageModel StorageSpec StorageProofs StorageProps
  CheckModel CheckSpec CheckProofs.

(** Torrents as the parser makes them. *)
Inductive parsed : torrentInfo -> Prop :=
| one_file_parsed ps size t : 0 < ps < 2147483648 -> 0 < size < 9223372036854775808 -> (size + ps - 1) / ps < 4294967295 ->
    parseSingleFile ps size ((size + ps - 1) / ps) = Ok t -> parsed t
| files_parsed ps sizes t : sizes_fit ps sizes -> ps < 2147483648 -> sizes <> [] -> parseMultiFile ps sizes = Ok t -> parsed t.

(** The number of pieces. *)
Definition pieces_of (t : torrentInfo) : Z := (fullSize t + pieceSize t - 1) / pieceSize t.

Lemma situated_nth ps fs : forall o, (forall k, (k < length fs)%nat -> situated ps (o + total (firstn k (map fsize fs))) (nth k fs noFile)) -> all_situated ps o fs.
Proof.
  induction fs as [|f fs IH]; intros o H; [exact I|]. split.
  - specialize (H 0%nat). cbn in H. rewrite Z.add_0_r in H. apply H. lia.
  - apply IH. intros k Hk. specialize (H (S k)). cbn [length firstn map nth] in H. rewrite total_cons in H.
    replace (o + fsize f + total (firstn k (map fsize fs))) with (o + (fsize f + total (firstn k (map fsize fs)))) by lia. apply H. lia.
Qed.

Lemma file_at_situated ps o size f : 0 < ps -> 0 <= size -> 0 <= o -> file_at ps o size f -> situated ps o f.
Proof.
  intros P S O (B1 & B2 & B3 & B4 & B5 & B6). unfold first_byte in B2. rewrite <- B1 in *. pose proof (Z.mod_pos_bound (o + fsize f) ps ltac:(lia)) as M.
  unfold situated. split; [assumption|]. split; [assumption|]. split; [assumption|]. split; [assumption|]. split; [|split; [|split]].
  - intros E. rewrite E in B5. cbn [Z.eqb negb andb] in B5. rewrite E, Z.add_0_r in *.
    assert (startPiece f < endPiece f + 1) by (lia). enough (endPiece f < startPiece f + 1) by lia. apply (mul_lt_cancel ps); lia.
  - intros E. destruct (Z.eqb_spec (fsize f) 0); [lia|]. cbn [negb andb] in B5. destruct (Z.eqb_spec ((o + fsize f) mod ps) 0); lia.
  - lia.
  - intros E. destruct (Z.eqb_spec (fsize f) 0); cbn [negb andb] in B5; [assumption|]. destruct (Z.eqb_spec ((o + fsize f) mod ps) 0); [contradiction|assumption].
Qed.

Lemma parsed_ok t : parsed t -> 0 < pieceSize t < 2147483648 /\ all_situated (pieceSize t) 0 (files t) /\
  fullSize t = total (map fsize (files t)) /\ 0 <= fullSize t /\ fullSize t / pieceSize t < 4294967295 /\ files t <> [].
Proof.
  intros [ps size t' H1 H2 H3 H4|ps sizes t' H1 H2 H3 H4].
  - assert (Q : 0 <= (size + ps - 1) / ps) by (apply Z.div_pos; lia).
    destruct (C16_single ps size ((size + ps - 1) / ps)) as (t1 & f & T1 & T2 & T3 & T4 & T5 & T6); try lia.
    rewrite T1 in H4. inversion H4; subst t'. unfold parseSingleFile in T1. destruct (Z.eqb_spec ps 0); [lia|]. inversion T1 as [T0].
    cbn [makeInfo pieceSize fullSize files map total fold_right]. rewrite <- T0 in T2. cbn [makeInfo files] in T2. inversion T2 as [T7]. rewrite T7, T3, Z.add_0_r.
    split; [assumption|].
    assert (S0 : startPiece f = 0 /\ startPos f = 0) by (rewrite <- T7; auto). destruct S0 as [S1 S2].
    assert (EO : 0 < endPos f <= ps).
    { rewrite <- T7. unfold singleFile. cbn [endPos]. pose proof (Z.mod_pos_bound size ps ltac:(lia)).
      rewrite u32_id; destruct (Z.eqb_spec (size mod ps) 0); cbn [negb]; lia. }
    assert (EP : endPiece f = (size + ps - 1) / ps - 1).
    { rewrite <- T7. cbn [singleFile endPiece]. apply u32_id. split; [|lia].
      enough (1 <= (size + ps - 1) / ps) by lia. apply Z.div_le_lower_bound; lia. }
    assert (1 <= (size + ps - 1) / ps) by (apply Z.div_le_lower_bound; lia).
    split.
    { cbn [all_situated]. split; [|exact I]. unfold first_byte, end_byte in *. unfold situated. rewrite T3, S1, S2 in *. rewrite Z.add_0_l in *. lia. }
    split; [reflexivity|]. split; [lia|]. split; [|discriminate].
    apply Z.le_lt_trans with ((size + ps - 1) / ps); [apply Z.div_le_mono; lia|assumption].
  - destruct (multi ps sizes H1) as (t1 & T1 & T2 & T3 & T4 & T5 & T6 & T7). rewrite T1 in H4. inversion H4; subst t'. rewrite T5, T4.
    assert (SZ : map fsize (files t1) = sizes).
    { apply nth_ext with (d := fsize noFile) (d' := 0); rewrite map_length; [assumption|]. intros k Hk. rewrite map_nth. rewrite T6 in Hk. now destruct (T7 k Hk). }
    rewrite SZ. destruct H1 as (A1 & A2 & A3 & A4). split; [lia|]. split; [|split; [reflexivity|split; [now apply total_nonneg|split; [assumption|]]]].
    + apply situated_nth. rewrite SZ, T6. intros k Hk. rewrite Z.add_0_l. fold (offset sizes k). apply file_at_situated with (size := nth k sizes 0); [lia| | |now apply T7].
      * rewrite Forall_forall in A2. apply A2. now apply nth_In.
      * unfold offset. apply total_nonneg. apply Forall_forall. intros x Hx. rewrite Forall_forall in A2. apply A2. rewrite <- (firstn_skipn k sizes). apply in_or_app. now left.
    + intros E. rewrite E in T6. destruct sizes; [contradiction|discriminate].
Qed.

Lemma start_positive ps fs : forall o f, all_situated ps o fs -> In f fs -> 0 <= startPiece f.
Proof.
  induction fs as [|g fs IH]; intros o f S [].
  - subst g. destruct S as [(_ & _ & _ & S4 & _) _]. lia.
  - destruct S as [_ S]. eauto.
Qed.

Lemma pieces_count t : 0 < pieceSize t -> 0 <= fullSize t -> fullSize t mod pieceSize t <> 0 -> pieces_of t = fullSize t / pieceSize t + 1.
Proof.
  intros P F M. unfold pieces_of. pose proof (Z.div_mod (fullSize t) (pieceSize t) ltac:(lia)) as D. pose proof (Z.mod_pos_bound (fullSize t) (pieceSize t) P) as B.
  symmetry. apply (Z.div_unique _ (pieceSize t) _ (fullSize t mod pieceSize t - 1)); lia.
Qed.

(** A worker of the check ends, with all pieces counted as checked, and has added only wanted pieces of its own. A piece
    whose files hold their bytes of it, whole or as temporary files, is added exactly if it is wanted, this worker's, and
    its bytes have its hash. A piece in the middle of a file is looked at if one of the ends of the file is wanted.
    Missing: torrents whose last piece is full, for which it is false ([C90_full_last_refuted]), pieces of which a file is
    missing ([C90_stale_refuted]) and a missing empty last file ([C90_empty_last_refuted]). *)
Theorem C90_exact_partial : forall sha t disk hashes workers idx wanted, parsed t -> fullSize t mod pieceSize t <> 0 ->
  zlen hashes = pieces_of t -> zlen wanted = pieces_of t -> length disk = length (files t) ->
  exists st, checkStoredPieces sha (pieceSize t) hashes workers idx wanted (files t) disk = Ok st /\ checked st = pieces_of t /\
    (forall p, In p (added st) -> 0 <= p /\ p mod workers = idx /\ nth_error wanted (Z.to_nat p) = Some true) /\
    forall p, 0 <= p < pieces_of t -> all_keep (pieceSize t) (files t) disk p ->
      (forall f, In f (files t) -> startPiece f < p < endPiece f ->
         nth_error wanted (Z.to_nat (startPiece f)) = Some true \/ nth_error wanted (Z.to_nat (endPiece f)) = Some true) ->
      (In p (added st) <-> p mod workers = idx /\ nth_error wanted (Z.to_nat p) = Some true /\
         nth_error hashes (Z.to_nat p) = Some (sha (piece_data (pieceSize t) (files t) disk p))).
Proof.
  intros sha t disk hashes workers idx wanted H M HH WW LD. destruct (parsed_ok t H) as (P & S & F & F0 & N & NE).
  rewrite (pieces_count t) in * by (assumption || lia).
  set (st0 := {| cur := 0; buffer := repeat 0 (Z.to_nat (pieceSize t)); added := []; checked := 0 |}).
  assert (C0 : match files t with f :: _ => cur st0 = startPiece f | [] => True end).
  { destruct (files t) as [|f fs]; [exact I|]. destruct S as [(S1 & S2 & S3 & S4 & _) _]. cbn [st0 cur].
    destruct (Z.eq_dec (startPiece f) 0); [lia|]. assert (1 * pieceSize t <= startPiece f * pieceSize t) by (apply Z.mul_le_mono_nonneg_r; lia). lia. }
  assert (B0 : zlen (buffer st0) = pieceSize t) by (cbn [st0 buffer]; unfold zlen; rewrite repeat_length; lia).
  assert (D0 : 0 <= fullSize t / pieceSize t) by (apply Z.div_pos; lia).
  destruct (checkFrom_runs sha (pieceSize t) hashes workers idx wanted (fullSize t) P M N HH WW (files t) 0 disk st0) as (st & R1 & R2 & R3);
    try assumption; try lia.
  { cbn [st0 checked]. lia. }
  exists st. split; [exact R1|]. split; [assumption|]. split.
  - intros p Hp. apply R3 in Hp. destruct Hp as [[]|(L & f & Hf & T)]. split; [|exact L].
    pose proof (start_positive _ _ _ _ S Hf) as SP. unfold touches in T. lia.
  - intros p Hp K G. destruct (Z.eq_dec (p mod workers) idx) as [E1|E1].
    2: { split; [|tauto]. intros X. apply R3 in X. destruct X as [[]|((X & _) & _)]. contradiction. }
    destruct (nth_error wanted (Z.to_nat p)) as [[|]|] eqn:E2.
    2, 3: split; [intros X; apply R3 in X; destruct X as [[]|((_ & X) & _)]; congruence|intros (_ & X & _); discriminate].
    assert (PF : p * pieceSize t < fullSize t).
    { pose proof (Z.div_mod (fullSize t) (pieceSize t) ltac:(lia)) as DM. pose proof (Z.mod_pos_bound (fullSize t) (pieceSize t) ltac:(lia)).
      assert (p * pieceSize t <= fullSize t / pieceSize t * pieceSize t) by (apply Z.mul_le_mono_nonneg_r; lia). lia. }
    rewrite (checkFrom_piece sha (pieceSize t) hashes workers idx wanted (fullSize t) P M N HH WW p (conj E1 E2) (proj1 Hp) PF
      (files t) 0 disk st0 [] NE LD S ltac:(lia) ltac:(lia) C0 B0 K G); [| | |exact R1].
    + unfold right. cbn [app]. tauto.
    + intros _. cbn [st0 added In]. split; [auto|]. assert (0 <= p * pieceSize t) by (apply Z.mul_nonneg_nonneg; lia). split; [unfold zlen; cbn [length]; lia|reflexivity].
    + intros X. exfalso. assert (0 <= p * pieceSize t) by (apply Z.mul_nonneg_nonneg; lia). lia.
Qed.
Print Assumptions C90_exact_partial.

Lemma zlen_bytes fs disk : allocated fs disk -> zlen (bytes_of disk) = total (map fsize fs).
Proof.
  induction 1 as [|f d fs disk (c & -> & L) _ IH]; [reflexivity|]. unfold bytes_of in *. cbn [map concat total fold_right].
  unfold zlen in *. rewrite app_length, Nat2Z.inj_add, IH, L. reflexivity.
Qed.

Lemma readAt_0 c a : readAt c a 0 = [].
Proof. unfold readAt, slice. reflexivity. Qed.

Lemma part_whole ps f o c p : 0 < ps -> situated ps o f -> zlen c = fsize f ->
  (if (startPiece f <=? p) && (p <=? endPiece f) then part ps f (Some c) p else []) =
  readAt c (Z.max 0 (p * ps - o)) (Z.max 0 (Z.min (o + fsize f) ((p + 1) * ps) - Z.max o (p * ps))).
Proof.
  intros P S L. pose proof S as (S1 & S2 & S3 & S4 & S5 & S6 & S7 & S8). destruct ((startPiece f <=? p) && (p <=? endPiece f)) eqn:TB.
  - unfold part. rewrite L, Z.eqb_refl. unfold first_byte. rewrite S1.
    apply touchb in TB. destruct (touch_range ps f o p P S TB) as [Q1 Q2].
    rewrite (Z.max_r 0 (Z.min (o + fsize f) ((p + 1) * ps) - Z.max o (p * ps))) by lia. reflexivity.
  - replace (Z.max 0 (Z.min (o + fsize f) ((p + 1) * ps) - Z.max o (p * ps))) with 0; [now rewrite readAt_0|].
    apply andb_false_iff in TB. rewrite !Z.leb_gt in TB. destruct TB as [TB|TB].
    + assert ((p + 1) * ps <= startPiece f * ps) by (apply Z.mul_le_mono_nonneg_r; lia). lia.
    + assert ((endPiece f + 1) * ps <= p * ps) by (apply Z.mul_le_mono_nonneg_r; lia).
      destruct (Z.eq_dec (fsize f) 0) as [E|E]; [rewrite (S5 E) in *; lia|]. specialize (S6 ltac:(lia)). lia.
Qed.

(** When all files are there the bytes of a piece are those of the torrent. *)
Lemma data_allocated ps p : 0 < ps -> forall fs o disk, all_situated ps o fs -> allocated fs disk -> 0 <= o ->
  piece_data ps fs disk p = readAt (bytes_of disk) (Z.max 0 (p * ps - o)) (Z.max 0 (Z.min (o + total (map fsize fs)) ((p + 1) * ps) - Z.max o (p * ps))).
Proof.
  intros P. induction fs as [|f fs IH]; intros o disk S A O; inversion A as [|f' d fs' disk' (c & -> & L) A' E1 E2]; subst.
  - cbn [piece_data]. unfold bytes_of, readAt, slice. cbn [map concat]. now rewrite skipn_nil, firstn_nil.
  - destruct S as [S SS]. pose proof S as (S1 & S2 & S3 & S4 & S5 & S6 & S7 & S8). cbn [piece_data]. rewrite (IH (o + fsize f) _ SS A' ltac:(lia)).
    pose proof (zlen_bytes _ _ A') as LB. assert (TN : 0 <= total (map fsize fs)) by (rewrite <- LB; unfold zlen; lia).
    assert (TC : total (map fsize (f :: fs)) = fsize f + total (map fsize fs)) by reflexivity. rewrite TC.
    assert (LA : zlen (bytes_of (Some c :: disk')) = fsize f + total (map fsize fs)) by (rewrite (zlen_bytes _ _ A); assumption).
    set (lo := Z.max o (p * ps)). set (T := total (map fsize fs)) in *.
    pose proof (part_whole ps f o c p P S L) as MID. fold lo in MID.
    rewrite MID. set (d1 := readAt c _ _). set (d2 := readAt (bytes_of disk') _ _).
    assert (L1 : zlen d1 = Z.max 0 (Z.min (o + fsize f) ((p + 1) * ps) - lo)) by (unfold d1; rewrite zlen_readAt; unfold lo; lia).
    assert (L2 : zlen d2 = Z.max 0 (Z.min (o + fsize f + T) ((p + 1) * ps) - Z.max (o + fsize f) (p * ps))) by (unfold d2; rewrite zlen_readAt; lia).
    assert (L12 : zlen (d1 ++ d2) = zlen d1 + zlen d2) by (unfold zlen; rewrite app_length; lia).
    clear S S1 S2 S4 S5 S6 S7 S8 SS IH MID A A' LB. apply list_zn_ext.
    + rewrite zlen_readAt by lia. rewrite LA, L12, L1, L2. unfold lo. lia.
    + intros i Hi. rewrite L12 in Hi. rewrite zn_readAt by (unfold lo in *; lia). rewrite bytes_cons by lia. rewrite zn_app by lia.
      destruct (Z.ltb_spec i (zlen d1)); destruct (Z.ltb_spec (Z.max 0 (p * ps - o) + i) (zlen c)); try (unfold lo in *; lia).
      * unfold d1. rewrite zn_readAt by (unfold lo in *; lia). reflexivity.
      * unfold d2. rewrite zn_readAt by (unfold lo in *; lia). f_equal. unfold lo in *. lia.
Qed.

(** When all files are there and everything is checked, by any number of workers together, exactly the pieces with the right
    hash are found. *)
Theorem C90_all_partial : forall sha t disk hashes workers, parsed t -> fullSize t mod pieceSize t <> 0 ->
  zlen hashes = pieces_of t -> allocated (files t) disk -> 0 < workers ->
  exists results, length results = Z.to_nat workers /\
    (forall k, (k < Z.to_nat workers)%nat -> 
       checkStoredPieces sha (pieceSize t) hashes workers (Z.of_nat k) (repeat true (Z.to_nat (pieces_of t))) (files t) disk = nth k results UB) /\
    forall p, 0 <= p < pieces_of t ->
      ((exists k st, nth k results UB = Ok st /\ In p (added st)) <->
       nth_error hashes (Z.to_nat p) = Some (sha (readAt (bytes_of disk) (p * pieceSize t) (size_of_piece (pieceSize t) (fullSize t) p)))).
Proof.
  intros sha t disk hashes workers H M HH A W. destruct (parsed_ok t H) as (P & S & F & F0 & N & NE).
  set (wanted := repeat true (Z.to_nat (pieces_of t))).
  assert (PN : pieces_of t = fullSize t / pieceSize t + 1) by (apply pieces_count; assumption || lia).
  assert (D0 : 0 <= fullSize t / pieceSize t) by (apply Z.div_pos; lia).
  assert (LW : zlen wanted = pieces_of t) by (unfold wanted, zlen; rewrite repeat_length; lia).
  assert (LD : length disk = length (files t)) by (clear - A; induction A; cbn [length]; congruence).
  assert (WT : forall p, 0 <= p < pieces_of t -> nth_error wanted (Z.to_nat p) = Some true).
  { intros p Hp. unfold wanted. rewrite nth_error_repeat; [reflexivity|lia]. }
  set (run := fun k => checkStoredPieces sha (pieceSize t) hashes workers (Z.of_nat k) wanted (files t) disk).
  exists (map run (seq 0 (Z.to_nat workers))). split; [now rewrite map_length, seq_length|].
  assert (NTH : forall k, (k < Z.to_nat workers)%nat -> nth k (map run (seq 0 (Z.to_nat workers))) UB = run k).
  { intros k Hk. rewrite nth_indep with (d' := run 0%nat) by (now rewrite map_length, seq_length). rewrite map_nth, seq_nth by assumption. reflexivity. }
  split; [intros k Hk; now rewrite NTH|]. intros p Hp.
  assert (AK : all_keep (pieceSize t) (files t) disk p).
  { clear - A. induction A as [|f d fs disk (c & -> & L) _ IH]; [exact I|]. cbn [all_keep]. split; [|exact IH]. intros _. split; [|intros _ _; eauto]. exists c. split; [reflexivity|]. now left. }
  assert (EX : forall k, (k < Z.to_nat workers)%nat -> exists st, run k = Ok st /\ (In p (added st) <-> p mod workers = Z.of_nat k /\
      nth_error hashes (Z.to_nat p) = Some (sha (piece_data (pieceSize t) (files t) disk p)))).
  { intros k Hk. destruct (C90_exact_partial sha t disk hashes workers (Z.of_nat k) wanted H M HH LW LD) as (st & R1 & _ & _ & R2).
    exists st. split; [exact R1|]. rewrite (R2 p Hp AK); [pose proof (WT p Hp); tauto|]. intros f Hf Hi. left. apply WT. pose proof (start_positive _ _ _ _ S Hf). lia. }
  assert (DATA : piece_data (pieceSize t) (files t) disk p = readAt (bytes_of disk) (p * pieceSize t) (size_of_piece (pieceSize t) (fullSize t) p)).
  { assert (0 <= p * pieceSize t) by (apply Z.mul_nonneg_nonneg; lia). rewrite (data_allocated (pieceSize t) p ltac:(lia) (files t) 0 disk S A ltac:(lia)). rewrite <- F, !Z.add_0_l, Z.sub_0_r. unfold size_of_piece.
    assert (p * pieceSize t <= fullSize t / pieceSize t * pieceSize t) by (apply Z.mul_le_mono_nonneg_r; lia).
    pose proof (Z.div_mod (fullSize t) (pieceSize t) ltac:(lia)) as DM. pose proof (Z.mod_pos_bound (fullSize t) (pieceSize t) ltac:(lia)).
    f_equal; lia. }
  rewrite <- DATA. pose proof (Z.mod_pos_bound p workers W) as MB. split.
  - intros (k & st & R & I). assert (Hk : (k < Z.to_nat workers)%nat).
    { destruct (Nat.lt_ge_cases k (Z.to_nat workers)); [assumption|]. rewrite nth_overflow in R by (rewrite map_length, seq_length; assumption). discriminate. }
    rewrite NTH in R by assumption. destruct (EX k Hk) as (st' & R' & E). rewrite R in R'. inversion R'; subst st'. tauto.
  - intros E. destruct (EX (Z.to_nat (p mod workers))) as (st & R & E2); [lia|]. exists (Z.to_nat (p mod workers)), st. rewrite NTH by lia. split; [exact R|].
    apply E2. split; [lia|assumption].
Qed.
Print Assumptions C90_all_partial.

(** Finding: when the last piece is full, the check of whole files looks behind the end of the wanted pieces, in the worker whose
    turn it would be (Storage.cpp:432 after 430). *)
Theorem C90_full_last_refuted : forall sha ps n c hashes workers, 1 < ps < 2147483648 -> 0 < n < 4294967295 -> zlen c = n * ps -> zlen hashes = n -> 0 < workers ->
  n * ps < 9223372036854775808 ->
  exists t, parseSingleFile ps (n * ps) n = Ok t /\
    checkStoredPieces sha ps hashes workers (n mod workers) (repeat true (Z.to_nat n)) (files t) [Some c] = UB.
Proof.
  intros sha ps n c hashes workers P N L HH W B. unfold parseSingleFile. destruct (Z.eqb_spec ps 0); [lia|]. eexists. split; [reflexivity|].
  cbn [makeInfo files]. set (f := singleFile ps (n * ps) n).
  assert (F1 : fsize f = n * ps /\ startPiece f = 0 /\ startPos f = 0 /\ endPiece f = n - 1 /\ endPos f = ps).
  { unfold f, singleFile. cbn [fsize startPiece startPos endPiece endPos]. rewrite Z.mod_mul by lia. cbn [Z.eqb negb]. rewrite !u32_id by lia. auto. }
  destruct F1 as (F1 & F2 & F3 & F4 & F5).
  set (wanted := repeat true (Z.to_nat n)). assert (LW : zlen wanted = n) by (unfold wanted, zlen; rewrite repeat_length; lia).
  assert (DV : (n * ps - 1) / ps = n - 1) by (symmetry; apply (Z.div_unique _ ps _ (ps - 1)); lia).
  assert (P' : 0 < ps < 2147483648) by lia.
  assert (MD : (n * ps - 1) mod ps <> 0) by (replace (n * ps - 1) with (ps - 1 + (n - 1) * ps) by lia; rewrite Z.mod_add, Z.mod_small; lia).
  assert (WW : zlen wanted = (n * ps - 1) / ps + 1) by lia. assert (HW : zlen hashes = (n * ps - 1) / ps + 1) by lia.
  assert (NB : mine workers (n mod workers) wanted n = UB).
  { unfold mine. rewrite Z.eqb_refl. unfold element. destruct (Z.ltb_spec n 0); [lia|].
    destruct (nth_error wanted (Z.to_nat n)) eqn:E; [|reflexivity]. exfalso. assert (X : nth_error wanted (Z.to_nat n) <> None) by congruence. apply nth_error_Some in X. unfold zlen in LW. lia. }
  assert (LOOP : forall fuel q s st, fuel = Z.to_nat (n - q) -> 0 <= q < n -> cur st = q -> good s = true -> pos s = (q + 1) * ps -> zlen (buffer st) = ps ->
    wholePieces sha ps hashes workers (n mod workers) wanted fuel f c s st = UB).
  { induction fuel as [|fuel IH]; intros q s st Hf Hq Hc G Hp Hb; [lia|]. cbn [wholePieces]. rewrite G, Hp, F1, F4, Hc.
    assert ((q + 1) * ps <= n * ps) by (apply Z.mul_le_mono_nonneg_r; lia). assert (0 <= (q + 1) * ps) by (apply Z.mul_nonneg_nonneg; lia).
    destruct (Z.leb_spec ((q + 1) * ps) (n * ps)); [|lia]. destruct (Z.leb_spec q (n - 1)); [|lia]. cbn [andb].
    destruct (mine_ok ps workers (n mod workers) wanted (n * ps - 1) P' MD WW q) as (m & M1 & _); [lia|].
    rewrite M1. cbn [bind].
    assert (V : exists st1, (if m then verify sha hashes q ps st else Ok st) = Ok st1 /\ buffer st1 = buffer st /\ cur st1 = q).
    { destruct m; [|eauto]. destruct (verify_ok sha ps hashes (n * ps - 1) P' MD HW q ps st) as (st1 & V1 & V2 & V3 & _); [lia|lia|].
      exists st1. split; [assumption|]. split; congruence. }
    destruct V as (st1 & V1 & V2 & V3). rewrite V1. cbn [bind]. cbv zeta. rewrite V3, u32_id by lia.
    destruct (Z.eq_dec (q + 1) n) as [E|E].
    { unfold readPiece. cbn [goTo cur]. rewrite E, NB. reflexivity. }
    assert ((q + 2) * ps <= n * ps) by (apply Z.mul_le_mono_nonneg_r; lia).
    destruct (readPiece_ok sha ps workers (n mod workers) wanted (n * ps - 1) P' MD WW c 0 ps s (goTo (q + 1) st1))
      as (s2 & st2 & R1 & R2 & R3 & R4 & R5 & R6 & R7 & _); cbn [goTo cur buffer] in *; rewrite ?V2; try lia; try assumption.
    rewrite R1. cbn [bind]. specialize (R7 ltac:(lia)). rewrite R7 in R6. apply (IH (q + 1)); try lia; try assumption. congruence. }
  unfold checkStoredPieces. cbn [checkFrom cur]. rewrite HH. destruct (Z.ltb_spec 0 n); [|lia].
  set (st0 := {| cur := 0; buffer := repeat 0 (Z.to_nat ps); added := []; checked := 0 |}).
  assert (B0 : zlen (buffer st0) = ps) by (cbn [st0 buffer]; unfold zlen; rewrite repeat_length; lia).
  unfold checkFile. rewrite F2. destruct (element_ok wanted 0) as (a & A1 & A2); [lia|]. rewrite A1. cbn [bind].
  assert (AT : a = true). { unfold wanted in A2. rewrite nth_error_repeat in A2 by lia. congruence. } subst a. cbn [bind]. rewrite F1, L, Z.eqb_refl.
  unfold checkWhole. rewrite F3, F4. cbv zeta. rewrite Z.sub_0_r, (u32_id ps) by lia.
  assert (1 * ps <= n * ps) by (apply Z.mul_le_mono_nonneg_r; lia).
  destruct (readPiece_ok sha ps workers (n mod workers) wanted (n * ps - 1) P' MD WW c 0 ps {| good := true; pos := 0 |} st0)
    as (s1 & st1 & R1 & R2 & R3 & R4 & R5 & R6 & R7 & _); cbn [good pos] in *; try lia; try reflexivity.
  { cbn [st0 cur]. lia. }
  rewrite R1. cbn [bind]. specialize (R7 ltac:(lia)). rewrite R7 in R6. cbn [st0 cur] in R2.
  rewrite (LOOP _ 0 s1 st1); try lia; try assumption; try reflexivity.
Qed.
Print Assumptions C90_full_last_refuted.

(** Finding: what the buffer still holds, zeros at first, stands for a missing file: here the first file is not on the disk, and
    the piece counts as received since its bytes are zeros. *)
Theorem C90_stale_refuted : forall sha ps a c, 0 < a -> 0 < zlen c -> a + zlen c < ps -> ps < 2147483648 ->
  exists t st, parseMultiFile ps [a; zlen c] = Ok t /\
    checkStoredPieces sha ps [sha (repeat 0 (Z.to_nat a) ++ c)] 4 0 [true] (files t) [None; Some c] = Ok st /\ In 0 (added st).
Proof.
  intros sha ps a c A C S P.
  assert (FIT : sizes_fit ps [a; zlen c]).
  { unfold sizes_fit. split; [lia|]. split; [repeat constructor; lia|]. cbn [total fold_right]. split; [lia|]. rewrite Z.div_small by lia. lia. }
  destruct (multi ps _ FIT) as (t & T1 & _ & _ & T4 & T5 & T6 & T7). exists t.
  assert (PT : parsed t) by (apply (files_parsed ps [a; zlen c]); try assumption; try lia; discriminate).
  destruct (parsed_ok t PT) as (_ & SIT & FF & _). rewrite T5 in SIT.
  destruct (files t) as [|f [|g [|h l]]] eqn:EF; try discriminate. cbn [all_situated] in SIT. destruct SIT as (S1 & S2 & _).
  destruct (T7 0%nat) as (G1 & _); [cbn; lia|]. destruct (T7 1%nat) as (G2 & _); [cbn; lia|]. cbn [nth] in G1, G2.
  pose proof S1 as (X1 & X2 & X3 & X4 & X5 & X6 & _). pose proof S2 as (Y1 & Y2 & Y3 & Y4 & Y5 & Y6 & _).
  assert (Z0 : forall q, 0 <= q -> q * ps < ps -> q = 0).
  { intros q Q1 Q2. destruct (Z.eq_dec q 0); [assumption|]. assert (1 * ps <= q * ps) by (apply Z.mul_le_mono_nonneg_r; lia). lia. }
  assert (E1 : startPiece f = 0) by (apply Z0; lia). assert (E2 : endPiece f = 0) by (apply Z0; [lia|]; specialize (X6 ltac:(lia)); lia).
  assert (E3 : startPiece g = 0) by (apply Z0; lia). assert (E4 : endPiece g = 0) by (apply Z0; [lia|]; specialize (Y6 ltac:(lia)); lia).
  set (st0 := {| cur := 0; buffer := repeat 0 (Z.to_nat ps); added := []; checked := 0 |}).
  assert (B0 : zlen (buffer st0) = ps) by (cbn [st0 buffer]; unfold zlen; rewrite repeat_length; lia).
  assert (DV : (a + zlen c) / ps = 0) by (apply Z.div_small; lia).
  assert (MD : (a + zlen c) mod ps <> 0) by (rewrite Z.mod_small; lia).
  set (h := sha (repeat 0 (Z.to_nat a) ++ c)).
  destruct (checkFile_ok sha ps [h] 4 0 [true] (a + zlen c)) with (f := g) (o := a) (isLast := true) (d := Some c) (st := st0) as (st & I1 & I2 & I3 & I4 & I5 & I6 & I7);
    try assumption; try lia; try (rewrite DV; reflexivity).
  { replace (0 + fsize f) with a in S2 by lia. exact S2. }
  { cbn [st0 cur]. congruence. }
  exists st. split; [exact T1|]. split.
  - unfold checkStoredPieces. fold st0. cbn [checkFrom]. change (cur st0 <? zlen [h]) with true. cbv iota.
    assert (CF : checkFile sha ps [h] 4 0 [true] false f None st0 = Ok (goTo 0 st0)).
    { unfold checkFile. rewrite E1, E2. reflexivity. }
    rewrite CF. cbn [bind checkFrom]. rewrite E3. change {| cur := 0; buffer := buffer (goTo 0 st0); added := added (goTo 0 st0); checked := checked (goTo 0 st0) |} with st0.
    change (cur st0 <? zlen [h]) with true. cbv iota. rewrite I1. reflexivity.
  - assert (LK : looked 4 0 [true] 0) by (split; reflexivity).
    assert (TC : touches g 0) by (unfold touches; lia).
    assert (KP : keeps ps g (Some c) 0) by (exists c; split; [reflexivity|left; lia]).
    specialize (I7 0 LK TC KP (fun _ _ => ex_intro _ c (conj eq_refl (eq_sym G2))) ltac:(intros; lia)). cbv zeta in I7. rewrite orb_true_r in I7.
    apply I7. right. unfold right. change (nth_error [h] (Z.to_nat 0)) with (Some h). f_equal. unfold h. f_equal.
    rewrite Z.mul_0_l, Z.sub_0_r, Z.max_r by lia. cbn [st0 buffer]. f_equal.
    + replace (Z.to_nat ps) with (Z.to_nat a + Z.to_nat (ps - a))%nat by qlia. rewrite repeat_app. pose proof (firstn_app_exact (repeat 0 (Z.to_nat a)) (repeat 0 (Z.to_nat (ps - a)))) as FA. rewrite repeat_length in FA. exact (eq_sym FA).
    + unfold part, first_byte. rewrite G2, Z.eqb_refl, Y1. replace (0 + fsize f) with a by lia. rewrite Z.max_l, Z.max_l by lia. rewrite Z.min_l by lia.
      replace (a + zlen c - a) with (zlen c) by lia. unfold readAt, slice, zlen. cbn [Z.to_nat skipn]. rewrite Nat2Z.id. symmetry. apply firstn_all.
Qed.
Print Assumptions C90_stale_refuted.

(** Finding: the last piece is not looked at when an empty last file is not on the disk, as is the case if it is not selected:
    all its bytes are there and right. *)
Theorem C90_empty_last_refuted : forall sha ps c, 0 < zlen c < ps -> ps < 2147483648 ->
  exists t st, parseMultiFile ps [zlen c; 0] = Ok t /\
    checkStoredPieces sha ps [sha c] 4 0 [true] (files t) [Some c; None] = Ok st /\ added st = [] /\ piece_data ps (files t) [Some c; None] 0 = c.
Proof.
  intros sha ps c C P.
  assert (FIT : sizes_fit ps [zlen c; 0]).
  { unfold sizes_fit. split; [lia|]. split; [repeat constructor; lia|]. cbn [total fold_right]. rewrite !Z.add_0_r. split; [lia|]. rewrite Z.div_small by lia. lia. }
  destruct (multi ps _ FIT) as (t & T1 & _ & _ & T4 & T5 & T6 & T7). exists t.
  assert (PT : parsed t) by (apply (files_parsed ps [zlen c; 0]); try assumption; try lia; discriminate).
  destruct (parsed_ok t PT) as (_ & SIT & FF & _). rewrite T5 in SIT.
  destruct (files t) as [|f [|g [|h l]]] eqn:EF; try discriminate. cbn [all_situated] in SIT. destruct SIT as (S1 & S2 & _).
  destruct (T7 0%nat) as (G1 & _); [cbn; lia|]. destruct (T7 1%nat) as (G2 & _); [cbn; lia|]. cbn [nth] in G1, G2.
  pose proof S1 as (X1 & X2 & X3 & X4 & X5 & X6 & _). pose proof S2 as (Y1 & Y2 & Y3 & Y4 & Y5 & Y6 & _).
  assert (Z0 : forall q, 0 <= q -> q * ps < ps -> q = 0).
  { intros q Q1 Q2. destruct (Z.eq_dec q 0); [assumption|]. assert (1 * ps <= q * ps) by (apply Z.mul_le_mono_nonneg_r; lia). lia. }
  assert (E1 : startPiece f = 0) by (apply Z0; lia). assert (E2 : endPiece f = 0) by (apply Z0; [lia|]; specialize (X6 ltac:(lia)); lia).
  assert (E3 : startPiece g = 0) by (apply Z0; lia). assert (E4 : endPiece g = 0) by (rewrite Y5; assumption).
  set (st0 := {| cur := 0; buffer := repeat 0 (Z.to_nat ps); added := []; checked := 0 |}).
  assert (B0 : zlen (buffer st0) = ps) by (cbn [st0 buffer]; unfold zlen; rewrite repeat_length; lia).
  assert (DV : zlen c / ps = 0) by (apply Z.div_small; lia).
  assert (MD : zlen c mod ps <> 0) by (rewrite Z.mod_small; lia).
  destruct (checkFile_ok sha ps [sha c] 4 0 [true] (zlen c)) with (f := f) (o := 0) (isLast := false) (d := Some c) (st := st0) as (st & I1 & I2 & I3 & I4 & I5 & I6 & I7);
    try assumption; try lia; try (rewrite DV; reflexivity).
  { cbn [st0 cur]. congruence. }
  assert (LK : looked 4 0 [true] 0) by (split; reflexivity).
  assert (TC : touches f 0) by (unfold touches; lia).
  assert (KP : keeps ps f (Some c) 0) by (exists c; split; [reflexivity|left; lia]).
  specialize (I7 0 LK TC KP ltac:(discriminate) ltac:(intros; lia)). cbv zeta in I7. rewrite orb_false_r in I7.
  destruct (Z.leb_spec ((0 + 1) * ps) (0 + fsize f)); [lia|]. destruct I7 as [I7 _].
  assert (AD : added st = []).
  { destruct (added st) as [|q l] eqn:E; [reflexivity|]. exfalso. destruct (I6 q (or_introl eq_refl)) as [[]|(TQ & _)].
    assert (q = 0) by (unfold touches in TQ; lia). subst q. apply I7. now left. }
  exists {| cur := 1; buffer := buffer st; added := added st; checked := Z.max (checked st) 1 |}.
  split; [exact T1|]. split; [|split; [exact AD|]].
  - unfold checkStoredPieces. fold st0. cbn [checkFrom]. change (cur st0 <? zlen [sha c]) with true. cbv iota. rewrite I1. cbn [bind checkFrom cur]. rewrite E3.
    change (0 <? zlen [sha c]) with true. cbv iota. unfold checkFile. rewrite E3, E4. change (element [true] 0) with (Ok true). cbn [bind].
    cbn [cur]. change (0 <? 0) with false. change (u32 (0 + 1)) with 1. reflexivity.
  - cbn [piece_data]. rewrite E1, E2, E3, E4. change ((0 <=? 0) && (0 <=? 0)) with true. cbv iota. change (part ps g None 0) with (@nil Z). cbn [app]. rewrite app_nil_r.
    unfold part, first_byte. rewrite G1, Z.eqb_refl, X1. rewrite Z.mul_0_l, Z.max_l, Z.max_l, Z.min_l by lia.
    replace (0 + zlen c - 0) with (zlen c) by lia. unfold readAt, slice, zlen. cbn [Z.to_nat skipn]. rewrite Nat2Z.id. apply firstn_all.
Qed.
Print Assumptions C90_empty_last_refuted.

(** Three files of 5, 20 and 6 bytes in pieces of 8; the second is a temporary file of 3 and 1 bytes, whose first part is right. *)
Definition sampleT : torrentInfo := match parseMultiFile 8 [5; 20; 6] with Ok t => t | UB => makeInfo 0 0 [] end.
Definition sampleDisk : list (option (list Z)) := [Some [1; 2; 3; 4; 5]; Some [6; 7; 8; 9]; Some [11; 12; 13; 14; 15; 16]].
Definition sampleHashes : list (list Z) := [[1; 2; 3; 4; 5; 6; 7; 8]; []; []; [9; 11; 12; 13; 14; 15; 16]].

Example C90_example : parsed sampleT /\ fullSize sampleT mod pieceSize sampleT <> 0 /\ zlen sampleHashes = pieces_of sampleT /\
  all_keep (pieceSize sampleT) (files sampleT) sampleDisk 0 /\ all_keep (pieceSize sampleT) (files sampleT) sampleDisk 3 /\
  match checkStoredPieces (fun d => d) 8 sampleHashes 1 0 [true; true; true; true] (files sampleT) sampleDisk with
  | Ok st => added st = [3; 0] /\ checked st = 4
  | UB => False
  end.
Proof.
  split; [|split; [|split; [|split; [|split]]]].
  - apply (files_parsed 8 [5; 20; 6]); [|lia|discriminate|reflexivity]. unfold sizes_fit. split; [lia|]. split; [repeat constructor; lia|]. split; reflexivity.
  - vm_compute. discriminate.
  - reflexivity.
  - split; [|split; [|split; [|exact I]]].
    + intros _. split; [|discriminate]. exists [1; 2; 3; 4; 5]. split; [reflexivity|]. left. reflexivity.
    + intros _. split; [|discriminate]. exists [6; 7; 8; 9]. split; [reflexivity|]. right. vm_compute. split; [reflexivity|]. split; [discriminate|].
      left. split; [reflexivity|]. split; discriminate.
    + intros (Q1 & _). vm_compute in Q1. exfalso. now apply Q1.
  - split; [|split; [|split; [|exact I]]].
    + intros (_ & Q2). vm_compute in Q2. exfalso. now apply Q2.
    + intros _. split; [|discriminate]. exists [6; 7; 8; 9]. split; [reflexivity|]. right. vm_compute. split; [reflexivity|]. split; [discriminate|].
      right. split; [reflexivity|]. split; [reflexivity|]. split; reflexivity.
    + intros _. split; [|intros _ _; exists [11; 12; 13; 14; 15; 16]; split; reflexivity]. exists [11; 12; 13; 14; 15; 16]. split; [reflexivity|]. left. reflexivity.
  - vm_compute. split; reflexivity.
Qed.
