(** C22: which pieces the selected files need. *)
From Verif Require Import Base BaseLemmas LayoutModel LayoutSpec LayoutProofs LayoutProps ProgressModel ProgressSpec ProgressProofs ProgressProofs2 SelectModel SelectProofs.

(** From a new torrent, after any sequence of selections of single or all files (also with invalid
    indices) a piece is chosen exactly when it has a byte of a selected file, and what is received
    stays so. Missing: torrents in which three files share a piece (see
    [C22_three_files_refuted]) and empty files, which are treated as if they had a byte. *)
Theorem C22_partial : forall ps sizes os, sizes_fit ps sizes -> Forall (fun s => 0 < s) sizes ->
  (forall i j k p, (i < j < k)%nat -> (k < length sizes)%nat -> has_byte_in ps (offset sizes i) (nth i sizes 0) p ->
     has_byte_in ps (offset sizes j) (nth j sizes 0) p -> has_byte_in ps (offset sizes k) (nth k sizes 0) p -> False) ->
  exists t sp, parseMultiFile ps sizes = Ok t /\
    run_selections (files t) os (initialize (files t) (pieces_of ps (total sizes))) = Ok sp /\
    fst sp = fold_left (meant (length sizes)) os (repeat true (length sizes)) /\
    exact (snd sp) /\ zlen (pieces (snd sp)) = pieces_of ps (total sizes) /\
    forall p, 0 <= p < pieces_of ps (total sizes) ->
      is_chosen (snd sp) p = true <->
      exists k, (k < length sizes)%nat /\ nth k (fst sp) false = true /\ has_byte_in ps (offset sizes k) (nth k sizes 0) p.
Proof.
  intros ps sizes os H POS SH. destruct (C16_pieces_of_files ps sizes H) as (t & T1 & T2 & T3 & T4). exists t.
  pose proof (parsed_ordered ps sizes t H T1) as O.
  assert (P : forall k p, (k < length sizes)%nat -> contains (nth k (files t) noFile) p <-> has_byte_in ps (offset sizes k) (nth k sizes 0) p).
  { intros k p Hk. destruct (T4 k Hk) as (_ & _ & _ & X). apply X. rewrite Forall_forall in POS. apply POS. now apply nth_In. }
  assert (T : no_triple (files t)).
  { intros k Hk. rewrite T3 in Hk. destruct (Z_lt_le_dec (endPiece (nth k (files t) noFile)) (startPiece (nth (S (S k)) (files t) noFile))) as [|Q]; [assumption|exfalso].
    assert (A1 : endPiece (nth k (files t) noFile) <= startPiece (nth (S k) (files t) noFile)) by (apply O; lia).
    assert (A2 : endPiece (nth (S k) (files t) noFile) <= startPiece (nth (S (S k)) (files t) noFile)) by (apply O; lia).
    destruct (ordered_range (files t) k O) as [R1 _]; [lia|]. destruct (ordered_range (files t) (S k) O) as [R2 _]; [lia|]. destruct (ordered_range (files t) (S (S k)) O) as [R3 _]; [lia|].
    apply (SH k (S k) (S (S k)) (endPiece (nth k (files t) noFile))); try lia; apply P; unfold contains; lia. }
  assert (N : 0 <= pieces_of ps (total sizes) < 4294967296).
  { destruct H as (H1 & H2 & H3 & H4). pose proof (total_nonneg sizes H2). unfold pieces_of. split; [apply Z.div_pos; lia|].
    assert ((total sizes + ps - 1) / ps < total sizes / ps + 2); [|lia]. apply Z.div_lt_upper_bound; [lia|]. pose proof (Z.div_mod (total sizes) ps ltac:(lia)). pose proof (Z.mod_pos_bound (total sizes) ps ltac:(lia)). lia. }
  assert (PC : forall p, 0 <= p < pieces_of ps (total sizes) <-> exists b, 0 <= b < total sizes /\ b / ps = p).
  { intros p. destruct H as (H1 & H2 & H3 & H4). unfold pieces_of. split.
    - intros [Q1 Q2]. exists (p * ps). split; [|apply Z.div_mul; lia]. split; [apply Z.mul_nonneg_nonneg; lia|].
      assert (p * ps < total sizes); [|assumption]. pose proof (Z.div_mod (total sizes + ps - 1) ps ltac:(lia)). pose proof (Z.mod_pos_bound (total sizes + ps - 1) ps ltac:(lia)).
      assert ((p + 1) * ps <= ((total sizes + ps - 1) / ps) * ps) by (apply Z.mul_le_mono_nonneg_r; lia). rewrite Z.mul_add_distr_r in *. lia.
    - intros (b & B1 & <-). split; [apply Z.div_pos; lia|]. apply Z.div_lt_upper_bound; [lia|]. pose proof (Z.div_mod (total sizes + ps - 1) ps ltac:(lia)). pose proof (Z.mod_pos_bound (total sizes + ps - 1) ps ltac:(lia)). lia. }
  assert (INR : forall k p, (k < length sizes)%nat -> has_byte_in ps (offset sizes k) (nth k sizes 0) p -> 0 <= p < pieces_of ps (total sizes)).
  { intros k p Hk (b & B1 & B2). apply PC. exists b. split; [|assumption]. clear -B1 Hk POS. unfold offset in *.
    assert (G : forall sizes k, (k < length sizes)%nat -> Forall (fun s => 0 < s) sizes -> 0 <= total (firstn k sizes) /\ total (firstn k sizes) + nth k sizes 0 <= total sizes).
    { clear. induction sizes as [|s l IH]; intros k Hk F; cbn [length] in Hk; [lia|]. inversion F; subst.
      assert (0 <= total l) by (apply total_nonneg; eapply Forall_impl; [|exact H2]; cbn; intros; lia).
      destruct k as [|k]; cbn [nth]; [cbn [firstn]; rewrite total_cons; cbn; lia|]. rewrite firstn_cons, !total_cons. destruct (IH k ltac:(lia) H2). lia. }
    destruct (G sizes k Hk POS). lia. }
  destruct (initialize_ok (files t) (pieces_of ps (total sizes)) N) as [I1 I2].
  { apply Forall_nth. intros k d Hk. rewrite T3 in Hk. rewrite (nth_indep _ d noFile) by lia. destruct (ordered_range (files t) k O) as [R1 _]; [lia|].
    eapply (INR k _ Hk). apply P; [assumption|]. unfold contains. lia. }
  { intros p Hp. apply PC in Hp. destruct Hp as (b & B1 & B2). destruct (one_file sizes (proj1 (proj2 H)) b B1) as (k & K1 & K2 & _). exists k. split; [lia|]. apply P; [assumption|]. exists b. auto. }
  destruct (run_selections_ok (files t) O T os _ ltac:(rewrite I2; lia) I1) as (sp & S1 & S2 & S3 & S4 & _). exists sp. split; [assumption|]. split; [assumption|].
  rewrite I2 in S4. split; [rewrite S3, T3; unfold initialize; cbn [fst]; now rewrite T3|]. destruct S2 as (Q1 & Q2 & Q3 & Q4 & Q5). split; [assumption|]. split; [assumption|].
  intros p Hp. rewrite Q5 by lia. unfold wanted. rewrite T3. split; intros (k & K1 & K2 & K3); exists k; split; try assumption; split; try assumption; now apply P.
Qed.
Print Assumptions C22_partial.

Example C22_meets : sizes_fit 4 [3; 6; 5] /\ Forall (fun s => 0 < s) [3; 6; 5] /\
  (forall i j k p, (i < j < k)%nat -> (k < 3)%nat -> has_byte_in 4 (offset [3; 6; 5] i) (nth i [3; 6; 5] 0) p ->
     has_byte_in 4 (offset [3; 6; 5] j) (nth j [3; 6; 5] 0) p -> has_byte_in 4 (offset [3; 6; 5] k) (nth k [3; 6; 5] 0) p -> False).
Proof.
  split; [vm_compute; intuition (try congruence); repeat constructor; discriminate|]. split; [repeat constructor; lia|].
  intros i j k p H1 H2 (b1 & B1 & E1) (b2 & B2 & E2) (b3 & B3 & E3). assert (i = 0 /\ j = 1 /\ k = 2)%nat as (-> & -> & ->) by lia.
  unfold offset in *. cbn in *. lia.
Qed.

(** Finding: with three files in a piece, deselecting the first while the second is not selected
    deselects the piece although the third still needs it. *)
Theorem C22_three_files_refuted : forall fs p, ordered fs -> (2 < length fs)%nat -> flags_ok p -> exact p ->
  Forall (fun f => endPiece f < zlen (pieces p)) fs ->
  startPiece (nth 1 fs noFile) = endPiece (nth 0 fs noFile) -> startPiece (nth 2 fs noFile) = endPiece (nth 0 fs noFile) ->
  forall sel, length sel = length fs -> nth 0 sel false = true -> nth 1 sel false = false -> nth 2 sel false = true ->
  exists q, selectFile fs 0 false (sel, p) = Ok (Some (upd 0 false sel, q)) /\
    wanted fs (upd 0 false sel) (endPiece (nth 0 fs noFile)) /\ is_chosen q (endPiece (nth 0 fs noFile)) = false.
Proof.
  intros fs p O L F E B H1 H2 sel LS S0 S1 S2. unfold selectFile. destruct (Nat.leb_spec (length fs) 0); [lia|].
  unfold selectOneFile. rewrite (nth_error_nth' sel false) by lia. rewrite S0. cbn [Bool.eqb keepStart].
  destruct (Nat.ltb_spec (0 + 1) (length fs)); [|lia]. cbn [andb plus keepEnd]. rewrite H1, Z.eqb_refl.
  rewrite (nth_upd_other 1 0) by lia. rewrite S1. rewrite (nth_upd_same 0) by lia.
  destruct (ordered_range fs 0 O) as [R1 R2]; [lia|].
  assert (Be : endPiece (nth 0 fs noFile) < zlen (pieces p)) by (rewrite Forall_forall in B; apply B; apply nth_In; lia).
  assert (X : (if startPiece (nth 0 fs noFile) =? endPiece (nth 0 fs noFile) then false else false) = false) by (destruct (startPiece (nth 0 fs noFile) =? endPiece (nth 0 fs noFile)); reflexivity). rewrite X.
  destruct (select_ok p (startPiece (nth 0 fs noFile)) (endPiece (nth 0 fs noFile)) false F E) as (q & Q1 & Q2 & Q3 & Q4 & Q5); [lia|lia|].
  rewrite Q1. cbn [bind]. exists q. split; [reflexivity|]. split.
  - exists 2%nat. split; [lia|]. split; [rewrite nth_upd_other by lia; assumption|]. unfold contains. destruct (ordered_range fs 2 O) as [R3 _]; [lia|]. lia.
  - destruct (Q5 (endPiece (nth 0 fs noFile))) as [_ C]; [lia|]. unfold is_chosen. rewrite C.
    destruct (Z.leb_spec (startPiece (nth 0 fs noFile)) (endPiece (nth 0 fs noFile))); [|lia]. rewrite Z.leb_refl. cbn [andb]. apply andb_false_r.
Qed.
Print Assumptions C22_three_files_refuted.

Example C22_three_files_meets : exists t sp, parseMultiFile 16 [3; 6; 5] = Ok t /\ ordered (files t) /\
  startPiece (nth 1 (files t) noFile) = endPiece (nth 0 (files t) noFile) /\ startPiece (nth 2 (files t) noFile) = endPiece (nth 0 (files t) noFile) /\
  selectFiles (files t) [true; false; true] (initialize (files t) 1) = Ok (Some sp) /\ fst sp = [true; false; true] /\
  is_chosen (snd sp) 0 = true.
Proof.
  eexists; eexists. split; [reflexivity|]. split; [apply (parsed_ordered 16 [3; 6; 5]); [vm_compute; intuition (try congruence); repeat constructor; discriminate|reflexivity]|].
  split; [reflexivity|]. split; [reflexivity|]. split; [reflexivity|]. split; reflexivity.
Qed.
