(** C91: room for the wanted pieces. *)
From Verif Require Import Base BaseLemmas LayoutModel LayoutSpec LayoutProofs LayoutProps StorageModel StorageSpec StorageProofs StorageProps
  CheckModel CheckSpec CheckProofs CheckProps RoomModel RoomSpec RoomProofs.

Lemma parsed_total t : parsed t -> total (map fsize (files t)) < 9223372036854775808.
Proof.
  intros H. destruct (parsed_ok t H) as (_ & _ & F & _). rewrite <- F. clear F. destruct H as [ps size t' H1 H2 H3 H4|ps sizes t' H1 H2 H3 H4].
  - unfold parseSingleFile in H4. destruct (ps =? 0); [discriminate|]. inversion H4. cbn [makeInfo fullSize]. lia.
  - destruct (multi ps sizes H1) as (t1 & T1 & T2 & T3 & T4 & T5 & T6 & T7). rewrite T1 in H4. inversion H4; subst t'. rewrite T4. destruct H1 as (_ & _ & H1 & _). exact H1.
Qed.

(** The files to make room for are the selected ones, with their whole size, and those others which have bytes in a piece
    that a selected file reaches, with exactly the number of those bytes; in the order of the files. Missing: torrents with an
    empty file behind a full last piece ([C91_empty_last_refuted]). *)
Theorem C91_demand_partial : forall t n sel, parsed t -> length sel = length (files t) -> zlen (files t) <= 4294967296 ->
  Forall (fun f => endPiece f < n) (files t) ->
  exists l, selectedFiles t n sel = Ok l /\ NoDup (map fst l) /\
    forall i x, In (i, x) l <-> exists k, (k < length (files t))%nat /\ i = Z.of_nat k /\
      x = needed (pieceSize t) (offset (map fsize (files t)) k) (fsize (nth k (files t) noFile)) (wanted_piece (files t) sel) (Z.to_nat n) /\
      (nth k sel false = true /\ x = fsize (nth k (files t) noFile) \/ nth k sel false = false /\ x <> 0).
Proof.
  intros t n sel H L Z F. destruct (parsed_ok t H) as (P & S & _ & _ & _ & NE). pose proof (parsed_total t H) as T.
  assert (N : 0 <= n).
  { destruct (files t) as [|f fs]; [contradiction|]. pose proof (Forall_inv F). destruct S as [(_ & _ & _ & S4 & _) _]. cbv beta in *. lia. }
  eexists. split; [apply selectedFiles_ok; assumption|].
  assert (EX : forall i x, In (i, x) (demands (pieceSize t) (Z.to_nat n) (wanted_piece (files t) sel) 0 0 (files t) sel) <-> exists k, (k < length (files t))%nat /\ i = Z.of_nat k /\
      x = needed (pieceSize t) (offset (map fsize (files t)) k) (fsize (nth k (files t) noFile)) (wanted_piece (files t) sel) (Z.to_nat n) /\
      (nth k sel false = true /\ x = fsize (nth k (files t) noFile) \/ nth k sel false = false /\ x <> 0)).
  { intros i x. rewrite demands_in by assumption. unfold offset. split; intros (k & K & I & X & Y); exists k; rewrite ?Z.add_0_l in *; (split; [assumption|split; [assumption|split; [assumption|]]]); [|intuition].
    pose proof (situated_at _ _ _ k S K) as SK. rewrite Z.add_0_l in SK. destruct (nth k sel false) eqn:E; [left; split; [reflexivity|]|right; intuition discriminate].
    rewrite X. apply needed_selected; try assumption; try lia.
    - apply total_nonneg. apply Forall_forall. intros y Hy. pose proof (sizes_positive _ _ _ S) as F'. rewrite Forall_forall in F'. apply F'. rewrite <- (firstn_skipn k). apply in_or_app. now left.
    - intros p TP. apply wanted_spec. eauto.
    - rewrite Forall_forall in F. pose proof (F _ (nth_In (files t) noFile K)). lia. }
  split; [|exact EX].
  pose proof (demands_nodup (pieceSize t) (Z.to_nat n) (wanted_piece (files t) sel) (files t) sel 0 0 L ltac:(lia)) as ND.
  rewrite <- map_map in ND. now apply NoDup_map_inv in ND.
Qed.
Print Assumptions C91_demand_partial.

(** When the pieces are as many as the sizes say and the last one is not full, every file is within them. *)
Lemma files_within t : parsed t -> fullSize t mod pieceSize t <> 0 -> Forall (fun f => endPiece f < pieces_of t) (files t).
Proof.
  intros H M. destruct (parsed_ok t H) as (P & S & F & F0 & _ & _). rewrite (pieces_count t) by (assumption || lia). apply Forall_forall. intros f Hf. apply (In_nth _ _ noFile) in Hf. destruct Hf as (k & K & <-).
  pose proof (situated_at _ _ _ k S K) as SK. rewrite Z.add_0_l in SK.
  enough (endPiece (nth k (files t) noFile) <= fullSize t / pieceSize t) by lia. eapply end_in; [lia|exact M|exact SK|]. split.
  - apply total_nonneg. apply Forall_forall. intros y Hy. pose proof (sizes_positive _ _ _ S) as F'. rewrite Forall_forall in F'. apply F'. rewrite <- (firstn_skipn k). apply in_or_app. now left.
  - rewrite F. replace (fsize (nth k (files t) noFile)) with (nth k (map fsize (files t)) (fsize noFile)) by apply map_nth. rewrite <- total_firstn_step by (rewrite map_length; lia).
    apply total_firstn_le. eapply sizes_positive; eassumption.
Qed.

(** For one file the same files come out as when only it is selected. *)
Theorem C91_one_partial : forall t n idx, parsed t -> (idx < length (files t))%nat -> zlen (files t) <= 4294967296 ->
  Forall (fun f => endPiece f < n) (files t) ->
  selectedFile t (Z.of_nat idx) = selectedFiles t n (map (fun k => Nat.eqb k idx) (seq 0 (length (files t)))).
Proof.
  intros t n idx H I Z F. destruct (parsed_ok t H) as (P & S & _ & _ & _ & NE). pose proof (parsed_total t H) as T.
  assert (N : 0 <= n).
  { destruct (files t) as [|f fs]; [contradiction|]. pose proof (Forall_inv F). destruct S as [(_ & _ & _ & S4 & _) _]. cbv beta in *. lia. }
  assert (E : map (fun k => Nat.eqb k idx) (seq 0 (length (files t))) = only (Z.of_nat idx) 0 (length (files t))).
  { apply nth_ext with (d := false) (d' := false); rewrite map_length, seq_length; [now rewrite only_length|]. intros k K. rewrite only_nth by assumption.
    rewrite (nth_indep _ false (Nat.eqb 0 idx)) by (rewrite map_length, seq_length; assumption). rewrite map_nth with (f := fun k => Nat.eqb k idx), seq_nth by assumption.
    destruct (Nat.eqb_spec (0 + k) idx), (Z.eqb_spec (0 + Z.of_nat k) (Z.of_nat idx)); try lia; reflexivity. }
  rewrite E, (selectedFile_ok t n idx), selectedFiles_ok; try assumption; try reflexivity. apply only_length.
Qed.
Print Assumptions C91_one_partial.

(** The request succeeds exactly if the free space has room for the bytes which are missing, and for each file that has to grow as
    a whole. Then every file asked for has its size: a whole one exactly its size, a part at least what is needed. The bytes it had
    are kept, behind them are zeroes, and all other files are as before. Missing: a file of which only the first and last piece are
    stored (C53_temporary_refuted). *)
Theorem C91_room_partial : forall t n sel available disk l, parsed t -> length sel = length (files t) -> zlen (files t) <= 4294967296 ->
  Forall (fun f => endPiece f < n) (files t) -> length disk = length (files t) -> 0 <= available -> selectedFiles t n sel = Ok l ->
  exists ok disk', preallocateSelection t available l disk = (ok, disk') /\
    (ok = true <-> lacking disk l <= available /\ forall i x, In (i, x) l -> stored (nth (Z.to_nat i) disk None) < x -> x <= available) /\
    (ok = true -> forall k, (k < length (files t))%nat -> let f := nth k (files t) noFile in let d := nth k disk None in
      (forall x, In (Z.of_nat k, x) l -> ~ (stored d = pieceSize t - startPos f + endPos f /\ stored d < x /\ endPos f <> 0) ->
        exists c, nth k disk' None = Some c /\ zlen c = (if x =? fsize f then x else Z.max (stored d) x) /\
          forall i, 0 <= i < zlen c -> zn c i = match d with Some c0 => zn c0 i | None => 0 end) /\
      ((forall x, ~ In (Z.of_nat k, x) l) -> nth k disk' None = d)).
Proof.
  intros t n sel available disk l H L Z F D A E. destruct (parsed_ok t H) as (P & S & _ & _ & _ & NE). pose proof (parsed_total t H) as T.
  assert (N : 0 <= n).
  { destruct (files t) as [|f fs]; [contradiction|]. pose proof (Forall_inv F). destruct S as [(_ & _ & _ & S4 & _) _]. cbv beta in *. lia. }
  rewrite selectedFiles_ok in E by assumption. injection E as E'.
  destruct (demands_total (pieceSize t) (Z.to_nat n) (wanted_piece (files t) sel) (files t) sel 0 0 ltac:(lia) ltac:(lia) S) as [B1 B2]. rewrite E' in B1, B2.
  pose proof (demands_nodup (pieceSize t) (Z.to_nat n) (wanted_piece (files t) sel) (files t) sel 0 0 L ltac:(lia)) as ND. rewrite E' in ND.
  assert (IN : forall j x, In (j, x) l -> exists k, (k < length (files t))%nat /\ j = Z.of_nat k /\ 0 <= x <= fsize (nth k (files t) noFile)).
  { intros j x Hin. rewrite <- E' in Hin. apply demands_in in Hin; [|assumption]. destruct Hin as (k & K & J & X & _). exists k. split; [assumption|]. split; [lia|]. rewrite X.
    pose proof (situated_at _ _ _ k S K) as (_ & _ & S3 & _). apply needed_le; try lia.
    rewrite Z.add_0_l. apply total_nonneg. apply Forall_forall. intros y Hy. pose proof (sizes_positive _ _ _ S) as F'. rewrite Forall_forall in F'. apply F'. rewrite <- (firstn_skipn k). apply in_or_app. now left. }
  unfold preallocateSelection. rewrite validate_ok by (assumption || lia). cbn [vEnough].
  destruct (allocateFrom_made (pieceSize t) (files t) available l disk ND) as [M1 M2].
  { intros [j x] Hin. destruct (IN j x Hin) as (k & K & -> & _). cbn [fst]. rewrite D. lia. }
  assert (RF : forall d x, 0 <= x -> negb (refused available d x) = true <-> (stored d < x -> x <= available)).
  { intros d x X. unfold refused. destruct d as [c|]; cbn [stored].
    - destruct (Z.ltb_spec (zlen c) x), (Z.ltb_spec available x); cbn [andb negb]; split; intros; try reflexivity; try lia; try discriminate.
    - destruct (Z.ltb_spec available x); cbn [andb negb]; split; intros; try reflexivity; try lia; try discriminate. }
  assert (FB : fst (allocateFrom (pieceSize t) (files t) available l disk) = true <-> forall i x, In (i, x) l -> stored (nth (Z.to_nat i) disk None) < x -> x <= available).
  { rewrite M1, forallb_forall. split.
    - intros Q i x Hin. destruct (IN i x Hin) as (k & _ & _ & X & _). apply (RF (nth (Z.to_nat i) disk None) x X). exact (Q (i, x) Hin).
    - intros Q [i x] Hin. destruct (IN i x Hin) as (k & _ & _ & X & _). cbn [fst snd]. apply RF; [assumption|]. now apply Q. }
  destruct (Z.leb_spec (lacking disk l) available) as [LA|LA].
  - destruct (allocateFrom (pieceSize t) (files t) available l disk) as [ok disk'] eqn:EA. exists ok, disk'. split; [reflexivity|]. cbn [fst snd] in M1, M2, FB. split; [rewrite FB; tauto|].
    intros OK k K. set (f := nth k (files t) noFile). set (d := nth k disk None). split.
    + intros x Hin NT. specialize (M2 OK _ _ Hin). rewrite Nat2Z.id in M2. fold f d in M2. rewrite M2.
      destruct (IN _ _ Hin) as (k' & _ & KK & X). assert (k' = k) by lia. subst k'. fold f in X.
      pose proof (situated_at _ _ _ k S K) as (_ & S2 & _ & _ & _ & _ & S7 & _). fold f in S2, S7. rewrite stored_same in *. apply preallocate_size; try assumption; lia.
    + intros NI. change disk' with (snd (ok, disk')). rewrite <- EA. apply allocateFrom_other. intros [j x] Hin E. destruct (IN j x Hin) as (k' & _ & -> & _). cbn [fst] in E. rewrite Nat2Z.id in E. subst k'. exact (NI x Hin).
  - exists false, disk. split; [reflexivity|]. split; [|discriminate]. split; [discriminate|lia].
Qed.
Print Assumptions C91_room_partial.

(** Finding: a file which is half there is refused although the free space has room for the other half; the whole size is asked for
    again. The validation of the path says that there is enough. *)
Theorem C91_space_refuted : forall ps c size available, 0 < ps < 2147483648 -> 0 < zlen c < size -> size < 9223372036854775808 -> (size + ps - 1) / ps < 4294967295 ->
  size - zlen c <= available < size ->
  exists t l, parseSingleFile ps size ((size + ps - 1) / ps) = Ok t /\ selectedFiles t ((size + ps - 1) / ps) [true] = Ok l /\
    lacking [Some c] l <= available /\ vEnough (validatePath [Some c] available l) = true /\ preallocateSelection t available l [Some c] = (false, [Some c]).
Proof.
  intros ps c size available P C S Q A. set (q := (size + ps - 1) / ps) in *.
  assert (Q1 : 1 <= q) by (apply Z.div_le_lower_bound; lia).
  unfold parseSingleFile. destruct (Z.eqb_spec ps 0); [lia|]. eexists. exists [(0, size)]. split; [reflexivity|].
  assert (LK : lacking [Some c] [(0, size)] = size - zlen c) by (unfold lacking; cbn [map fold_right fst snd]; change (Z.to_nat 0) with 0%nat; cbn [nth stored]; lia).
  assert (VE : validatePath [Some c] available [(0, size)] = {| vEnough := true; vMissing := size - zlen c; vRequired := size |}).
  { rewrite validate_ok; [|constructor; [cbn; lia|constructor]|cbn [map snd total fold_right]; lia]. rewrite LK. f_equal; [apply Z.leb_le; lia|cbn [map snd total fold_right]; lia]. }
  split; [|split; [lia|split; [now rewrite VE|]]].
  - unfold selectedFiles. cbn [makeInfo files pieceSize]. cbn [markFiles chooseFrom bind singleFile endPiece startPiece fsize]. rewrite (u32_id (q - 1)) by lia.
    destruct (markFrom_ok (Z.to_nat (q - 1 + 1 - 0)) 0 (repeat false (Z.to_nat q))) as (l & -> & _); [lia|unfold zlen; rewrite repeat_length; lia|]. reflexivity.
  - unfold preallocateSelection. rewrite VE. cbn [vEnough allocateFrom makeInfo]. change (Z.to_nat 0) with 0%nat. cbn [nth]. unfold refused.
    destruct (Z.ltb_spec (zlen c) size); [|lia]. destruct (Z.ltb_spec available size); [|lia]. reflexivity.
Qed.
Print Assumptions C91_space_refuted.

(** Finding: with an empty file behind a full last piece the pieces are read behind their end, whatever is selected. *)
Theorem C91_empty_last_refuted : forall ps n sel, 0 < ps < 2147483648 -> 0 < n < 4294967295 -> n * ps < 9223372036854775808 -> length sel = 2%nat ->
  exists t, parseMultiFile ps [n * ps; 0] = Ok t /\ pieces_of t = n /\ selectedFiles t n sel = UB.
Proof.
  intros ps n sel P N B L.
  assert (FIT : sizes_fit ps [n * ps; 0]).
  { unfold sizes_fit. split; [lia|]. split; [repeat constructor; lia|]. cbn [total fold_right]. rewrite !Z.add_0_r. split; [lia|]. rewrite Z.div_mul by lia. lia. }
  destruct (multi ps _ FIT) as (t & T1 & _ & _ & T4 & T5 & T6 & T7). exists t. split; [assumption|].
  assert (PT : parsed t) by (apply (files_parsed ps [n * ps; 0]); try assumption; try lia; discriminate).
  split.
  { unfold pieces_of. rewrite T4, T5. cbn [total fold_right]. rewrite !Z.add_0_r. symmetry. apply (Z.div_unique _ ps _ (ps - 1)); lia. }
  destruct (parsed_ok t PT) as (_ & SIT & FF & _). rewrite T5 in SIT.
  destruct (files t) as [|f [|g [|h l]]] eqn:EF; try discriminate. cbn [all_situated] in SIT. destruct SIT as (S1 & S2 & _).
  destruct (T7 0%nat) as (G1 & _); [cbn; lia|]. destruct (T7 1%nat) as (G2 & _); [cbn; lia|]. cbn [nth] in G1, G2. rewrite G1 in S2.
  pose proof S1 as (X1 & X2 & X3 & X4 & X5 & X6 & _). pose proof S2 as (Y1 & Y2 & Y3 & Y4 & Y5 & Y6 & _). cbn [Z.add] in *.
  assert (GS : startPiece g = n).
  { assert (startPiece g < n + 1) by (apply (mul_lt_cancel ps); [lia|]; rewrite Z.mul_add_distr_r; lia). assert (n < startPiece g + 1) by (apply (mul_lt_cancel ps); [lia|]; rewrite Z.mul_add_distr_r; lia). lia. }
  assert (FE : endPiece f < n).
  { rewrite G1 in X6. specialize (X6 ltac:(apply Z.mul_pos_pos; lia)). apply (mul_lt_cancel ps); lia. }
  destruct sel as [|s [|s' [|x l]]]; try discriminate. unfold selectedFiles. rewrite EF. cbn [markFiles].
  assert (M : exists wp, (if s then markFrom (Z.to_nat (endPiece f + 1 - startPiece f)) (startPiece f) (repeat false (Z.to_nat n)) else Ok (repeat false (Z.to_nat n))) = Ok wp /\ zlen wp = n).
  { destruct s; [|eexists; split; [reflexivity|unfold zlen; rewrite repeat_length; lia]].
    destruct (markFrom_ok (Z.to_nat (endPiece f + 1 - startPiece f)) (startPiece f) (repeat false (Z.to_nat n))) as (wp & E1 & E2 & _); [lia|unfold zlen; rewrite repeat_length; lia|].
    exists wp. split; [assumption|]. rewrite E2. unfold zlen. rewrite repeat_length. lia. }
  destruct M as (wp & -> & ZW). cbn [bind]. destruct s'.
  - rewrite (Y5 G2), GS. replace (Z.to_nat (n + 1 - n)) with 1%nat by lia. cbn [markFrom]. destruct (Z.ltb_spec n (zlen wp)); [lia|]. rewrite andb_false_r. reflexivity.
  - cbn [bind markFiles chooseFrom]. rewrite GS. assert (EU : element wp n = UB).
    { unfold element. destruct (Z.ltb_spec n 0); [reflexivity|]. destruct (nth_error wp (Z.to_nat n)) eqn:E; [|reflexivity]. assert (Z.to_nat n < length wp)%nat by (apply nth_error_Some; congruence). unfold zlen in ZW. lia. }
    rewrite EU. cbn [bind]. destruct (if s then _ else _); reflexivity.
Qed.
Print Assumptions C91_empty_last_refuted.

(** Files of 3, 9, 2 and 5 bytes, pieces of 4: with the third file selected, which is in piece 3, room is made also for
    two bytes of the fourth. *)
Definition roomT : torrentInfo := Eval vm_compute in match parseMultiFile 4 [3; 9; 2; 5] with Ok t => t | UB => makeInfo 0 0 [] end.

Lemma roomT_parsed : parsed roomT.
Proof.
  apply (files_parsed 4 [3; 9; 2; 5]); [|lia|discriminate|reflexivity]. unfold sizes_fit. split; [lia|]. split; [repeat constructor; lia|]. split; reflexivity.
Qed.

Example C91_demand_meets : Forall (fun f => endPiece f < 5) (files roomT) /\
  selectedFiles roomT 5 [false; false; true; false] = Ok [(2, 2); (3, 2)] /\ selectedFile roomT 2 = Ok [(2, 2); (3, 2)] /\
  selectedFiles roomT 5 [false; true; false; false] = Ok [(0, 3); (1, 9)] /\ selectedFiles roomT 5 [true; false; false; true] = Ok [(0, 3); (1, 1); (2, 2); (3, 5)].
Proof. split; [repeat constructor|]. vm_compute. auto. Qed.

Example C91_room_meets : fst (preallocateSelection roomT 10 [(0, 3); (1, 9)] [Some [7; 8]; None; None; Some [5]]) = true /\
  snd (preallocateSelection roomT 10 [(0, 3); (1, 9)] [Some [7; 8]; None; None; Some [5]]) = [Some [7; 8; 0]; Some (repeat 0 9); None; Some [5]] /\
  fst (preallocateSelection roomT 9 [(0, 3); (1, 9)] [Some [7; 8]; None; None; Some [5]]) = false.
Proof. vm_compute. auto. Qed.

Example C91_space_meets : zlen [1; 2; 3] < 10 /\ 10 - zlen [1; 2; 3] <= 8 < 10.
Proof. change (zlen [1; 2; 3]) with 3. lia. Qed.
