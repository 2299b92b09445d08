(** Bitfields, operation sequences, received bytes. *)
From Verif Require Import Base BaseLemmas ProgressModel ProgressSpec ProgressProofs.

Lemma f32_id n : n <= 16777216 -> f32 n = n.
Proof.
  intros H. unfold f32. destruct (Z.ltb_spec n 16777216) as [L|L]; [reflexivity|].
  replace n with 16777216 by lia. vm_compute. reflexivity.
Qed.

Lemma bitMask_pow i : bitMask i = 2 ^ (7 - i mod 8).
Proof.
  unfold bitMask. assert (H : 0 <= i mod 8 < 8) by (apply Z.mod_pos_bound; lia).
  rewrite Z.shiftr_div_pow2 by lia. change 128 with (2 ^ 7). rewrite <- Z.pow_sub_r by lia. reflexivity.
Qed.

Lemma hasBit_pow x k : 0 <= k -> hasBit x (2 ^ k) = Z.testbit x k.
Proof.
  intros Hk. unfold hasBit. destruct (Z.testbit x k) eqn:T.
  - destruct (Z.eqb_spec (Z.land x (2 ^ k)) 0) as [E|E]; [|reflexivity].
    assert (X : Z.testbit (Z.land x (2 ^ k)) k = true) by (rewrite Z.land_spec, Z.pow2_bits_true by assumption; now rewrite T).
    rewrite E, Z.bits_0 in X. discriminate.
  - replace (Z.land x (2 ^ k)) with 0; [reflexivity|]. symmetry. apply Z.bits_inj'. intros n Hn.
    rewrite Z.land_spec, Z.bits_0, Z.pow2_bits_eqb by assumption. destruct (Z.eqb_spec k n) as [<-|N]; [now rewrite T|apply andb_false_r].
Qed.

Lemma hasBit_bit data i : 0 <= i -> hasBit (nth (Z.to_nat (i / 8)) data 0) (bitMask i) = bit data i.
Proof. intros H. rewrite bitMask_pow. apply hasBit_pow. pose proof (Z.mod_pos_bound i 8). lia. Qed.

Lemma or_mask_byte x i : is_byte x -> is_byte (Z.lor x (bitMask i)).
Proof.
  intros H. unfold bitMask. assert (M : 0 <= i mod 8 < 8) by (apply Z.mod_pos_bound; lia).
  assert (S : sweep 256 (fun b => forallb (fun k => is_byteb (Z.lor b (Z.shiftr 128 k))) [0;1;2;3;4;5;6;7]) = true) by (vm_compute; reflexivity).
  pose proof (byte_sweep _ S x H) as B. cbv beta in B. rewrite forallb_forall in B. apply is_byteb_spec. apply B.
  assert (i mod 8 = 0 \/ i mod 8 = 1 \/ i mod 8 = 2 \/ i mod 8 = 3 \/ i mod 8 = 4 \/ i mod 8 = 5 \/ i mod 8 = 6 \/ i mod 8 = 7) by lia.
  simpl. intuition.
Qed.

Lemma put_ok i data : 0 <= i <= 16777216 -> i < zlen data * 8 ->
  exists data', bitfieldPut i data = Ok data' /\ length data' = length data /\ (bytes_ok data -> bytes_ok data') /\
    forall j, 0 <= j -> bit data' j = bit data j || (j =? i).
Proof.
  intros Hi Hl. unfold bitfieldPut, byteIndex. rewrite f32_id by lia.
  destruct (nth_error data (Z.to_nat (i / 8))) as [x|] eqn:E.
  2:{ apply nth_error_None in E. unfold zlen in Hl. lia. }
  eexists. split; [reflexivity|]. split; [apply upd_length|]. split.
  { intros B. apply Forall_upd; [assumption|]. apply or_mask_byte. unfold bytes_ok in B. rewrite Forall_forall in B. apply B. eapply nth_error_In, E. }
  intros j Hj. unfold bit. assert (Lj : (Z.to_nat (i / 8) < length data)%nat) by (apply nth_error_Some; congruence).
  destruct (Nat.eq_dec (Z.to_nat (j / 8)) (Z.to_nat (i / 8))) as [Q|Q].
  - rewrite Q, nth_upd_same by assumption. rewrite (nth_error_nth _ _ 0 E). rewrite Z.lor_spec, bitMask_pow.
    rewrite Z.pow2_bits_eqb by lia. f_equal. destruct (Z.eqb_spec (7 - i mod 8) (7 - j mod 8)), (Z.eqb_spec j i); lia || reflexivity.
  - rewrite nth_upd_other by assumption. destruct (Z.eqb_spec j i); [subst; contradiction|]. now rewrite orb_false_r.
Qed.

Lemma toBitfieldFrom_ok p n : forall i data, flags_ok p -> receivedPiecesCount p = count received (pieces p) ->
  0 <= i -> i + Z.of_nat n <= zlen (pieces p) -> zlen (pieces p) <= 16777216 -> zlen (pieces p) <= zlen data * 8 -> bytes_ok data ->
  exists data', toBitfieldFrom n i p data = Ok data' /\ length data' = length data /\ bytes_ok data' /\
    forall j, 0 <= j -> bit data' j = bit data j || ((i <=? j) && (j <? i + Z.of_nat n) && is_received p j).
Proof.
  induction n as [|n IH]; intros i data F E Hi Hn HM HD HB; cbn [toBitfieldFrom].
  - exists data. split; [reflexivity|]. split; [reflexivity|]. split; [assumption|]. intros j Hj.
    destruct (Z.leb_spec i j), (Z.ltb_spec j (i + Z.of_nat 0)); cbn [andb]; rewrite ?orb_false_r; lia || reflexivity.
  - rewrite has_ok by (assumption || lia). cbn [bind].
    assert (X : exists d, (if received (nth (Z.to_nat i) (pieces p) 0) then bitfieldPut i data else Ok data) = Ok d /\
      length d = length data /\ bytes_ok d /\ forall j, 0 <= j -> bit d j = bit data j || ((j =? i) && received (nth (Z.to_nat i) (pieces p) 0))).
    { destruct (received (nth (Z.to_nat i) (pieces p) 0)).
      - destruct (put_ok i data) as (d & -> & L & B & J); [lia|lia|]. exists d. split; [reflexivity|]. split; [assumption|]. split; [auto|].
        intros j Hj. now rewrite andb_true_r, J.
      - exists data. split; [reflexivity|]. split; [reflexivity|]. split; [assumption|]. intros. now rewrite andb_false_r, orb_false_r. }
    destruct X as (d & -> & L & B & J). cbn [bind].
    destruct (IH (i + 1) d F E) as (d' & -> & L' & B' & J'); try assumption; try lia.
    { unfold zlen in *. lia. }
    exists d'. split; [reflexivity|]. split; [congruence|]. split; [assumption|]. intros j Hj.
    rewrite J', J by assumption. rewrite <- orb_assoc. f_equal. unfold is_received.
    destruct (Z.eqb_spec j i) as [->|N].
    + destruct (Z.leb_spec (i + 1) i), (Z.leb_spec i i), (Z.ltb_spec i (i + Z.of_nat (S n))), (Z.leb_spec 0 i); cbn [andb orb]; try lia.
      now rewrite orb_false_r.
    + destruct (Z.leb_spec (i + 1) j), (Z.leb_spec i j), (Z.ltb_spec j (i + Z.of_nat (S n))), (Z.ltb_spec j (i + 1 + Z.of_nat n)), (Z.leb_spec 0 i); cbn [andb orb]; try lia; reflexivity.
Qed.

Lemma bit_zeros n j : bit (repeat 0 n) j = false.
Proof. unfold bit. rewrite nth_repeat. apply Z.bits_0. Qed.

Lemma is_received_oob p j : zlen (pieces p) <= j -> is_received p j = false.
Proof. intros H. unfold is_received. rewrite nth_overflow by (unfold zlen in *; lia). apply andb_false_r. Qed.

Lemma toBitfield_ok p : flags_ok p -> receivedPiecesCount p = count received (pieces p) -> zlen (pieces p) <= 16777216 ->
  exists data, toBitfieldData p = Ok data /\ bytes_ok data /\ zlen data = (zlen (pieces p) + 7) / 8 /\
    forall j, 0 <= j -> bit data j = is_received p j.
Proof.
  intros F E H. unfold toBitfieldData, bitfieldInit, byteCount. rewrite f32_id by assumption.
  pose proof (zlen_nonneg (pieces p)) as N.
  destruct (toBitfieldFrom_ok p (length (pieces p)) 0 (repeat 0 (Z.to_nat ((zlen (pieces p) + 7) / 8))) F E) as (d & -> & L & B & J).
  - lia.
  - unfold zlen. lia.
  - assumption.
  - unfold zlen at 2. rewrite repeat_length. lia.
  - apply Forall_repeat. unfold is_byte. lia.
  - exists d. split; [reflexivity|]. split; [assumption|]. split.
    + unfold zlen at 1. rewrite L, repeat_length. lia.
    + intros j Hj. rewrite J, bit_zeros by assumption. cbn [orb].
      destruct (Z.leb_spec 0 j); [|lia]. destruct (Z.ltb_spec j (0 + Z.of_nat (length (pieces p)))); cbn [andb]; [reflexivity|].
      symmetry. apply is_received_oob. unfold zlen. lia.
Qed.

Lemma firstn_upd {A} i (x d : A) l : (i < length l)%nat -> firstn (S i) (upd i x l) = firstn i l ++ [x].
Proof.
  revert i. induction l as [|y l IH]; intros i H; [simpl in H; lia|]. destruct i as [|i]; [reflexivity|].
  cbn [upd]. change (firstn (S (S i)) (y :: upd i x l)) with (y :: firstn (S i) (upd i x l)).
  change (firstn (S i) (y :: l)) with (y :: firstn i l). rewrite IH by (simpl in H; lia). reflexivity.
Qed.

Lemma fromBitfieldFrom_ok b n : forall i p, 0 <= i -> i + Z.of_nat n = zlen (pieces p) -> zlen (pieces p) <= 16777216 ->
  zlen (pieces p) <= zlen b * 8 ->
  receivedPiecesCount p = count received (firstn (Z.to_nat i) (pieces p)) ->
  (forall j, 0 <= j < i -> nth (Z.to_nat j) (pieces p) 0 = Z.b2z (bit b j)) ->
  exists q, fromBitfieldFrom n i b p = Ok q /\ length (pieces q) = length (pieces p) /\
    receivedPiecesCount q = count received (pieces q) /\ selectedPieces q = selectedPieces p /\
    selectedReceivedPiecesCount q = selectedReceivedPiecesCount p /\
    (forall j, 0 <= j < zlen (pieces p) -> nth (Z.to_nat j) (pieces q) 0 = Z.b2z (bit b j)).
Proof.
  induction n as [|n IH]; intros i p Hi Hn HM HB R J; cbn [fromBitfieldFrom].
  - exists p. split; [reflexivity|]. split; [reflexivity|]. split.
    + rewrite R. rewrite firstn_all2 by (unfold zlen in Hn; lia). reflexivity.
    + split; [reflexivity|]. split; [reflexivity|]. intros j Hj. apply J. lia.
  - unfold byteIndex. rewrite f32_id by lia.
    destruct (nth_error b (Z.to_nat (i / 8))) as [x|] eqn:E.
    2:{ apply nth_error_None in E. unfold zlen in *. lia. }
    rewrite piece_in by lia. cbn [bind].
    assert (X : hasBit x (bitMask i) = bit b i) by (rewrite <- hasBit_bit by lia; now rewrite (nth_error_nth _ _ 0 E)).
    rewrite X.
    set (p' := addReceived _ _).
    assert (P : pieces p' = upd (Z.to_nat i) (Z.b2z (bit b i)) (pieces p)) by (unfold p'; destruct (bit b i); reflexivity).
    assert (L : zlen (pieces p') = zlen (pieces p)) by (rewrite P; unfold zlen; now rewrite upd_length).
    destruct (IH (i + 1) p') as (q & -> & Q1 & Q2 & Q3 & Q4 & Q5); try lia.
    + rewrite P. replace (Z.to_nat (i + 1)) with (S (Z.to_nat i)) by lia.
      rewrite firstn_upd by (exact 0 || (unfold zlen in *; lia)). rewrite count_app, count_cons, count_nil.
      unfold p'. prog. rewrite R. pose proof (count_range received (firstn (Z.to_nat i) (pieces p))) as C.
      assert (zlen (firstn (Z.to_nat i) (pieces p)) <= zlen (pieces p)) by (unfold zlen; rewrite firstn_length; lia).
      destruct (bit b i); cbn [Z.b2z]; change (received 1) with true; change (received 0) with false; cbn [Z.b2z]; rewrite u64_id; lia.
    + intros j Hj. rewrite P. destruct (Z.eq_dec j i) as [->|N].
      * rewrite nth_upd_same by (unfold zlen in *; lia). reflexivity.
      * rewrite nth_upd_other by lia. apply J. lia.
    + exists q. split; [reflexivity|]. split; [unfold zlen in L; lia|]. split; [assumption|].
      split; [rewrite Q3; unfold p'; destruct (bit b i); reflexivity|].
      split; [rewrite Q4; unfold p'; destruct (bit b i); reflexivity|]. rewrite L in Q5. exact Q5.
Qed.

Lemma b2z_flag v : flag_ok (Z.b2z v). Proof. destruct v; [right; left|left]; reflexivity. Qed.

(** The size a bitfield is read for. *)
Definition bf_size (b : list Z) (p : progress) : Z := if zlen (pieces p) =? 0 then zlen b * 8 else zlen (pieces p).

Lemma fromBitfield_ok b p : zlen b * 8 <= 16777216 -> zlen (pieces p) <= zlen b * 8 ->
  exists q, fromBitfieldData b p = Ok q /\ zlen (pieces q) = bf_size b p /\ flags_ok q /\
    receivedPiecesCount q = count received (pieces q) /\ selectedPieces q = count chosen (pieces q) /\ selectedReceivedPiecesCount q = 0 /\
    (forall j, 0 <= j < bf_size b p -> is_received q j = bit b j /\ is_chosen q j = true).
Proof.
  intros HM HB. unfold fromBitfieldData. fold (bf_size b p). set (n := bf_size b p).
  pose proof (zlen_nonneg (pieces p)) as N0. pose proof (zlen_nonneg b) as N1.
  assert (Hn : 0 <= n <= zlen b * 8) by (unfold n, bf_size; destruct (zlen (pieces p) =? 0); lia).
  assert (L : zlen (pieces (init n p)) = n).
  { unfold init. cbn [pieces]. unfold n, bf_size. destruct (Z.eqb_spec (zlen (pieces p)) 0) as [Q|Q].
    - destruct (Z.ltb_spec (zlen (pieces p)) (zlen b * 8)); [|lia]. rewrite zlen_app. unfold zlen at 2. rewrite repeat_length. lia.
    - rewrite Z.ltb_irrefl. reflexivity. }
  destruct (fromBitfieldFrom_ok b (Z.to_nat n) 0 (init n p)) as (q & -> & Q1 & Q2 & Q3 & Q4 & Q5); try lia.
  { reflexivity. }
  assert (ZQ : zlen (pieces q) = n) by (unfold zlen in *; lia). rewrite L in Q5.
  assert (F : Forall flag_ok (pieces q)).
  { apply Forall_nth. intros i d Hi. rewrite (nth_indep _ d 0) by assumption. rewrite <- (Nat2Z.id i). rewrite Q5 by (unfold zlen in *; lia). apply b2z_flag. }
  assert (Ch : forall i, (i < length (pieces q))%nat -> chosen (nth i (pieces q) 0) = true).
  { intros i Hi. rewrite <- (Nat2Z.id i). rewrite Q5 by (unfold zlen in *; lia). destruct (bit b (Z.of_nat i)); reflexivity. }
  exists q. split; [reflexivity|]. split; [assumption|]. split; [split; [assumption|lia]|]. split; [assumption|]. split; [|split].
  - rewrite Q3. cbn [init selectedPieces]. rewrite (count_full_conv _ _ Ch). lia.
  - rewrite Q4. reflexivity.
  - intros j Hj. unfold is_received, is_chosen. rewrite ZQ, Q5 by lia. destruct (Z.leb_spec 0 j); [|lia]. destruct (Z.ltb_spec j n); [|lia].
    cbn [andb]. destruct (bit b j); split; reflexivity.
Qed.

(** Operations do not look at the count of selected received pieces. *)
Definition sim (p q : progress) : Prop :=
  pieces p = pieces q /\ selectedPieces p = selectedPieces q /\ receivedPiecesCount p = receivedPiecesCount q.
Definition rsim (a b : res progress) : Prop :=
  match a, b with Ok p, Ok q => sim p q | UB, UB => True | _, _ => False end.

Lemma sim_exact p : sim p {| pieces := pieces p; selectedPieces := selectedPieces p; receivedPiecesCount := receivedPiecesCount p;
  selectedReceivedPiecesCount := count (fun x => received x && chosen x) (pieces p) |}.
Proof. repeat split. Qed.

Lemma sim_calc p q : sim p q -> sim (calculatePieces p) (calculatePieces q).
Proof.
  intros (H1 & H2 & H3). unfold calculatePieces. rewrite H1. destruct (fold_left _ _ _) as [[a b] c]. repeat split; assumption.
Qed.
Lemma sim_resize n p q : sim p q -> sim (resize n p) (resize n q).
Proof.
  intros S. pose proof S as (H1 & H2 & H3). unfold resize. rewrite H1. destruct (zlen (pieces q) =? n); [assumption|].
  apply sim_calc. repeat split; cbn; congruence.
Qed.
Lemma sim_piece p q i : sim p q -> piece p i = piece q i.
Proof. intros (H1 & _). unfold piece. now rewrite H1. Qed.
Lemma sim_has p q i : sim p q -> hasPiece p i = hasPiece q i.
Proof. intros S. pose proof S as (H1 & H2 & H3). unfold hasPiece, finished. rewrite (sim_piece p q i S), H1, H3. reflexivity. Qed.
Lemma sim_set p q i x : sim p q -> sim (setPiece p i x) (setPiece q i x).
Proof. intros (H1 & H2 & H3). repeat split; cbn; congruence. Qed.
Lemma sim_addr p q d : sim p q -> sim (addReceived d p) (addReceived d q).
Proof. intros (H1 & H2 & H3). repeat split; cbn; congruence. Qed.
Lemma sim_adds p q d : sim p q -> sim (addSelected d p) (addSelected d q).
Proof. intros (H1 & H2 & H3). repeat split; cbn; congruence. Qed.
Lemma sim_addsr p q d (b : bool) : sim p q -> sim (if b then addSelectedReceived d p else p) (if b then addSelectedReceived d q else q).
Proof. intros (H1 & H2 & H3). destruct b; repeat split; cbn; congruence. Qed.
Lemma sim_remove p q i : sim p q -> rsim (removePiece i p) (removePiece i q).
Proof.
  intros S. unfold removePiece, selectedPiece. rewrite (sim_has p q i S), (sim_piece p q i S).
  destruct (hasPiece q i) as [[]|]; cbn [bind rsim]; auto. destruct (piece q i); cbn [bind rsim]; auto.
  apply sim_addr, sim_set, sim_addsr, S.
Qed.
Lemma sim_add p q i : sim p q -> rsim (addPiece i p) (addPiece i q).
Proof.
  intros S. unfold addPiece. pose proof S as (H1 & _). rewrite H1.
  set (p' := if zlen (pieces q) <=? i then resize (u32 (i + 1)) p else p). set (q' := if zlen (pieces q) <=? i then resize (u32 (i + 1)) q else q).
  assert (S' : sim p' q') by (unfold p', q'; destruct (_ <=? _); [apply sim_resize, S|exact S]).
  unfold wantedPiece. rewrite (sim_has p' q' i S'), (sim_piece p' q' i S').
  destruct (hasPiece q' i) as [[]|]; cbn [bind rsim]; auto. destruct (piece q' i); cbn [bind rsim]; auto.
  apply sim_addr, sim_set, sim_addsr, S'.
Qed.
Lemma sim_removeFrom n : forall i wh p q, sim p q -> rsim (removeReceivedFrom n i wh p) (removeReceivedFrom n i wh q).
Proof.
  induction n as [|n IH]; intros i wh p q S; cbn [removeReceivedFrom]; [exact S|].
  destruct (nth_error wh (Z.to_nat i)) as [[]|]; cbn [bind]; [|apply IH, S|exact I].
  pose proof (sim_remove p q i S) as R. destruct (removePiece i p), (removePiece i q); cbn [rsim bind] in *; try contradiction; [|exact I]. apply IH, R.
Qed.
Lemma sim_selectFrom n : forall i s p q, sim p q -> rsim (selectFrom n i s p) (selectFrom n i s q).
Proof.
  induction n as [|n IH]; intros i s p q S; cbn [selectFrom]; [exact S|].
  assert (R : rsim (selectOne i s p) (selectOne i s q)).
  { unfold selectOne, selectedPiece. rewrite (sim_piece p q i S). destruct (piece q i) as [x|]; cbn [bind]; [|exact I].
    destruct (Bool.eqb _ _); [exact S|]. destruct s; cbn [rsim]; apply sim_set, sim_adds, sim_addsr, S. }
  destruct (selectOne i s p), (selectOne i s q); cbn [rsim bind] in *; try contradiction; [|exact I]. apply IH, R.
Qed.
Lemma sim_fromFrom b n : forall i p q, sim p q -> rsim (fromBitfieldFrom n i b p) (fromBitfieldFrom n i b q).
Proof.
  induction n as [|n IH]; intros i p q S; cbn [fromBitfieldFrom]; [exact S|].
  destruct (nth_error b (Z.to_nat (byteIndex i))) as [x|]; [|exact I]. rewrite (sim_piece p q i S). destruct (piece q i); cbn [bind]; [|exact I].
  apply IH, sim_addr, sim_set, S.
Qed.
Lemma sim_op o p q : sim p q -> rsim (run_op o p) (run_op o q).
Proof.
  intros S. pose proof S as (H1 & H2 & H3). destruct o; cbn [run_op rsim].
  - apply sim_calc, S.
  - apply sim_resize, S.
  - unfold removeReceived. rewrite H1. apply sim_removeFrom, S.
  - apply sim_selectFrom, S.
  - apply sim_add, S.
  - apply sim_remove, S.
  - unfold fromBitfieldData. rewrite H1. apply sim_fromFrom. unfold init. rewrite H1. repeat split.
Qed.

(** Two of the counters stay exact under all operations, all three without bitfields. *)
Definition exact2 (p : progress) : Prop :=
  receivedPiecesCount p = count received (pieces p) /\ selectedPieces p = count chosen (pieces p).

Definition no_bitfield (o : op) : Prop := match o with OFromBitfield _ => False | _ => True end.

Lemma op_exact o p : flags_ok p -> exact p -> op_ok p o -> no_bitfield o ->
  exists q, run_op o p = Ok q /\ flags_ok q /\ exact q.
Proof.
  intros F E H N. destruct o; cbn [run_op op_ok no_bitfield] in *.
  - destruct (calculate_exact p F) as [G1 G2]. eexists. split; [reflexivity|]. split; [|assumption]. unfold flags_ok. now rewrite G2.
  - destruct (resize_ok p n F E H) as (G1 & G2 & _). eexists. split; [reflexivity|]. auto.
  - destruct (removeReceived_ok p wh F E H) as (q & -> & G1 & G2 & _). exists q. auto.
  - destruct (select_ok p a b s F E) as (q & -> & G1 & G2 & _); try apply H. exists q. auto.
  - destruct (addPiece_ok p i F E H) as (q & -> & G1 & G2 & _). exists q. auto.
  - destruct (removePiece_ok p i F E H) as (q & -> & G1 & G2 & _). exists q. auto.
  - contradiction.
Qed.

Lemma op_exact2 o p : flags_ok p -> exact2 p -> op_ok p o ->
  exists q, run_op o p = Ok q /\ flags_ok q /\ exact2 q.
Proof.
  intros F E H. assert (D : no_bitfield o \/ exists b, o = OFromBitfield b) by (destruct o; cbn; eauto).
  destruct D as [N|[b ->]].
  - pose proof (sim_op o _ _ (sim_exact p)) as S.
    destruct (op_exact o (Build_progress (pieces p) (selectedPieces p) (receivedPiecesCount p) (count (fun x => received x && chosen x) (pieces p)))) as (q & Q & G1 & G2); try assumption.
    { destruct E. repeat split; assumption. }
    rewrite Q in S. destruct (run_op o p) as [r|]; [|contradiction]. destruct S as (S1 & S2 & S3). exists r. split; [reflexivity|].
    destruct G2 as (G2 & G3 & G4). split; [unfold flags_ok; rewrite S1; exact G1|]. split; congruence.
  - cbn [run_op op_ok] in *. destruct H as (_ & H1 & H2). destruct (fromBitfield_ok b p H1 H2) as (q & -> & G1 & G2 & G3 & G4 & _).
    exists q. split; [reflexivity|]. split; [assumption|]. split; assumption.
Qed.

Lemma reaches_exact p os q : reaches no_bitfield p os q -> flags_ok p -> exact p -> flags_ok q /\ exact q.
Proof.
  induction 1 as [p|p o q os r H1 H2 H3 H4 IH]; intros F E; [auto|].
  destruct (op_exact o p F E H1 H2) as (q' & Q & G1 & G2). rewrite H3 in Q. injection Q as <-. auto.
Qed.
Lemma reaches_exact2 p os q : reaches (fun _ => True) p os q -> flags_ok p -> exact2 p -> flags_ok q /\ exact2 q.
Proof.
  induction 1 as [p|p o q os r H1 H2 H3 H4 IH]; intros F E; [auto|].
  destruct (op_exact2 o p F E H1) as (q' & Q & G1 & G2). rewrite H3 in Q. injection Q as <-. auto.
Qed.

Lemma init_exact n : 0 <= n < 4294967296 -> flags_ok (init n emptyProgress) /\ exact (init n emptyProgress) /\ zlen (pieces (init n emptyProgress)) = n.
Proof.
  intros H.
  assert (P : pieces (init n emptyProgress) = repeat 0 (Z.to_nat n)).
  { unfold init, emptyProgress. cbn [pieces]. change (zlen (@nil Z)) with 0. destruct (Z.ltb_spec 0 n).
    - cbn [app]. f_equal. lia.
    - replace (Z.to_nat n) with 0%nat by lia. reflexivity. }
  assert (L : zlen (pieces (init n emptyProgress)) = n) by (rewrite P; unfold zlen; rewrite repeat_length; lia).
  split; [|split; [|exact L]].
  - split; [rewrite P; apply Forall_repeat; left; reflexivity|lia].
  - unfold exact. rewrite P.
    assert (C : forall f, f 0 = false -> count f (repeat 0 (Z.to_nat n)) = 0).
    { intros f Hf. generalize (Z.to_nat n). clear -Hf. induction n as [|k IH]; [reflexivity|]. cbn [repeat]. rewrite count_cons, Hf, IH. reflexivity. }
    split; [now rewrite C|]. split; [|now rewrite C].
    rewrite count_full_conv; [rewrite P in L; rewrite L; reflexivity|]. intros i Hi. now rewrite nth_repeat.
Qed.

Lemma finished_iff p : flags_ok p -> receivedPiecesCount p = count received (pieces p) ->
  (finished p = true <-> zlen (pieces p) > 0 /\ forall i, 0 <= i < zlen (pieces p) -> is_received p i = true).
Proof.
  intros F E. unfold finished. pose proof (zlen_nonneg (pieces p)). rewrite E. split.
  - intros Q. split; [lia|]. intros i Hi. unfold is_received.
    assert (X : received (nth (Z.to_nat i) (pieces p) 0) = true) by (apply count_full; [lia|unfold zlen in *; lia]). rewrite X. lia.
  - intros [H0 J]. rewrite count_full_conv; [lia|]. intros i Hi. specialize (J (Z.of_nat i)). unfold is_received in J.
    rewrite Nat2Z.id in J. unfold zlen in *. destruct (Z.leb_spec 0 (Z.of_nat i)); [|lia]. apply J. lia.
Qed.

Lemma selectedFinished_iff p : flags_ok p -> exact p ->
  (selectedFinished p = true <-> zlen (pieces p) > 0 /\
    forall i, 0 <= i < zlen (pieces p) -> is_chosen p i = true -> is_received p i = true).
Proof.
  intros F (_ & E2 & E3). unfold selectedFinished. pose proof (zlen_nonneg (pieces p)). rewrite E2, E3.
  assert (C : count (fun x => received x && chosen x) (pieces p) = count (fun x => chosen x && received x) (pieces p)).
  { unfold count. f_equal. apply filter_ext. intros. apply andb_comm. }
  rewrite C. pose proof (count_same_nth chosen received (pieces p)) as S. split.
  - intros Q. split; [lia|]. intros i Hi. unfold is_received, is_chosen. destruct (Z.leb_spec 0 i); [|lia]. destruct (Z.ltb_spec i (zlen (pieces p))); [|lia].
    cbn [andb]. apply S; [lia|unfold zlen in *; lia].
  - intros [H0 J]. assert (X : count chosen (pieces p) = count (fun x => chosen x && received x) (pieces p)).
    { apply S. intros i Hi Hc. specialize (J (Z.of_nat i)). unfold is_received, is_chosen in J. rewrite Nat2Z.id in J. unfold zlen in *.
      destruct (Z.leb_spec 0 (Z.of_nat i)); [|lia]. destruct (Z.ltb_spec (Z.of_nat i) (Z.of_nat (length (pieces p)))); [|lia].
      cbn [andb] in J. apply J; [lia|assumption]. }
    lia.
Qed.

(** Received bytes. *)
Lemma sum_sizes_count f ps fs n l : forall i, i + zlen l <= n - 1 -> sum_sizes f ps fs n i l = count f l * ps.
Proof.
  induction l as [|x l IH]; intros i H; [reflexivity|]. cbn [sum_sizes]. rewrite zlen_cons in H. pose proof (zlen_nonneg l).
  rewrite count_cons, IH by lia. unfold piece_size. destruct (Z.eqb_spec i (n - 1)); [lia|]. destruct (f x); cbn [Z.b2z]; lia.
Qed.
Lemma sum_sizes_app f ps fs n a b : forall i, sum_sizes f ps fs n i (a ++ b) = sum_sizes f ps fs n i a + sum_sizes f ps fs n (i + zlen a) b.
Proof.
  induction a as [|x a IH]; intros i; cbn [app sum_sizes].
  - change (zlen (@nil Z)) with 0. rewrite (Z.add_0_r i). lia.
  - rewrite IH, zlen_cons. replace (i + (1 + zlen a)) with (i + 1 + zlen a) by lia. lia.
Qed.

Lemma sum_sizes_total f ps fs l : l <> [] ->
  sum_sizes f ps fs (zlen l) 0 l = (count f l - Z.b2z (f (last l 0))) * ps + (if f (last l 0) then fs - ps * (zlen l - 1) else 0).
Proof.
  intros H. rewrite (app_removelast_last 0 H) at 1 2 3 4. set (a := removelast l). set (x := last l 0).
  assert (L : zlen (a ++ [x]) = zlen a + 1) by (rewrite zlen_app; reflexivity).
  assert (LL : zlen l = zlen a + 1) by (rewrite (app_removelast_last 0 H); exact L).
  rewrite sum_sizes_app, sum_sizes_count by lia. rewrite count_app, count_cons, count_nil. cbn [sum_sizes]. unfold piece_size.
  rewrite L. destruct (Z.eqb_spec (0 + zlen a) (zlen a + 1 - 1)); [|lia].
  assert (Q : last (a ++ [x]) 0 = x) by apply last_last. rewrite ?Q. destruct (f x); cbn [Z.b2z]; rewrite ?LL; lia.
Qed.

(** A torrent of [n] pieces of [ps] bytes, the last one possibly shorter. *)
Definition sizes_ok (ps fs n : Z) : Prop := 0 < ps < 4294967296 /\ ps * (n - 1) < fs <= ps * n /\ fs < 9223372036854775808.

Lemma last_mod ps fs n : sizes_ok ps fs n -> 1 <= n -> fs mod ps = if fs mod ps =? 0 then 0 else fs - ps * (n - 1).
Proof.
  intros (H1 & H2 & H3) Hn. destruct (Z.eqb_spec (fs mod ps) 0) as [E|E]; [assumption|].
  symmetry. apply (Z.mod_unique fs ps (n - 1)); [|lia].
  left. split; [lia|]. destruct (Z.eq_dec fs (ps * n)) as [->|N]; [|lia].
  exfalso. apply E. rewrite Z.mul_comm. apply Z.mod_mul. lia.
Qed.
Lemma last_mod0 ps fs n : sizes_ok ps fs n -> fs mod ps = 0 -> fs = ps * n.
Proof.
  intros (H1 & H2 & H3) E. apply Z.mod_divide in E; [|lia]. destruct E as [k ->].
  assert (k = n); [|subst; lia]. assert (n - 1 < k <= n); [|lia]. split.
  - apply (Z.mul_lt_mono_pos_l ps); lia.
  - apply (Z.mul_le_mono_pos_l _ _ ps); lia.
Qed.

Lemma last_nth (l : list Z) : l <> [] -> last l 0 = nth (length l - 1) l 0.
Proof.
  intros H. pose proof (app_removelast_last 0 H) as E. rewrite E at 2 3. rewrite app_length. cbn [length].
  rewrite app_nth2 by lia. replace (_ - _)%nat with 0%nat by lia. reflexivity.
Qed.

Lemma bytes_core f c ps fs l : sizes_ok ps fs (zlen l) -> l <> [] -> c = count f l ->
  (if f (last l 0) then u64 (fs mod ps + u64 (u64 (c - 1) * ps)) else u64 (c * ps)) =
  sum_sizes f ps fs (zlen l) 0 l - (if f (last l 0) && (fs mod ps =? 0) then ps else 0).
Proof.
  intros S Hl ->. rewrite sum_sizes_total by assumption. pose proof S as (H1 & H2 & H3).
  assert (Ln : 1 <= zlen l) by (destruct l; [congruence|rewrite zlen_cons; pose proof (zlen_nonneg l); lia]).
  pose proof (count_range f l) as C.
  assert (M : 0 <= fs mod ps < ps) by (apply Z.mod_pos_bound; lia).
  assert (P1 : 0 <= count f l * ps <= zlen l * ps) by (split; [nia|apply Z.mul_le_mono_nonneg_r; lia]).
  assert (P2 : zlen l * ps < fs + ps) by lia.
  destruct (f (last l 0)) eqn:F; cbn [andb Z.b2z].
  - assert (C1 : 1 <= count f l).
    { apply (count_pos f l (length l - 1)); [unfold zlen in Ln; lia|]. now rewrite <- last_nth. }
    rewrite (u64_id (count f l - 1)).
    2:{ assert (zlen l <= zlen l * ps) by nia. lia. }
    assert (0 <= (count f l - 1) * ps) by nia.
    assert ((count f l - 1) * ps = count f l * ps - ps) by ring.
    rewrite (u64_id ((count f l - 1) * ps)) by lia. rewrite u64_id by lia.
    destruct (Z.eqb_spec (fs mod ps) 0) as [E|E].
    + pose proof (last_mod0 ps fs (zlen l) S E). rewrite E. lia.
    + pose proof (last_mod ps fs (zlen l) S Ln) as X. destruct (Z.eqb_spec (fs mod ps) 0); [contradiction|]. lia.
  - rewrite u64_id by lia. lia.
Qed.

Lemma receivedBytes_ok p ps fs : flags_ok p -> exact p -> sizes_ok ps fs (zlen (pieces p)) -> pieces p <> [] ->
  getReceivedBytes p ps fs = sum_sizes received ps fs (zlen (pieces p)) 0 (pieces p)
    - (if received (last (pieces p) 0) && (fs mod ps =? 0) then ps else 0).
Proof.
  intros F (E & _) S H. unfold getReceivedBytes.
  destruct (Z.eqb_spec (zlen (pieces p)) 0) as [Z0|Z0]; [destruct (pieces p); [congruence|rewrite zlen_cons in Z0; pose proof (zlen_nonneg l); lia]|].
  rewrite flag_has by (rewrite last_nth by assumption; apply nth_flag, F). now apply bytes_core.
Qed.

Lemma selectedBytes_ok p ps fs : flags_ok p -> exact p -> sizes_ok ps fs (zlen (pieces p)) -> pieces p <> [] ->
  getReceivedSelectedBytes p ps fs = sum_sizes (fun x => received x && chosen x) ps fs (zlen (pieces p)) 0 (pieces p)
    - (if received (last (pieces p) 0) && chosen (last (pieces p) 0) && (fs mod ps =? 0) then ps else 0).
Proof.
  intros F (_ & _ & E) S H. unfold getReceivedSelectedBytes.
  destruct (Z.eqb_spec (zlen (pieces p)) 0) as [Z0|Z0]; [destruct (pieces p); [congruence|rewrite zlen_cons in Z0; pose proof (zlen_nonneg l); lia]|].
  assert (X : (last (pieces p) 0 =? HasFlag) = received (last (pieces p) 0) && chosen (last (pieces p) 0)).
  { assert (flag_ok (last (pieces p) 0)) as [->|[->|[->| ->]]] by (rewrite last_nth by assumption; apply nth_flag, F); reflexivity. }
  rewrite X. exact (bytes_core (fun x => received x && chosen x) _ ps fs (pieces p) S H E).
Qed.

Lemma short_from b n : forall i p, 0 <= i -> i + Z.of_nat n = zlen (pieces p) -> zlen (pieces p) <= 16777216 ->
  zlen b * 8 < zlen (pieces p) -> i <= zlen b * 8 -> fromBitfieldFrom n i b p = UB.
Proof.
  induction n as [|n IH]; intros i p Hi Hn HM HB Hb; [lia|]. cbn [fromBitfieldFrom].
  destruct (nth_error b (Z.to_nat (byteIndex i))) as [x|] eqn:E; [|reflexivity].
  assert (L : (Z.to_nat (byteIndex i) < length b)%nat) by (apply nth_error_Some; congruence).
  unfold byteIndex in L. rewrite f32_id in L by lia.
  rewrite piece_in by lia. cbn [bind].
  assert (X : forall d y, zlen (pieces (addReceived d (setPiece p i y))) = zlen (pieces p)) by (intros; prog; unfold zlen; now rewrite upd_length).
  apply IH; rewrite ?X; unfold zlen in *; lia.
Qed.

Lemma short_bitfield b p : 0 < zlen (pieces p) <= 16777216 -> zlen b * 8 < zlen (pieces p) -> fromBitfieldData b p = UB.
Proof.
  intros H1 H2. unfold fromBitfieldData. destruct (Z.eqb_spec (zlen (pieces p)) 0); [lia|].
  pose proof (zlen_nonneg b).
  assert (P : pieces (init (zlen (pieces p)) p) = pieces p) by (unfold init; cbn [pieces]; now rewrite Z.ltb_irrefl).
  apply short_from; rewrite ?P; lia.
Qed.
