From Verif Require Import Base BaseLemmas LayoutModel LayoutSpec LayoutProofs ProgressProofs StorageModel StorageSpec StorageProofs CheckModel CheckSpec CheckProofs RoomModel RoomSpec.

Lemma needed_zero ps o size w n : (forall p, 0 <= p < Z.of_nat n -> w p = true -> overlap ps o size p = 0) -> needed ps o size w n = 0.
Proof.
  induction n as [|k IH]; intros H; [reflexivity|]. cbn [needed]. rewrite IH by (intros; apply H; [lia|assumption]).
  destruct (w (Z.of_nat k)) eqn:E; [rewrite H by (lia || assumption)|]; lia.
Qed.

(** At most two pieces. *)
Lemma needed_one ps o size w a : forall n, 0 <= a < Z.of_nat n -> (forall p, 0 <= p < Z.of_nat n -> p <> a -> w p = true -> overlap ps o size p = 0) ->
  needed ps o size w n = if w a then overlap ps o size a else 0.
Proof.
  induction n as [|k IH]; intros A H; [lia|]. cbn [needed]. destruct (Z.eq_dec a (Z.of_nat k)) as [->|E].
  - rewrite needed_zero; [lia|]. intros p Hp. apply H; lia.
  - rewrite IH; [|lia|intros; apply H; (lia || assumption)]. destruct (w (Z.of_nat k)) eqn:W; [rewrite (H (Z.of_nat k)) by (lia || assumption)|]; lia.
Qed.

Lemma needed_two ps o size w a b : forall n, 0 <= a < b -> b < Z.of_nat n -> (forall p, 0 <= p < Z.of_nat n -> p <> a -> p <> b -> w p = true -> overlap ps o size p = 0) ->
  needed ps o size w n = (if w a then overlap ps o size a else 0) + (if w b then overlap ps o size b else 0).
Proof.
  induction n as [|k IH]; intros A B H; [lia|]. cbn [needed]. destruct (Z.eq_dec b (Z.of_nat k)) as [->|E].
  - rewrite (needed_one ps o size w a); [lia|lia|]. intros p Hp Np. apply H; lia.
  - rewrite IH; [|lia|lia|intros; apply H; (lia || assumption)]. destruct (w (Z.of_nat k)) eqn:W; [rewrite (H (Z.of_nat k)) by (lia || assumption)|]; lia.
Qed.

Lemma needed_all ps o size w n : 0 < ps -> 0 <= o -> 0 <= size -> (forall p, 0 <= p < Z.of_nat n -> w p = false -> overlap ps o size p = 0) ->
  needed ps o size w n = Z.max o (Z.min (o + size) (Z.of_nat n * ps)) - o.
Proof.
  intros P O S. induction n as [|k IH]; intros H; [cbn [needed]; lia|]. cbn [needed]. rewrite IH by (intros; apply H; [lia|assumption]).
  assert (X : (if w (Z.of_nat k) then overlap ps o size (Z.of_nat k) else 0) = overlap ps o size (Z.of_nat k)).
  { destruct (w (Z.of_nat k)) eqn:E; [reflexivity|]. symmetry. apply H; [lia|assumption]. }
  rewrite X. unfold overlap. rewrite Nat2Z.inj_succ, Z.mul_succ_l, Z.mul_add_distr_r. lia.
Qed.

Lemma needed_ext ps o size v w n : (forall p, 0 <= p < Z.of_nat n -> v p = w p) -> needed ps o size v n = needed ps o size w n.
Proof. induction n as [|k IH]; intros H; [reflexivity|]. cbn [needed]. rewrite IH by (intros; apply H; lia). now rewrite H by lia. Qed.

(** A piece the file does not reach has none of its bytes. *)
Lemma overlap_outside ps o f p : 0 < ps -> situated ps o f -> ~ touches f p -> overlap ps o (fsize f) p = 0.
Proof.
  intros P (S1 & S2 & S3 & S4 & S5 & S6 & _) T. unfold touches in T. unfold overlap.
  destruct (Z_lt_le_dec p (startPiece f)).
  - assert ((p + 1) * ps <= startPiece f * ps) by (apply Z.mul_le_mono_nonneg_r; lia). lia.
  - assert (endPiece f + 1 <= p) by lia. assert ((endPiece f + 1) * ps <= p * ps) by (apply Z.mul_le_mono_nonneg_r; lia).
    destruct (Z.eq_dec (fsize f) 0) as [E|E]; [rewrite E in *; rewrite (S5 eq_refl) in *; lia|]. specialize (S6 ltac:(lia)). lia.
Qed.

Lemma needed_selected ps o f w n : 0 < ps -> 0 <= o -> situated ps o f -> (forall p, touches f p -> w p = true) -> endPiece f < Z.of_nat n ->
  needed ps o (fsize f) w n = fsize f.
Proof.
  intros P O S W N. pose proof S as (S1 & S2 & S3 & S4 & S5 & S6 & _). rewrite needed_all; try lia.
  - assert ((endPiece f + 1) * ps <= Z.of_nat n * ps) by (apply Z.mul_le_mono_nonneg_r; lia).
    destruct (Z.eq_dec (fsize f) 0) as [E|E]; [rewrite E in *; lia|]. specialize (S6 ltac:(lia)). lia.
  - intros p Hp E. apply overlap_outside; try assumption. intros T. rewrite (W p T) in E. discriminate.
Qed.

(** The last piece of a file is only partly its own, or it has no other. *)
Definition end_shared (ps o : Z) (f : file) (w : Z -> bool) : Prop :=
  (o + fsize f) mod ps = 0 -> startPiece f < endPiece f -> w (endPiece f) = false.

Lemma needed_unselected ps o f w n : 0 < ps < 2147483648 -> 0 <= o -> o + fsize f < 9223372036854775808 -> situated ps o f -> endPiece f < Z.of_nat n ->
  (forall p, startPiece f < p < endPiece f -> w p = false) -> end_shared ps o f w ->
  needed ps o (fsize f) w n = sharedSize ps f (w (startPiece f)) (w (endPiece f)).
Proof.
  intros P O B S N W ES. pose proof S as (S1 & S2 & S3 & S4 & S5 & S6 & S7 & S8). unfold sharedSize.
  rewrite u32_id by lia. assert (u64e : forall x, 0 <= x < 18446744073709551616 -> u64 x = x) by (intros; now apply u64_id).
  assert (A : overlap ps o (fsize f) (startPiece f) = Z.min (ps - startPos f) (fsize f)).
  { unfold overlap. rewrite Z.mul_add_distr_r. destruct (Z.eq_dec (startPiece f) (endPiece f)); lia. }
  destruct (Z.eq_dec (startPiece f) (endPiece f)) as [E|E].
  - rewrite (needed_one ps o (fsize f) w (startPiece f)); [|lia|].
    + rewrite <- E, A. destruct (w (startPiece f)); [|reflexivity].
      assert (Z.min (ps - startPos f) (fsize f) = fsize f) as ->.
      { destruct (Z.eq_dec (fsize f) 0); [lia|]. specialize (S6 ltac:(lia)). rewrite <- E, Z.mul_add_distr_r in S6. lia. }
      rewrite u64e by lia. lia.
    + intros p Hp Np Wp. apply overlap_outside; [lia|assumption|]. intros [T1 T2]. lia.
  - rewrite (needed_two ps o (fsize f) w (startPiece f) (endPiece f)); [|lia|lia|].
    + rewrite A. assert (F0 : 0 < fsize f) by (destruct (Z.eq_dec (fsize f) 0) as [Y|Y]; [specialize (S5 Y)|]; lia). specialize (S6 F0).
      assert (M1 : (startPiece f + 1) * ps <= endPiece f * ps) by (apply Z.mul_le_mono_nonneg_r; lia). rewrite Z.mul_add_distr_r in M1.
      destruct (w (endPiece f)) eqn:We; [|destruct (w (startPiece f)); lia].
      assert (NM : (o + fsize f) mod ps <> 0). { intros M. unfold end_shared in ES. rewrite ES in We; [discriminate|assumption|lia]. }
      specialize (S8 NM). assert (overlap ps o (fsize f) (endPiece f) = endPos f) as -> by (unfold overlap; rewrite Z.mul_add_distr_r in *; lia).
      rewrite u64e by (destruct (w (startPiece f)); lia). destruct (w (startPiece f)); lia.
    + intros p Hp N1 N2 Wp. apply overlap_outside; [lia|assumption|]. intros [T1 T2]. rewrite W in Wp by lia. discriminate.
Qed.

Lemma situated_at ps fs : forall o k, all_situated ps o fs -> (k < length fs)%nat -> situated ps (o + total (firstn k (map fsize fs))) (nth k fs noFile).
Proof.
  induction fs as [|f fs IH]; intros o k S K; [cbn in K; lia|]. destruct S as [S1 S2]. destruct k as [|k].
  - cbn [firstn nth total fold_right]. now rewrite Z.add_0_r.
  - cbn [map firstn nth]. rewrite total_cons, Z.add_assoc. apply IH; [assumption|cbn in K; lia].
Qed.

Lemma sizes_positive ps fs : forall o, all_situated ps o fs -> Forall (fun s => 0 <= s) (map fsize fs).
Proof. induction fs as [|f fs IH]; intros o S; constructor; destruct S as [(_ & _ & S3 & _) S]; [assumption|eauto]. Qed.

Lemma total_firstn_step l : forall k d, (k < length l)%nat -> total (firstn (S k) l) = total (firstn k l) + nth k l d.
Proof.
  induction l as [|x l IH]; intros k d K; [cbn in K; lia|]. destruct k as [|k]; [cbn; lia|].
  cbn [length] in K. change (firstn (S (S k)) (x :: l)) with (x :: firstn (S k) l). change (firstn (S k) (x :: l)) with (x :: firstn k l).
  rewrite !total_cons, (IH k d) by lia. cbn [nth]. lia.
Qed.

Lemma total_firstn_mono l : Forall (fun s => 0 <= s) l -> forall j k, (j <= k)%nat -> total (firstn j l) <= total (firstn k l).
Proof.
  intros F. induction F as [|x l X F IH]; intros j k L; [now rewrite !firstn_nil|]. destruct j as [|j].
  - change (total (firstn 0 (x :: l))) with 0. apply total_nonneg. apply Forall_forall. intros y Y. assert (In y (x :: l)) as Z by (rewrite <- (firstn_skipn k (x :: l)); apply in_or_app; now left).
    destruct Z as [<-|Z]; [assumption|]. rewrite Forall_forall in F. auto.
  - destruct k as [|k]; [lia|]. cbn [firstn]. rewrite !total_cons. specialize (IH j k ltac:(lia)). lia.
Qed.

Lemma total_firstn_le l : Forall (fun s => 0 <= s) l -> forall k, total (firstn k l) <= total l.
Proof. intros F k. rewrite <- (firstn_all l) at 2. destruct (Nat.le_gt_cases k (length l)); [now apply total_firstn_mono|rewrite (firstn_all2 (n := k)) by lia; rewrite firstn_all; lia]. Qed.

(** Files follow each other. *)
Lemma ordered ps fs o j k : 0 < ps -> all_situated ps o fs -> (j < k < length fs)%nat ->
  endPiece (nth j fs noFile) <= startPiece (nth k fs noFile) /\
  ((o + total (firstn j (map fsize fs)) + fsize (nth j fs noFile)) mod ps = 0 -> 0 < fsize (nth j fs noFile) ->
    endPiece (nth j fs noFile) < startPiece (nth k fs noFile)).
Proof.
  intros P S [J K]. pose proof (situated_at ps fs o j S ltac:(lia)) as Sj. pose proof (situated_at ps fs o k S ltac:(lia)) as Sk.
  assert (L : total (firstn j (map fsize fs)) + fsize (nth j fs noFile) <= total (firstn k (map fsize fs))).
  { replace (fsize (nth j fs noFile)) with (nth j (map fsize fs) (fsize noFile)) by apply map_nth.
    rewrite <- total_firstn_step by (rewrite map_length; lia). apply total_firstn_mono; [eapply sizes_positive; eassumption|lia]. }
  set (f := nth j fs noFile) in *. set (g := nth k fs noFile) in *. set (a := total (firstn j (map fsize fs))) in *. set (b := total (firstn k (map fsize fs))) in *.
  destruct Sj as (S1 & S2 & S3 & S4 & S5 & S6 & S7 & S8). destruct Sk as (R1 & R2 & R3 & R4 & R5 & R6 & R7 & R8).
  split.
  - enough (endPiece f < startPiece g + 1) by lia. apply (mul_lt_cancel ps); [lia|]. rewrite Z.mul_add_distr_r.
    destruct (Z.eq_dec (fsize f) 0) as [E|E]; [rewrite (S5 E); lia|]. specialize (S6 ltac:(lia)). lia.
  - intros M F0. specialize (S6 F0).
    assert (X : o + a + fsize f = (endPiece f + 1) * ps).
    { pose proof (Z.div_mod (o + a + fsize f) ps ltac:(lia)) as D. rewrite M in D. set (q := (o + a + fsize f) / ps) in *.
      assert (endPiece f < q) by (apply (mul_lt_cancel ps); lia). assert (q < endPiece f + 2) by (apply (mul_lt_cancel ps); [lia|]; rewrite Z.mul_add_distr_r in *; lia).
      replace (endPiece f + 1) with q by lia. lia. }
    enough (endPiece f + 1 < startPiece g + 1) by lia. apply (mul_lt_cancel ps); [lia|]. rewrite <- X, Z.mul_add_distr_r. lia.
Qed.

Lemma wanted_spec fs : forall sel p, wanted_piece fs sel p = true <-> exists k, (k < length fs)%nat /\ nth k sel false = true /\ touches (nth k fs noFile) p.
Proof.
  induction fs as [|f fs IH]; intros sel p; cbn [wanted_piece].
  - split; [discriminate|]. intros (k & K & _). cbn in K. lia.
  - destruct sel as [|s sel]; [split; [discriminate|intros (k & _ & E & _); destruct k; discriminate]|].
    rewrite orb_true_iff, IH, !andb_true_iff, !Z.leb_le. split.
    + intros [((A & B) & C)|(k & K & E & T)]; [exists 0%nat; split; [cbn; lia|split; [assumption|split; assumption]]|].
      exists (S k). split; [cbn; lia|split; assumption].
    + intros ([|k] & K & E & T); cbn [nth] in *; [left; destruct T; auto|right; exists k; split; [cbn in K; lia|auto]].
Qed.

(** What the selection says of a file. *)
Definition fair (ps o : Z) (f : file) (s : bool) (w : Z -> bool) : Prop :=
  if s then forall p, touches f p -> w p = true else (forall p, startPiece f < p < endPiece f -> w p = false) /\ end_shared ps o f w.

Lemma all_fair ps fs o sel k : 0 < ps -> all_situated ps o fs -> (k < length fs)%nat ->
  fair ps (o + total (firstn k (map fsize fs))) (nth k fs noFile) (nth k sel false) (wanted_piece fs sel).
Proof.
  intros P S K. unfold fair. destruct (nth k sel false) eqn:E.
  - intros p T. apply wanted_spec. eauto.
  - assert (X : forall j p, (j < length fs)%nat -> nth j sel false = true -> touches (nth j fs noFile) p -> (j < k \/ k < j)%nat).
    { intros j p J Ej T. destruct (Nat.lt_trichotomy j k) as [?|[->|?]]; [lia|congruence|lia]. }
    split.
    + intros p Hp. apply not_true_is_false. intros W. apply wanted_spec in W. destruct W as (j & J & Ej & T). destruct (X j p J Ej T) as [L|L].
      * destruct (ordered ps fs o j k P S ltac:(lia)) as [Y _]. destruct T. lia.
      * destruct (ordered ps fs o k j P S ltac:(lia)) as [Y _]. destruct T. lia.
    + intros M N. apply not_true_is_false. intros W. apply wanted_spec in W. destruct W as (j & J & Ej & T). destruct (X j _ J Ej T) as [L|L].
      * destruct (ordered ps fs o j k P S ltac:(lia)) as [Y _]. destruct T. lia.
      * destruct (ordered ps fs o k j P S ltac:(lia)) as [_ Y]. specialize (Y M). destruct T.
        destruct (situated_at ps fs o k S K) as (_ & _ & S3 & _ & S5 & _). assert (0 < fsize (nth k fs noFile)) as F0 by (destruct (Z.eq_dec (fsize (nth k fs noFile)) 0) as [Z0|Z0]; [specialize (S5 Z0)|]; lia). specialize (Y F0). lia.
Qed.

Lemma markFrom_ok : forall n p l, 0 <= p -> p + Z.of_nat n <= zlen l -> exists l', markFrom n p l = Ok l' /\ zlen l' = zlen l /\
  forall q, nth q l' false = (nth q l false || ((p <=? Z.of_nat q) && (Z.of_nat q <? p + Z.of_nat n))).
Proof.
  induction n as [|n IH]; intros p l H0 HL; cbn [markFrom].
  - exists l. split; [reflexivity|]. split; [reflexivity|]. intros q. destruct (Z.leb_spec p (Z.of_nat q)), (Z.ltb_spec (Z.of_nat q) (p + Z.of_nat 0)); try lia; now rewrite orb_false_r.
  - destruct (Z.leb_spec 0 p); [|lia]. destruct (Z.ltb_spec p (zlen l)); [|lia]. cbn [andb].
    destruct (IH (p + 1) (upd (Z.to_nat p) true l)) as (l' & A & B & C); [lia|unfold zlen in *; rewrite upd_length; lia|].
    exists l'. split; [assumption|]. split; [unfold zlen in *; rewrite upd_length in B; lia|]. intros q. rewrite C, nth_upd.
    unfold zlen in *. destruct (Nat.eqb_spec q (Z.to_nat p)) as [->|E].
    + destruct (Nat.ltb_spec (Z.to_nat p) (length l)); [|lia]. cbn [orb andb].
      destruct (Z.leb_spec p (Z.of_nat (Z.to_nat p))), (Z.ltb_spec (Z.of_nat (Z.to_nat p)) (p + Z.of_nat (S n))); try lia.
    + cbn [andb]. f_equal. destruct (Z.leb_spec (p + 1) (Z.of_nat q)), (Z.leb_spec p (Z.of_nat q)), (Z.ltb_spec (Z.of_nat q) (p + 1 + Z.of_nat n)), (Z.ltb_spec (Z.of_nat q) (p + Z.of_nat (S n))); try lia; reflexivity.
Qed.

Lemma markFiles_ok n : forall fs sel l, length sel = length fs -> zlen l = n -> Forall (fun f => 0 <= startPiece f <= endPiece f /\ endPiece f < n) fs ->
  exists l', markFiles fs sel l = Ok l' /\ zlen l' = n /\ forall q, nth q l' false = (nth q l false || wanted_piece fs sel (Z.of_nat q)).
Proof.
  induction fs as [|f fs IH]; intros sel l L N F; cbn [markFiles wanted_piece].
  - exists l. split; [reflexivity|]. split; [assumption|]. intros. now rewrite orb_false_r.
  - destruct sel as [|s sel]; [discriminate|]. pose proof (Forall_inv F) as [F1 F1']. apply Forall_inv_tail in F. cbn [length] in L. destruct s; cbn [andb].
    + destruct (markFrom_ok (Z.to_nat (endPiece f + 1 - startPiece f)) (startPiece f) l) as (l1 & A & B & C); [lia|lia|]. rewrite A. cbn [bind].
      destruct (IH sel l1) as (l2 & A2 & B2 & C2); [lia|lia|assumption|]. exists l2. split; [assumption|]. split; [assumption|]. intros q. rewrite C2, C, <- orb_assoc. f_equal. f_equal. f_equal.
      destruct (Z.ltb_spec (Z.of_nat q) (startPiece f + Z.of_nat (Z.to_nat (endPiece f + 1 - startPiece f)))), (Z.leb_spec (Z.of_nat q) (endPiece f)); try lia; reflexivity.
    + cbn [bind orb]. apply IH; [lia|assumption|assumption].
Qed.

Lemma element_wanted (l : list bool) w p : 0 <= p < zlen l -> (forall q, (q < length l)%nat -> nth q l false = w (Z.of_nat q)) -> element l p = Ok (w p).
Proof.
  intros H W. destruct (element_ok l p H) as (a & -> & E). f_equal. specialize (W (Z.to_nat p)). rewrite Z2Nat.id in W by lia.
  rewrite <- W by (unfold zlen in H; lia). symmetry. now apply nth_error_nth.
Qed.

Lemma chooseFrom_ok ps w wp : 0 < ps < 2147483648 -> (forall q, (q < length wp)%nat -> nth q wp false = w (Z.of_nat q)) ->
  forall fs sel i o, all_situated ps o fs -> 0 <= o -> o + total (map fsize fs) < 9223372036854775808 -> length sel = length fs ->
    0 <= i -> i + zlen fs <= 4294967296 -> Forall (fun f => endPiece f < zlen wp) fs ->
    (forall k, (k < length fs)%nat -> fair ps (o + total (firstn k (map fsize fs))) (nth k fs noFile) (nth k sel false) w) ->
    chooseFrom ps i fs sel wp = Ok (demands ps (length wp) w i o fs sel).
Proof.
  intros P W. induction fs as [|f fs IH]; intros sel i o S O B L I IL F FA; [reflexivity|]. destruct sel as [|s sel]; [discriminate|].
  destruct S as [S0 S]. pose proof (Forall_inv F) as F1. apply Forall_inv_tail in F. rewrite zlen_cons in IL. cbn [map] in B. rewrite total_cons in B.
  pose proof S0 as (S1 & S2 & S3 & S4 & _). pose proof (total_nonneg _ (sizes_positive _ _ _ S)) as TN. pose proof (zlen_nonneg fs) as ZN.
  cbn [chooseFrom demands]. rewrite (IH sel (i + 1) (o + fsize f)); try assumption; try lia; [|cbn in L; lia|].
  - specialize (FA 0%nat ltac:(cbn; lia)). cbn [map firstn nth] in FA. change (total []) with 0 in FA. rewrite Z.add_0_r in FA.
    rewrite u32_id by lia. unfold fair in FA. destruct s; cbn [orb].
    + rewrite (needed_selected ps o f w) by (assumption || (unfold zlen in F1; lia)). reflexivity.
    + destruct FA as [FA1 FA2]. cbv beta in F1. rewrite !(element_wanted wp w) by (assumption || lia). cbn [bind].
      rewrite (needed_unselected ps o f w) by (assumption || (unfold zlen in F1; lia)). destruct (sharedSize _ _ _ _ =? 0); reflexivity.
  - intros k K. specialize (FA (Datatypes.S k) ltac:(cbn; lia)). cbn [map firstn nth] in FA. rewrite total_cons, Z.add_assoc in FA. exact FA.
Qed.

Lemma demands_ext ps n v w : (forall p, 0 <= p < Z.of_nat n -> v p = w p) -> forall fs sel i o, demands ps n v i o fs sel = demands ps n w i o fs sel.
Proof.
  intros H. induction fs as [|f fs IH]; intros sel i o; [reflexivity|]. destruct sel as [|s sel]; [reflexivity|]. cbn [demands].
  rewrite IH, (needed_ext ps o (fsize f) v w) by assumption. reflexivity.
Qed.

Lemma selectedFiles_ok t n sel : 0 < pieceSize t < 2147483648 -> all_situated (pieceSize t) 0 (files t) -> total (map fsize (files t)) < 9223372036854775808 ->
  length sel = length (files t) -> zlen (files t) <= 4294967296 -> 0 <= n -> Forall (fun f => endPiece f < n) (files t) ->
  selectedFiles t n sel = Ok (demands (pieceSize t) (Z.to_nat n) (wanted_piece (files t) sel) 0 0 (files t) sel).
Proof.
  intros P S B L Z N F. unfold selectedFiles.
  destruct (markFiles_ok n (files t) sel (repeat false (Z.to_nat n))) as (wp & A1 & A2 & A3); [assumption|unfold zlen; rewrite repeat_length; lia| |].
  { rewrite Forall_forall in F |- *. intros f Hf. split; [|now apply F]. apply (In_nth _ _ noFile) in Hf. destruct Hf as (k & K & <-).
    destruct (situated_at _ _ _ _ S K) as (_ & _ & _ & ? & _). assumption. }
  rewrite A1. cbn [bind]. replace (Z.to_nat n) with (length wp) by (unfold zlen in A2; lia).
  apply chooseFrom_ok; try assumption; try lia.
  - intros q _. rewrite A3. destruct (Nat.lt_ge_cases q (Z.to_nat n)); [rewrite nth_repeat|rewrite nth_overflow by (rewrite repeat_length; lia)]; reflexivity.
  - now rewrite A2.
  - intros k K. apply all_fair; (lia || assumption).
Qed.

Lemma only_length idx : forall n i, length (only idx i n) = n.
Proof. induction n; intros; cbn [only length]; congruence. Qed.

Lemma only_nth idx : forall n i k, (k < n)%nat -> nth k (only idx i n) false = (i + Z.of_nat k =? idx).
Proof.
  induction n as [|n IH]; intros i k K; [lia|]. destruct k as [|k]; cbn [only nth]; [now rewrite Z.add_0_r|]. rewrite IH by lia. f_equal. lia.
Qed.

Lemma skipn_cons {A} (d : A) l : forall i, (i < length l)%nat -> skipn i l = nth i l d :: skipn (S i) l.
Proof. induction l as [|x l IH]; intros i H; [cbn in H; lia|]. destruct i as [|i]; [reflexivity|]. cbn [skipn nth]. apply IH. cbn in H. lia. Qed.

Lemma only_skipn idx : forall n i k, (k <= n)%nat -> skipn k (only idx i n) = only idx (i + Z.of_nat k) (n - k).
Proof.
  induction n as [|n IH]; intros i k K; [destruct k; [reflexivity|lia]|]. destruct k as [|k]; [cbn [skipn]; rewrite Z.add_0_r; reflexivity|].
  cbn [only skipn]. rewrite IH by lia. replace (i + 1 + Z.of_nat k) with (i + Z.of_nat (S k)) by lia. reflexivity.
Qed.

Lemma demands_none ps n w fs : forall sel i o, 0 < ps -> all_situated ps o fs -> (forall k, (k < length fs)%nat -> nth k sel false = false) ->
  (forall k p, (k < length fs)%nat -> 0 <= p -> w p = true -> ~ touches (nth k fs noFile) p) -> demands ps n w i o fs sel = [].
Proof.
  induction fs as [|f fs IH]; intros sel i o P S N W; [reflexivity|]. destruct sel as [|s sel]; [reflexivity|]. destruct S as [S1 S2]. cbn [demands].
  rewrite needed_zero.
  - specialize (N 0%nat ltac:(cbn; lia)) as N0. cbn [nth] in N0. subst s. cbn [orb negb Z.eqb app]. apply IH; try assumption.
    + intros k K. apply (N (Datatypes.S k)). cbn; lia.
    + intros k p K. apply (W (Datatypes.S k) p). cbn; lia.
  - intros p Hp Wp. apply overlap_outside; try assumption. apply (W 0%nat p); [cbn; lia|lia|assumption].
Qed.

Lemma demands_app ps n w fs1 : forall fs2 sel1 sel2 i o, length sel1 = length fs1 ->
  demands ps n w i o (fs1 ++ fs2) (sel1 ++ sel2) = demands ps n w i o fs1 sel1 ++ demands ps n w (i + zlen fs1) (o + total (map fsize fs1)) fs2 sel2.
Proof.
  induction fs1 as [|f fs IH]; intros fs2 sel1 sel2 i o L.
  - destruct sel1; [|discriminate]. cbn [app map demands]. change (zlen (@nil file)) with 0. change (total []) with 0. now rewrite !Z.add_0_r.
  - destruct sel1 as [|s sel1]; [discriminate|]. cbn [app demands map]. rewrite IH by (cbn in L; lia). rewrite zlen_cons, total_cons, app_assoc, !Z.add_assoc. reflexivity.
Qed.

Lemma skipn_nth_add {A} (l : list A) k j d : (k + j < length l)%nat -> nth j (skipn k l) d = nth (k + j) l d.
Proof. revert k. induction l as [|x l IH]; intros k H; [cbn in H; lia|]. destruct k as [|k]; [reflexivity|]. cbn [skipn Nat.add nth]. apply IH. cbn in H. lia. Qed.

Lemma situated_from ps fs : forall k o, all_situated ps o fs -> all_situated ps (o + total (firstn k (map fsize fs))) (skipn k fs).
Proof.
  induction fs as [|f l IH]; intros k o S; [now rewrite skipn_nil|]. destruct k as [|k]; [cbn [firstn skipn]; change (total []) with 0; now rewrite Z.add_0_r|].
  destruct S as [_ S]. cbn [map firstn skipn]. rewrite total_cons, Z.add_assoc. now apply IH.
Qed.

Lemma nth_firstn' {A} (l : list A) d : forall k j, (j < k)%nat -> nth j (firstn k l) d = nth j l d.
Proof. induction l as [|x l IH]; intros k j H; [now rewrite firstn_nil|]. destruct k as [|k]; [lia|]. destruct j as [|j]; [reflexivity|]. cbn [firstn nth]. apply IH. lia. Qed.

Lemma forallb_ext' {A} (f g : A -> bool) l : (forall a, In a l -> f a = g a) -> forallb f l = forallb g l.
Proof. induction l as [|x l IH]; intros H; [reflexivity|]. cbn [forallb]. rewrite H by now left. rewrite IH; [reflexivity|]. intros; apply H; now right. Qed.

Section One.
Variables (ps : Z) (fs : list file) (idx : nat).
Hypothesis P : 0 < ps < 2147483648.
Hypothesis SIT : all_situated ps 0 fs.
Hypothesis TOT : total (map fsize fs) < 9223372036854775808.
Hypothesis IDX : (idx < length fs)%nat.
Hypothesis LEN : zlen fs <= 4294967296.
Let g := nth idx fs noFile.
Let sel := only (Z.of_nat idx) 0 (length fs).
Let at_ k := total (firstn k (map fsize fs)).
Let w := wanted_piece fs sel.

Lemma one_wanted p : w p = true <-> touches g p.
Proof.
  unfold w, sel. rewrite wanted_spec. split.
  - intros (k & K & E & T). rewrite only_nth in E by assumption. apply Z.eqb_eq in E. replace k with idx in T by lia. exact T.
  - intros T. exists idx. rewrite only_nth by assumption. rewrite Z.add_0_l, Z.eqb_refl. auto.
Qed.

Lemma one_wantedb p : w p = (startPiece g <=? p) && (p <=? endPiece g).
Proof. apply eq_true_iff_eq. rewrite one_wanted, andb_true_iff, !Z.leb_le. unfold touches. tauto. Qed.

Lemma one_shared k : (k < length fs)%nat -> ((k < idx)%nat /\ endPiece (nth k fs noFile) = startPiece g) \/ ((idx < k)%nat /\ startPiece (nth k fs noFile) <= endPiece g) ->
  let f := nth k fs noFile in
  sharedSize ps f (w (startPiece f)) (w (endPiece f)) = sharedSize ps f (startPiece f =? endPiece g) (endPiece f =? startPiece g).
Proof.
  intros K H f. pose proof (situated_at ps fs 0 k SIT K) as S. fold f in S, H. rewrite Z.add_0_l in S. fold (at_ k) in S.
  pose proof (situated_at ps fs 0 idx SIT IDX) as G. fold g in G. destruct G as (_ & _ & _ & G4 & _).
  pose proof S as (S1 & S2 & S3 & S4 & S5 & S6 & S7 & S8).
  assert (T0 : at_ k + fsize f <= total (map fsize fs)).
  { unfold at_, f. replace (fsize (nth k fs noFile)) with (nth k (map fsize fs) (fsize noFile)) by apply map_nth. rewrite <- total_firstn_step by (rewrite map_length; lia).
    apply total_firstn_le. eapply sizes_positive; eassumption. }
  assert (A0 : 0 <= at_ k). { apply total_nonneg. apply Forall_forall. intros x Hx. pose proof (sizes_positive _ _ _ SIT) as F. rewrite Forall_forall in F. apply F. rewrite <- (firstn_skipn k). apply in_or_app. now left. }
  rewrite !one_wantedb. destruct H as [[L E]|[L E]].
  - (* before *)
    destruct (ordered ps fs 0 k idx ltac:(lia) SIT ltac:(lia)) as [_ O2]. fold f g in O2. rewrite Z.add_0_l in O2. fold (at_ k) in O2. rewrite E, Z.eqb_refl.
    destruct (Z.leb_spec (startPiece g) (startPiece g)); [|lia]. destruct (Z.leb_spec (startPiece g) (endPiece g)); [|lia]. cbn [andb].
    destruct (Z.leb_spec (startPiece g) (startPiece f)); cbn [andb].
    + assert (Q : startPiece f = endPiece f) by lia. destruct (Z.leb_spec (startPiece f) (endPiece g)); [|lia].
      destruct (Z.eqb_spec (startPiece f) (endPiece g)); [reflexivity|]. unfold sharedSize. rewrite (u32_id (ps - startPos f)) by lia.
      destruct (Z.eq_dec (fsize f) 0) as [Z0|Z0].
      * rewrite Z0. rewrite !u64_id by lia. lia.
      * specialize (S6 ltac:(lia)). destruct (Z.eq_dec ((at_ k + fsize f) mod ps) 0) as [M|M]; [specialize (O2 M ltac:(lia)); lia|].
        specialize (S8 M). assert (Z.min (ps - startPos f) (fsize f) = fsize f) as -> by (rewrite Z.mul_add_distr_r, <- Q in S6; lia).
        rewrite !u64_id by lia. rewrite <- Q in S8. lia.
    + destruct (Z.eqb_spec (startPiece f) (endPiece g)); [lia|]. reflexivity.
  - destruct (ordered ps fs 0 idx k ltac:(lia) SIT ltac:(lia)) as [O1 _]. fold f g in O1. assert (Q : startPiece f = endPiece g) by lia. rewrite Q, Z.eqb_refl.
    destruct (Z.leb_spec (startPiece g) (endPiece g)); [|lia]. destruct (Z.leb_spec (endPiece g) (endPiece g)); [|lia]. cbn [andb].
    destruct (Z.leb_spec (startPiece g) (endPiece f)); [|lia]. cbn [andb].
    destruct (Z.leb_spec (endPiece f) (endPiece g)).
    + destruct (Z.eqb_spec (endPiece f) (startPiece g)); [reflexivity|]. unfold sharedSize. rewrite (u32_id (ps - startPos f)) by lia.
      assert (Z.min (ps - startPos f) (fsize f) = fsize f) as ->.
      { destruct (Z.eq_dec (fsize f) 0) as [Z0|Z0]; [lia|]. specialize (S6 ltac:(lia)). replace (endPiece f) with (startPiece f) in S6 by lia. rewrite Z.mul_add_distr_r in S6. lia. }
      rewrite u64_id by lia. lia.
    + destruct (Z.eqb_spec (endPiece f) (startPiece g)); [lia|]. reflexivity.
Qed.

Lemma all_from k : all_situated ps (at_ k) (skipn k fs).
Proof. unfold at_. rewrite <- (Z.add_0_l (total _)). now apply situated_from. Qed.

Lemma shareFrom_ok n : Forall (fun f => endPiece f < n) fs -> forall m k, (m = length fs - k)%nat -> (k <= length fs)%nat ->
  (forall j, (k <= j < idx)%nat -> endPiece (nth j fs noFile) = startPiece g) ->
  shareFrom ps (Z.of_nat k) (skipn k fs) (Z.of_nat idx) g = demands ps (Z.to_nat n) w (Z.of_nat k) (at_ k) (skipn k fs) (skipn k sel).
Proof.
  intros F. induction m as [|m IH]; intros k M K B.
  - replace k with (length fs) by lia. rewrite skipn_all. reflexivity.
  - assert (KL : (k < length fs)%nat) by lia. pose proof (situated_at ps fs 0 k SIT KL) as S. rewrite Z.add_0_l in S. fold (at_ k) in S.
    assert (FN : endPiece (nth k fs noFile) < n) by (rewrite Forall_forall in F; apply F; now apply nth_In).
    assert (T0 : 0 <= at_ k /\ at_ k + fsize (nth k fs noFile) <= total (map fsize fs)).
    { split. - apply total_nonneg. apply Forall_forall. intros x Hx. pose proof (sizes_positive _ _ _ SIT) as F'. rewrite Forall_forall in F'. apply F'. rewrite <- (firstn_skipn k). apply in_or_app. now left.
      - unfold at_. replace (fsize (nth k fs noFile)) with (nth k (map fsize fs) (fsize noFile)) by apply map_nth. rewrite <- total_firstn_step by (rewrite map_length; lia).
        apply total_firstn_le. eapply sizes_positive; eassumption. }
    assert (SK : skipn k sel = (Z.of_nat k =? Z.of_nat idx) :: skipn (Datatypes.S k) sel).
    { rewrite (skipn_cons false) by (unfold sel; rewrite only_length; lia). unfold sel. rewrite only_nth by lia. now rewrite Z.add_0_l. }
    assert (AT : at_ k + fsize (nth k fs noFile) = at_ (Datatypes.S k)).
    { unfold at_. replace (fsize (nth k fs noFile)) with (nth k (map fsize fs) (fsize noFile)) by apply map_nth. now rewrite <- total_firstn_step by (rewrite map_length; lia). }
    destruct (Z_lt_le_dec (endPiece g) (startPiece (nth k fs noFile))) as [BR|BR].
    + transitivity (@nil (Z * Z)).
      { rewrite (skipn_cons noFile fs) by lia. cbn [shareFrom]. destruct (Z.gtb_spec (startPiece (nth k fs noFile)) (endPiece g)); [reflexivity|lia]. }
      assert (IK : (idx < k)%nat).
      { destruct (Nat.lt_trichotomy idx k) as [?|[<-|?]]; [assumption| |].
        - fold g in S, BR. destruct S as (_ & _ & _ & S4 & _). lia.
        - destruct (ordered ps fs 0 k idx ltac:(lia) SIT ltac:(lia)) as [O1 _]. fold g in O1. destruct S as (_ & _ & _ & S4 & _).
          pose proof (situated_at ps fs 0 idx SIT IDX) as (_ & _ & _ & G4 & _). fold g in G4. lia. }
      symmetry. apply demands_none; [lia|apply all_from| |].
      * intros j J. rewrite skipn_length in J. unfold sel. rewrite only_skipn by lia. rewrite only_nth by lia. apply Z.eqb_neq. lia.
      * intros j p J Hp W T. rewrite skipn_length in J. apply one_wanted in W. rewrite (skipn_nth_add fs k j noFile) in T by lia.
        destruct W, T. assert (startPiece (nth k fs noFile) <= startPiece (nth (k + j) fs noFile)); [|lia].
        destruct j as [|j]; [now rewrite Nat.add_0_r|]. destruct (ordered ps fs 0 k (k + Datatypes.S j) ltac:(lia) SIT ltac:(lia)) as [O1 _]. destruct S as (_ & _ & _ & S4 & _). lia.
    + rewrite SK, (skipn_cons noFile fs) by lia. cbn [shareFrom demands]. destruct (Z.gtb_spec (startPiece (nth k fs noFile)) (endPiece g)); [lia|].
      replace (Z.of_nat k + 1) with (Z.of_nat (Datatypes.S k)) by lia. rewrite AT. rewrite IH by (lia || (intros; apply B; lia)). f_equal.
      destruct (Z.eqb_spec (Z.of_nat k) (Z.of_nat idx)) as [E|E]; cbn [orb].
      * assert (k = idx) by lia. subst k. fold g in S, FN |- *. rewrite needed_selected; try lia; try assumption; try reflexivity. intros p T. now apply one_wanted.
      * pose proof (all_fair ps fs 0 sel k ltac:(lia) SIT KL) as FA. fold w in FA. rewrite Z.add_0_l in FA. fold (at_ k) in FA. unfold sel in FA. rewrite only_nth in FA by lia.
        destruct (Z.eqb_spec (0 + Z.of_nat k) (Z.of_nat idx)); [lia|]. destruct FA as [FA1 FA2].
        assert (Q : (k < idx \/ idx < k)%nat) by lia.
        rewrite (needed_unselected ps (at_ k) (nth k fs noFile) w) by (assumption || lia). rewrite one_shared.
        -- rewrite u32_id by (unfold zlen in LEN; lia). destruct (sharedSize _ _ _ _ =? 0); reflexivity.
        -- assumption.
        -- destruct Q; [left; split; [assumption|apply B; lia]|right; auto].
Qed.
End One.

Lemma firstSharing_spec fs p : forall n, (firstSharing fs p n <= n)%nat /\ (forall j, (firstSharing fs p n <= j < n)%nat -> endPiece (nth j fs noFile) = p) /\
  (firstSharing fs p n = 0%nat \/ endPiece (nth (firstSharing fs p n - 1) fs noFile) <> p).
Proof.
  induction n as [|k (A & B & C)]; cbn [firstSharing]; [split; [lia|]; split; [intros; lia|now left]|].
  destruct (Z.eqb_spec (endPiece (nth k fs noFile)) p) as [E|E].
  - split; [lia|]. split; [|assumption]. intros j J. destruct (Nat.eq_dec j k) as [->|]; [assumption|]. apply B. lia.
  - split; [lia|]. split; [intros; lia|]. right. replace (Datatypes.S k - 1)%nat with k by lia. assumption.
Qed.

Lemma selectedFile_ok t n idx : 0 < pieceSize t < 2147483648 -> all_situated (pieceSize t) 0 (files t) -> total (map fsize (files t)) < 9223372036854775808 ->
  (idx < length (files t))%nat -> zlen (files t) <= 4294967296 -> Forall (fun f => endPiece f < n) (files t) ->
  let sel := only (Z.of_nat idx) 0 (length (files t)) in
  selectedFile t (Z.of_nat idx) = Ok (demands (pieceSize t) (Z.to_nat n) (wanted_piece (files t) sel) 0 0 (files t) sel).
Proof.
  intros P S T I L F sel. unfold selectedFile. destruct (element_ok (files t) (Z.of_nat idx)) as (g & -> & E); [unfold zlen; lia|]. cbn [bind]. f_equal.
  rewrite Nat2Z.id in *. apply nth_error_nth with (d := noFile) in E. subst g. set (g := nth idx (files t) noFile).
  destruct (firstSharing_spec (files t) (startPiece g) idx) as (A & B & C). set (k := firstSharing (files t) (startPiece g) idx) in *.
  pose proof (shareFrom_ok (pieceSize t) (files t) idx P S T I L n F _ k eq_refl ltac:(lia) B) as X. fold g in X. rewrite X. clear X. fold sel.
  set (w := wanted_piece (files t) sel). rewrite <- (firstn_skipn k (files t)) at 3. rewrite <- (firstn_skipn k sel) at 2. rewrite demands_app by (rewrite !firstn_length; unfold sel; rewrite only_length; reflexivity).
  rewrite (demands_none _ _ _ (firstn k (files t))).
  - cbn [app]. rewrite firstn_map. unfold zlen. rewrite firstn_length, Nat.min_l by lia. rewrite !Z.add_0_l. reflexivity.
  - lia.
  - clear - S. revert S. generalize 0 as o. generalize (files t) as fs. induction k as [|k IH]; intros fs o S; [exact I|]. destruct fs as [|f fs]; [exact I|]. destruct S as [S1 S2]. split; [assumption|now apply IH].
  - intros j J. rewrite firstn_length in J. rewrite nth_firstn' by lia. unfold sel. rewrite only_nth by lia. apply Z.eqb_neq. lia.
  - intros j p J Hp W X. rewrite firstn_length in J. rewrite nth_firstn' in X by lia. unfold w in W. apply one_wanted in W; [|assumption]. fold g in W.
    destruct C as [C|C]; [lia|]. 
    destruct (ordered (pieceSize t) (files t) 0 (k - 1) idx ltac:(lia) S ltac:(lia)) as [O1 _]. fold g in O1.
    assert (endPiece (nth j (files t) noFile) <= endPiece (nth (k - 1) (files t) noFile)).
    { destruct (Nat.eq_dec j (k - 1)) as [->|NE]; [lia|]. destruct (ordered (pieceSize t) (files t) 0 j (k - 1) ltac:(lia) S ltac:(lia)) as [O2 _].
      destruct (situated_at _ _ _ (k - 1)%nat S ltac:(lia)) as (_ & _ & _ & ? & _). lia. }
    destruct W, X. lia.
Qed.

Lemma stored_same d : stored d = sizeOf d.
Proof. destruct d; reflexivity. Qed.

Lemma sizeOf_nonneg d : 0 <= sizeOf d.
Proof. destruct d; cbn [sizeOf]; [apply zlen_nonneg|lia]. Qed.

Lemma lacking_bound disk l : Forall (fun p => 0 <= snd p) l -> 0 <= lacking disk l <= total (map snd l).
Proof.
  induction 1 as [|[i x] l H F IH]; cbn [lacking map fold_right fst snd total] in *; [lia|]. unfold lacking, total in *. rewrite stored_same. pose proof (sizeOf_nonneg (nth (Z.to_nat i) disk None)). lia.
Qed.

Lemma validate_ok disk available l : Forall (fun p => 0 <= snd p) l -> total (map snd l) < 18446744073709551616 ->
  validatePath disk available l = {| vEnough := lacking disk l <=? available; vMissing := lacking disk l; vRequired := total (map snd l) |}.
Proof.
  intros F T. unfold validatePath.
  assert (G : forall l m r, Forall (fun p => 0 <= snd p) l -> 0 <= m -> 0 <= r -> m + total (map snd l) < 18446744073709551616 -> r + total (map snd l) < 18446744073709551616 ->
    fold_left (fun '(m, r) '(i, size) => let existing := sizeOf (nth (Z.to_nat i) disk None) in
      (if existing <? size then u64 (m + (size - existing)) else m, u64 (r + size))) l (m, r) = (m + lacking disk l, r + total (map snd l))).
  { clear. induction l as [|[i x] l IH]; intros m r F M R B1 B2.
    - cbn [fold_left map]. unfold lacking. cbn [map fold_right]. change (total []) with 0. now rewrite !Z.add_0_r.
    - pose proof (Forall_inv F) as X. apply Forall_inv_tail in F. cbn [snd] in X. cbn [map snd] in B1, B2 |- *. rewrite total_cons in *. cbn [fold_left].
      pose proof (lacking_bound disk l F) as LB. pose proof (sizeOf_nonneg (nth (Z.to_nat i) disk None)) as E0. unfold lacking in *. cbn [map fold_right fst snd] in *. change (stored (nth (Z.to_nat i) disk None)) with (sizeOf (nth (Z.to_nat i) disk None)) in *. set (e := sizeOf _) in *.
      rewrite (u64_id (r + x)) by lia. destruct (Z.ltb_spec e x).
      + rewrite u64_id by lia. rewrite IH by (assumption || lia). f_equal; lia.
      + rewrite IH by (assumption || lia). f_equal; lia. }
  rewrite G by (assumption || lia). f_equal; lia.
Qed.

Lemma allocateFrom_length ps fs available l : forall disk, length (snd (allocateFrom ps fs available l disk)) = length disk.
Proof.
  induction l as [|[i x] l IH]; intros disk; [reflexivity|]. cbn [allocateFrom]. destruct (refused _ _ _); [reflexivity|]. now rewrite IH, upd_length.
Qed.

Lemma allocateFrom_other ps fs available l : forall disk k, (forall p, In p l -> Z.to_nat (fst p) <> k) -> nth k (snd (allocateFrom ps fs available l disk)) None = nth k disk None.
Proof.
  induction l as [|[i x] l IH]; intros disk k H; [reflexivity|]. cbn [allocateFrom]. destruct (refused _ _ _); [reflexivity|]. rewrite IH by (intros; apply H; now right).
  apply nth_upd_other. apply not_eq_sym, (H (i, x)). now left.
Qed.

Lemma allocateFrom_made ps fs available l : forall disk, NoDup (map (fun p => Z.to_nat (fst p)) l) -> (forall p, In p l -> Z.to_nat (fst p) < length disk)%nat ->
  fst (allocateFrom ps fs available l disk) = forallb (fun p => negb (refused available (nth (Z.to_nat (fst p)) disk None) (snd p))) l /\
  (fst (allocateFrom ps fs available l disk) = true -> forall i x, In (i, x) l ->
    nth (Z.to_nat i) (snd (allocateFrom ps fs available l disk)) None = preallocate ps (nth (Z.to_nat i) fs noFile) (nth (Z.to_nat i) disk None) x).
Proof.
  induction l as [|[j y] l IH]; intros disk N B; [split; [reflexivity|intros _ i x []]|]. cbn [map fst] in N. inversion N as [|? ? N1 N2]; subst. cbn [allocateFrom forallb fst snd].
  destruct (refused available (nth (Z.to_nat j) disk None) y) eqn:R; [split; [reflexivity|discriminate]|]. cbn [negb andb].
  set (disk' := upd _ _ _). assert (O : forall p, In p l -> nth (Z.to_nat (fst p)) disk' None = nth (Z.to_nat (fst p)) disk None).
  { intros p Hp. apply nth_upd_other. intros E. apply N1. rewrite <- E. apply in_map_iff. eauto. }
  destruct (IH disk' N2) as [I1 I2]; [intros p Hp; unfold disk'; rewrite upd_length; apply B; now right|]. split.
  - rewrite I1. apply forallb_ext'. intros p Hp. now rewrite O.
  - intros T i x [E|Hin]; [inversion E; subst i x|].
    + rewrite allocateFrom_other; [apply nth_upd_same; apply (B (j, y)); now left|]. intros p Hp E'. apply N1. rewrite <- E'. apply in_map_iff. eauto.
    + rewrite (I2 T i x Hin). f_equal. exact (O (i, x) Hin).
Qed.

Lemma overlap_nonneg ps o size p : 0 <= overlap ps o size p.
Proof. unfold overlap. lia. Qed.

Lemma needed_le ps o size w n : 0 < ps -> 0 <= o -> 0 <= size -> 0 <= needed ps o size w n <= size.
Proof.
  intros P O S. assert (A : 0 <= needed ps o size w n <= needed ps o size (fun _ => true) n).
  { induction n as [|k IH]; cbn [needed]; [lia|]. pose proof (overlap_nonneg ps o size (Z.of_nat k)). destruct (w (Z.of_nat k)); lia. }
  rewrite (needed_all ps o size (fun _ => true)) in A by (assumption || discriminate). lia.
Qed.

Lemma demands_in ps n w fs : forall sel i o j x, length sel = length fs -> In (j, x) (demands ps n w i o fs sel) <->
  exists k, (k < length fs)%nat /\ j = i + Z.of_nat k /\ x = needed ps (o + total (firstn k (map fsize fs))) (fsize (nth k fs noFile)) w n /\ (nth k sel false = true \/ x <> 0).
Proof.
  induction fs as [|f fs IH]; intros sel i o j x L; cbn [demands].
  - split; [intros []|]. intros (k & K & _). cbn in K. lia.
  - destruct sel as [|s sel]; [discriminate|]. rewrite in_app_iff, IH by (cbn in L; lia). split.
    + intros [H|(k & K & J & X & Y)].
      * exists 0%nat. split; [cbn; lia|]. cbn [map firstn nth]. change (total []) with 0. rewrite !Z.add_0_r.
        destruct s; cbn [orb] in H; [destruct H as [H|[]]; inversion H; auto|]. destruct (Z.eqb_spec (needed ps o (fsize f) w n) 0); cbn [negb] in H; [destruct H|]. destruct H as [H|[]]. inversion H. auto.
      * exists (S k). split; [cbn; lia|]. split; [lia|]. cbn [map firstn nth]. rewrite total_cons, Z.add_assoc. auto.
    + intros ([|k] & K & J & X & Y); cbn [map firstn nth] in X, Y.
      * change (total []) with 0 in X. rewrite Z.add_0_r in *. left. subst x j. destruct s; cbn [orb]; [left; reflexivity|]. destruct Y as [Y|Y]; [discriminate|].
        destruct (Z.eqb_spec (needed ps o (fsize f) w n) 0); [contradiction|]. left. reflexivity.
      * rewrite total_cons, Z.add_assoc in X. right. exists k. split; [cbn in K; lia|]. split; [lia|auto].
Qed.

Lemma demands_nodup ps n w fs : forall sel i o, length sel = length fs -> 0 <= i -> NoDup (map (fun p => Z.to_nat (fst p)) (demands ps n w i o fs sel)).
Proof.
  induction fs as [|f fs IH]; intros sel i o L I; cbn [demands]; [constructor|]. destruct sel as [|s sel]; [discriminate|].
  specialize (IH sel (i + 1) (o + fsize f) ltac:(cbn in L; lia) ltac:(lia)). destruct (_ || _); [|exact IH]. cbn [app map]. constructor; [|exact IH].
  intros H. apply in_map_iff in H. destruct H as ((j & x) & E & H). apply demands_in in H; [|cbn in L; lia]. destruct H as (k & _ & J & _). cbn [fst] in E. lia.
Qed.

Lemma demands_total ps n w fs : forall sel i o, 0 < ps -> 0 <= o -> all_situated ps o fs ->
  Forall (fun p => 0 <= snd p) (demands ps n w i o fs sel) /\ total (map snd (demands ps n w i o fs sel)) <= total (map fsize fs).
Proof.
  induction fs as [|f fs IH]; intros sel i o P O S; cbn [demands]; [split; [constructor|cbn; lia]|]. destruct sel as [|s sel].
  - split; [constructor|]. cbn [map]. apply total_nonneg. change (Forall (fun s => 0 <= s) (map fsize (f :: fs))). eapply sizes_positive; eassumption.
  - destruct S as [S1 S2]. pose proof S1 as (_ & _ & S3 & _). destruct (IH sel (i + 1) (o + fsize f) P ltac:(lia) S2) as [A B].
    pose proof (needed_le ps o (fsize f) w n P O S3) as N. destruct (_ || _); cbn [app map]; rewrite ?total_cons; cbn [map]; rewrite ?total_cons.
    + split; [constructor; [cbn [snd]; lia|assumption]|]. cbn [snd]. lia.
    + split; [assumption|]. lia.
Qed.

(** What the allocation does to one file. *)
Lemma preallocate_size ps f d x : 0 < ps < 2147483648 -> 0 <= startPos f < ps -> 0 <= endPos f <= ps -> 0 <= x <= fsize f ->
  ~ (sizeOf d = ps - startPos f + endPos f /\ sizeOf d < x /\ endPos f <> 0) ->
  exists c, preallocate ps f d x = Some c /\ zlen c = (if x =? fsize f then x else Z.max (sizeOf d) x) /\
    forall i, 0 <= i < zlen c -> zn c i = match d with Some c0 => zn c0 i | None => 0 end.
Proof.
  intros P S1 S2 X T. destruct d as [c|]; cbn [preallocate sizeOf] in *.
  - pose proof (zlen_nonneg c). destruct (Z.eqb_spec (zlen c) x) as [E|E].
    + exists c. split; [reflexivity|]. split; [destruct (x =? fsize f); lia|auto].
    + destruct (Z.gtb_spec (zlen c) x).
      * destruct (Z.eqb_spec x (fsize f)).
        -- eexists. split; [reflexivity|]. assert (L : zlen (firstn (Z.to_nat (fsize f)) c) = fsize f) by (unfold zlen in *; rewrite firstn_length; lia). rewrite L. split; [lia|]. intros i Hi. apply zn_firstn. lia.
        -- exists c. split; [reflexivity|]. split; [lia|auto].
      * rewrite (u32_id (ps - startPos f)), (u32_id (ps - startPos f + endPos f)) by lia.
        assert (Q : (zlen c =? ps - startPos f + endPos f) && negb (endPos f =? 0) = false).
        { apply andb_false_iff. rewrite negb_false_iff, Z.eqb_eq, Z.eqb_neq. destruct (Z.eq_dec (zlen c) (ps - startPos f + endPos f)), (Z.eq_dec (endPos f) 0); auto. exfalso. apply T. lia. }
        rewrite Q. destruct (Z.eqb_spec x 0); [lia|]. cbn [negb]. eexists. split; [reflexivity|].
        assert (L : zlen (writeAt c (x - 1) [0]) = x) by (rewrite zlen_writeAt, zlen_cons, zlen_nil by lia; lia). rewrite L. split; [destruct (x =? fsize f); lia|].
        intros i Hi. rewrite zn_writeAt by lia. rewrite zlen_cons, zlen_nil.
        destruct (Z.leb_spec (x - 1) i); destruct (Z.ltb_spec i (x - 1 + (1 + 0))); cbn [andb]; try reflexivity; try lia.
        replace (i - (x - 1)) with 0 by lia. symmetry. apply zn_oob. lia.
  - destruct (Z.eqb_spec x 0); cbn [negb].
    + exists []. subst. split; [reflexivity|]. split; [change (zlen (@nil Z)) with 0; destruct (0 =? fsize f); lia|]. intros i Hi. change (zlen (@nil Z)) with 0 in Hi. lia.
    + eexists. split; [reflexivity|]. assert (L : zlen (writeAt [] (x - 1) [0]) = x) by (rewrite zlen_writeAt, zlen_cons, zlen_nil by lia; change (zlen (@nil Z)) with 0; lia). rewrite L.
      split; [destruct (x =? fsize f); lia|]. intros i Hi. rewrite zn_writeAt by lia. rewrite zlen_cons, zlen_nil.
      destruct (Z.leb_spec (x - 1) i); destruct (Z.ltb_spec i (x - 1 + (1 + 0))); cbn [andb]; try lia; [|apply zn_oob; change (zlen (@nil Z)) with 0; lia].
      replace (i - (x - 1)) with 0 by lia. reflexivity.
Qed.
