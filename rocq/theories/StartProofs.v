From Coq Require Import Permutation.
From Verif Require Import Base BaseLemmas LayoutModel LayoutSpec LayoutProofs ProgressModel ProgressSpec ProgressProofs ProgressProps StorageModel CheckModel CheckSpec CheckProofs
  RoomModel RoomSpec RoomProofs StartModel StartSpec.

(** A progress of [n] pieces. *)
Definition fine (n : Z) (p : progress) : Prop := flags_ok p /\ exact p /\ zlen (pieces p) = n.

Lemma remove_fine n p i : fine n p -> 0 <= i < n -> exists q, removePiece i p = Ok q /\ fine n q /\
  forall j, 0 <= j -> is_received q j = is_received p j && negb (j =? i) /\ is_chosen q j = is_chosen p j.
Proof.
  intros (F & E & L) H. destruct (removePiece_ok p i F E ltac:(lia)) as (q & Q & F' & E' & L' & _). destruct (C19_remove p i F E ltac:(lia)) as (q' & Q' & _ & R).
  rewrite Q in Q'. injection Q' as <-. exists q. split; [assumption|]. split; [split; [assumption|split; [assumption|lia]]|assumption].
Qed.

Lemma add_fine n p i : fine n p -> 0 <= i < n -> n < 4294967296 -> exists q, addPiece i p = Ok q /\ fine n q /\
  forall j, 0 <= j < n -> is_received q j = is_received p j || (j =? i) /\ is_chosen q j = is_chosen p j.
Proof.
  intros (F & E & L) H N. destruct (addPiece_ok p i F E ltac:(lia)) as (q & Q & F' & E' & L' & _). destruct (C19_add p i F E ltac:(lia)) as (q' & Q' & _ & R & C).
  rewrite Q in Q'. injection Q' as <-. exists q. split; [assumption|]. split; [split; [assumption|split; [assumption|lia]]|]. intros j Hj. split; [apply R; lia|apply C; lia].
Qed.

Lemma removeRange_ok n : forall k i p, fine n p -> 0 <= i -> i + Z.of_nat k <= n -> exists q, removeRange k i p = Ok q /\ fine n q /\
  forall j, 0 <= j -> is_received q j = is_received p j && negb ((i <=? j) && (j <? i + Z.of_nat k)) /\ is_chosen q j = is_chosen p j.
Proof.
  induction k as [|k IH]; intros i p F I L; cbn [removeRange].
  - exists p. split; [reflexivity|]. split; [assumption|]. intros j J. split; [|reflexivity]. destruct (Z.leb_spec i j), (Z.ltb_spec j (i + Z.of_nat 0)); try lia; now rewrite andb_true_r.
  - destruct (remove_fine n p i F ltac:(lia)) as (q & -> & F' & R). cbn [bind]. destruct (IH (i + 1) q F' ltac:(lia) ltac:(lia)) as (r & -> & F2 & R2). exists r.
    split; [reflexivity|]. split; [assumption|]. intros j J. destruct (R j J) as [A B]. destruct (R2 j J) as [A2 B2]. split; [|congruence]. rewrite A2, A, <- andb_assoc. f_equal.
    destruct (Z.eqb_spec j i), (Z.leb_spec i j), (Z.leb_spec (i + 1) j), (Z.ltb_spec j (i + Z.of_nat (S k))), (Z.ltb_spec j (i + 1 + Z.of_nat k)); try lia; reflexivity.
Qed.

Lemma addPieces_ok n l : n < 4294967296 -> forall p, fine n p -> (forall i, In i l -> 0 <= i < n) -> exists q, addPieces l p = Ok q /\ fine n q /\
  forall j, 0 <= j < n -> (is_received q j = true <-> is_received p j = true \/ In j l) /\ is_chosen q j = is_chosen p j.
Proof.
  intros N. induction l as [|i l IH]; intros p F H; cbn [addPieces].
  - exists p. split; [reflexivity|]. split; [assumption|]. intros j J. split; [cbn; tauto|reflexivity].
  - destruct (add_fine n p i F) as (q & -> & F' & R); [apply H; now left|assumption|]. cbn [bind]. destruct (IH q F') as (r & -> & F2 & R2); [intros; apply H; now right|]. exists r.
    split; [reflexivity|]. split; [assumption|]. intros j J. destruct (R j J) as [A B]. destruct (R2 j J) as [A2 B2]. split; [|congruence]. rewrite A2, A, orb_true_iff, Z.eqb_eq. cbn [In].
    intuition congruence.
Qed.

Definition in_pieces (n : Z) (f : file) : Prop := 0 <= startPiece f <= endPiece f /\ endPiece f < n.

Lemma span_end n f : in_pieces n f -> startPiece f + Z.of_nat (span f) = endPiece f + 1.
Proof. unfold in_pieces, span. lia. Qed.

Lemma scanFile_ok n last f time wanted p : fine n p -> in_pieces n f -> (wanted = [] \/ zlen wanted = n) ->
  exists w' q, scanFile last f time (wanted, p) = Ok (w', q) /\ fine n q /\ (w' = [] \/ zlen w' = n) /\ (w' = [] <-> wanted = [] /\ newer last time = false) /\
    (forall j, 0 <= j -> nth (Z.to_nat j) w' false = nth (Z.to_nat j) wanted false || (newer last time && (startPiece f <=? j) && (j <=? endPiece f))) /\
    (forall j, 0 <= j -> is_received q j = is_received p j && negb (gone time && (startPiece f <=? j) && (j <=? endPiece f)) /\ is_chosen q j = is_chosen p j).
Proof.
  intros F I W. pose proof I as I'. destruct I' as [I1 I2]. pose proof (span_end n f I) as SP. unfold scanFile. pose proof F as (_ & _ & L).
  set (w0 := match wanted with [] => repeat false (length (pieces p)) | _ => wanted end).
  assert (W0 : zlen w0 = n /\ forall k, nth k w0 false = nth k wanted false).
  { destruct wanted as [|b wl]; [|unfold w0; split; [destruct W; [discriminate|assumption]|reflexivity]]. unfold w0. split; [unfold zlen in *; rewrite repeat_length; lia|].
    intros k. destruct (Nat.lt_ge_cases k (length (pieces p))); [rewrite nth_repeat|rewrite nth_overflow by (rewrite repeat_length; lia)]; now destruct k. }
  destruct W0 as [W1 W2].
  assert (M : exists w', (if last <? time then markFrom (span f) (startPiece f) w0 else Ok wanted) = Ok w' /\ (w' = [] \/ zlen w' = n) /\ (w' = [] <-> wanted = [] /\ newer last time = false) /\
    forall j, 0 <= j -> nth (Z.to_nat j) w' false = nth (Z.to_nat j) wanted false || (newer last time && (startPiece f <=? j) && (j <=? endPiece f))).
  { unfold newer. destruct (last <? time); cbn [andb].
    - destruct (markFrom_ok (span f) (startPiece f) w0) as (w' & -> & M1 & M2); [lia|lia|]. exists w'. split; [reflexivity|]. split; [right; lia|]. split.
      + split; [intros ->; exfalso; change (zlen (@nil bool)) with 0 in M1; lia|intros [_ X]; discriminate].
      + intros j J. rewrite M2, W2. f_equal. rewrite Z2Nat.id by assumption. f_equal. rewrite SP. destruct (Z.ltb_spec j (endPiece f + 1)), (Z.leb_spec j (endPiece f)); try lia; reflexivity.
    - exists wanted. split; [reflexivity|]. split; [assumption|]. split; [tauto|]. intros. now rewrite orb_false_r. }
  destruct M as (w' & -> & M1 & M2 & M3). cbn [bind]. unfold gone. destruct (time =? 0); cbn [andb].
  - destruct (removeRange_ok n (span f) (startPiece f) p F ltac:(lia) ltac:(lia)) as (q & -> & Q1 & Q2). exists w', q. split; [reflexivity|]. split; [assumption|]. split; [assumption|]. split; [assumption|]. split; [assumption|].
    intros j J. destruct (Q2 j J) as [A B]. split; [|assumption]. rewrite A. do 3 f_equal. rewrite SP. destruct (Z.ltb_spec j (endPiece f + 1)), (Z.leb_spec j (endPiece f)); try lia; reflexivity.
  - exists w', p. split; [reflexivity|]. split; [assumption|]. split; [assumption|]. split; [assumption|]. split; [assumption|]. intros. rewrite andb_true_r. auto.
Qed.

Lemma scanFiles_ok n last : forall fs ts wanted p, fine n p -> Forall (in_pieces n) fs -> length ts = length fs -> (wanted = [] \/ zlen wanted = n) ->
  exists w' q, scanFiles last fs ts (wanted, p) = Ok (w', q) /\ fine n q /\ (w' = [] \/ zlen w' = n) /\ (w' = [] <-> wanted = [] /\ Forall (fun x => newer last x = false) ts) /\
    (forall j, 0 <= j -> nth (Z.to_nat j) w' false = nth (Z.to_nat j) wanted false || reached (newer last) fs ts j) /\
    (forall j, 0 <= j -> is_received q j = is_received p j && negb (reached gone fs ts j) /\ is_chosen q j = is_chosen p j).
Proof.
  induction fs as [|f fs IH]; intros ts wanted p F I L W; cbn [scanFiles reached].
  - destruct ts; [|discriminate]. exists wanted, p. split; [reflexivity|]. split; [assumption|]. split; [assumption|]. split; [split; [auto|tauto]|].
    split; intros; [now rewrite orb_false_r|rewrite andb_true_r; auto].
  - destruct ts as [|x ts]; [discriminate|]. pose proof (Forall_inv I) as I1. apply Forall_inv_tail in I.
    destruct (scanFile_ok n last f x wanted p F I1 W) as (w1 & q1 & -> & F1 & A1 & A2 & A3 & A4). cbn [bind].
    destruct (IH ts w1 q1 F1 I ltac:(cbn in L; lia) A1) as (w2 & q2 & -> & F2 & B1 & B2 & B3 & B4). exists w2, q2.
    split; [reflexivity|]. split; [assumption|]. split; [assumption|]. split; [|split].
    + rewrite B2, A2. split; [intros [[X Y] Z]; split; [assumption|now constructor]|]. intros [X Y]. inversion Y; subst. auto.
    + intros j J. rewrite B3, A3 by assumption. now rewrite <- orb_assoc.
    + intros j J. destruct (A4 j J) as [X1 X2]. destruct (B4 j J) as [Y1 Y2]. split; [|congruence]. rewrite Y1, X1, <- andb_assoc, negb_orb. reflexivity.
Qed.

Lemma reached_spec c fs : forall ts p, reached c fs ts p = true <-> exists k, (k < length fs)%nat /\ (k < length ts)%nat /\ c (nth k ts 0) = true /\ touches (nth k fs noFile) p.
Proof.
  induction fs as [|f fs IH]; intros ts p; cbn [reached].
  - split; [discriminate|]. intros (k & K & _). cbn in K. lia.
  - destruct ts as [|x ts]; [split; [discriminate|intros (k & _ & K & _); cbn in K; lia]|].
    rewrite orb_true_iff, IH, !andb_true_iff, !Z.leb_le. split.
    + intros [((A & B) & C)|(k & K & K' & E & T)]; [exists 0%nat; split; [cbn; lia|split; [cbn; lia|split; [assumption|split; assumption]]]|].
      exists (S k). split; [cbn; lia|]. split; [cbn; lia|split; assumption].
    + intros ([|k] & K & K' & E & T); cbn [nth] in *; [left; destruct T; auto|right; exists k; split; [cbn in K; lia|split; [cbn in K'; lia|auto]]].
Qed.

Lemma newest_spec : forall ts m, (forall x, In x ts -> x <= fold_left (fun time fileTime => if fileTime >? time then fileTime else time) ts m) /\
  m <= fold_left (fun time fileTime => if fileTime >? time then fileTime else time) ts m.
Proof.
  induction ts as [|y ts IH]; intros m; cbn [fold_left]; [split; [intros x []|lia]|]. destruct (IH (if y >? m then y else m)) as [A B].
  destruct (Z.gtb_spec y m); (split; [intros x [<-|X]; [lia|now apply A]|lia]).
Qed.

Lemma in_upd {A} (x v : A) : forall l k, In x (upd k v l) -> x = v \/ In x l.
Proof. induction l as [|y l IH]; intros [|k] H; cbn in *; intuition. apply IH in H0. intuition. Qed.

Lemma allocTimes_own fs now available disk : forall l s, (forall k, stored (nth k disk None) <= fsize (nth k fs noFile)) ->
  (forall x, In x (snd (allocTimes fs now available l disk s)) -> x = now \/ In x (snd s)) /\
  (allocTimes fs now available l disk s = s \/ fst (allocTimes fs now available l disk s) = now).
Proof.
  induction l as [|[i size] l IH]; intros s H; cbn [allocTimes]; [auto|]. destruct (refused _ _ _); [auto|].
  assert (SH : shrinks (nth (Z.to_nat i) fs noFile) (nth (Z.to_nat i) disk None) size = false).
  { specialize (H (Z.to_nat i)). unfold shrinks. destruct (nth (Z.to_nat i) disk None) as [c|]; [|reflexivity]. cbn [stored] in H. destruct (Z.gtb_spec (zlen c) size), (Z.eqb_spec size (fsize (nth (Z.to_nat i) fs noFile))); cbn; try reflexivity; lia. }
  rewrite SH, orb_false_r. destruct (grows _ _); [|destruct s; cbn [fst snd]; apply IH; assumption].
  destruct (IH (now, upd (Z.to_nat i) now (snd s)) H) as [A B]. cbn [fst snd] in *. split.
  - intros x X. apply A in X. destruct X as [X|X]; [auto|]. now apply in_upd in X.
  - right. destruct B as [B|B]; [now rewrite B|assumption].
Qed.

Lemma nth_upd_other {A} (v d : A) : forall l k j, k <> j -> nth j (upd k v l) d = nth j l d.
Proof. induction l as [|y l IH]; intros [|k] [|j] H; cbn; try reflexivity; try contradiction. apply IH. congruence. Qed.

Lemma allocTimes_other fs now available disk k : forall l s, (forall i x, In (i, x) l -> Z.to_nat i <> k) ->
  nth k (snd (allocTimes fs now available l disk s)) 0 = nth k (snd s) 0.
Proof.
  induction l as [|[i size] l IH]; intros s H; cbn [allocTimes]; [reflexivity|]. destruct (refused _ _ _); [reflexivity|]. rewrite IH; [|intros; eapply H; right; eassumption]. cbn [snd].
  destruct (grows _ _ || _); [|reflexivity]. apply nth_upd_other. eapply H. now left.
Qed.
