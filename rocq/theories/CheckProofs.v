(** The check of stored pieces, file by file. *)
From Verif Require Import Base BaseLemmas LayoutModel LayoutSpec StorageModel StorageProofs LayoutProofs CheckModel CheckSpec.

(** [lia] with fewer hypotheses, first. *)
Ltac qlia := solve [repeat match goal with
  | H : @eq bool _ _ |- _ => clear H
  | H : _ \/ _ |- _ => clear H
  | H : _ <-> _ |- _ => clear H
  | H : ?A -> _ |- _ => match type of A with Prop => clear H end
  end; lia] || lia.


(** Where a file is, as the parser puts it. *)
Definition situated (ps o : Z) (f : file) : Prop :=
  startPiece f * ps + startPos f = o /\ 0 <= startPos f < ps /\ 0 <= fsize f /\ 0 <= startPiece f <= endPiece f /\
  (fsize f = 0 -> endPiece f = startPiece f) /\ (0 < fsize f -> endPiece f * ps < o + fsize f <= (endPiece f + 1) * ps) /\
  0 <= endPos f <= ps /\ ((o + fsize f) mod ps <> 0 -> endPiece f * ps + endPos f = o + fsize f).

Fixpoint all_situated (ps o : Z) (fs : list file) : Prop :=
  match fs with [] => True | f :: fs' => situated ps o f /\ all_situated ps (o + fsize f) fs' end.

Lemma element_ok {A} (l : list A) i : 0 <= i < zlen l -> exists a, element l i = Ok a /\ nth_error l (Z.to_nat i) = Some a.
Proof.
  intros H. unfold element. destruct (Z.ltb_spec i 0); [qlia|]. destruct (nth_error l (Z.to_nat i)) as [a|] eqn:E; [eauto|].
  apply nth_error_None in E. unfold zlen in H. qlia.
Qed.

Lemma zlen_readAt c p n : 0 <= p -> 0 <= n -> zlen (readAt c p n) = Z.min n (Z.max 0 (zlen c - p)).
Proof. intros. unfold readAt. rewrite zlen_slice. qlia. Qed.

Lemma zn_readAt c p n i : 0 <= p -> 0 <= i < n -> zn (readAt c p n) i = zn c (p + i).
Proof. intros. unfold readAt. rewrite zn_slice by qlia. f_equal. qlia. Qed.

Lemma zlen_firstn (l : list Z) n : 0 <= n -> zlen (firstn (Z.to_nat n) l) = Z.min n (zlen l).
Proof. intros. unfold zlen. rewrite firstn_length. qlia. Qed.

Lemma zn_firstnZ (l : list Z) n i : 0 <= i < n -> zn (firstn (Z.to_nat n) l) i = zn l i.
Proof. intros. apply zn_firstn. qlia. Qed.

Lemma fill_ok b p d : 0 <= p -> p + zlen d <= zlen b -> exists b', fill b p d = Ok b' /\ zlen b' = zlen b /\
  forall i, 0 <= i -> zn b' i = if (p <=? i) && (i <? p + zlen d) then zn d (i - p) else zn b i.
Proof.
  intros Hp Hl. unfold fill. destruct (Z.leb_spec (p + zlen d) (zlen b)); [|qlia]. eexists. split; [reflexivity|].
  assert (L1 : zlen (firstn (Z.to_nat p) b) = p) by (rewrite zlen_firstn; unfold zlen in *; qlia).
  assert (L2 : zlen (skipn (Z.to_nat p + length d) b) = zlen b - p - zlen d) by (unfold zlen in *; rewrite skipn_length; qlia).
  split; [unfold zlen in *; rewrite !app_length; qlia|]. intros i Hi.
  rewrite zn_app, L1 by qlia. destruct (Z.ltb_spec i p); destruct (Z.leb_spec p i); try qlia; cbn [andb].
  - apply zn_firstnZ. qlia.
  - rewrite zn_app by qlia. destruct (Z.ltb_spec (i - p) (zlen d)); destruct (Z.ltb_spec i (p + zlen d)); try qlia.
    rewrite zn_skipn by qlia. f_equal. unfold zlen in *. qlia.
Qed.

Lemma memory_ok b n : 0 <= n <= zlen b -> memory b 0 n = Ok (firstn (Z.to_nat n) b).
Proof. intros H. unfold memory. destruct (Z.leb_spec (0 + n) (zlen b)); [|qlia]. reflexivity. Qed.

Lemma div_le_N ps a b : 0 < ps -> a * ps <= b -> a <= b / ps.
Proof. intros. apply Z.div_le_lower_bound; qlia. Qed.

Lemma mul_lt_cancel ps a b : 0 < ps -> a * ps < b * ps -> a < b.
Proof. intros. now apply (Z.mul_lt_mono_pos_r ps). Qed.

Lemma mul_le_cancel ps a b : 0 < ps -> a * ps <= b * ps -> a <= b.
Proof. intros. now apply (Z.mul_le_mono_pos_r a b ps). Qed.

Lemma touch_range ps f o p : 0 < ps -> situated ps o f -> touches f p -> p * ps <= o + fsize f /\ o < (p + 1) * ps.
Proof.
  intros PS (S1 & S2 & S3 & S4 & S5 & S6 & S7 & S8) [T1 T2].
  assert (startPiece f * ps <= p * ps) by (apply Z.mul_le_mono_nonneg_r; qlia).
  assert (p * ps <= endPiece f * ps) by (apply Z.mul_le_mono_nonneg_r; qlia).
  split; [|qlia]. destruct (Z.eq_dec (fsize f) 0) as [E|E]; [rewrite (S5 E) in *; qlia|]. specialize (S6 ltac:(qlia)). qlia.
Qed.

Section Check.
Variable sha : list Z -> list Z.
Variables (ps : Z) (hashes : list (list Z)) (workers idx : Z) (wanted : list bool) (full : Z).
Hypothesis PS : 0 < ps < 2147483648.
Hypothesis FULL : 0 <= full.
Hypothesis LASTP : full mod ps <> 0.
Hypothesis NP : full / ps < 4294967295.
Hypothesis HH : zlen hashes = full / ps + 1.
Hypothesis WW : zlen wanted = full / ps + 1.

(** The worker looks at this piece. *)
Definition looked (p : Z) : Prop := p mod workers = idx /\ nth_error wanted (Z.to_nat p) = Some true.

(** The data has the hash of the piece. *)
Definition right (d : list Z) (p : Z) : Prop := nth_error hashes (Z.to_nat p) = Some (sha d).

Lemma mine_ok p : 0 <= p <= full / ps -> exists m, mine workers idx wanted p = Ok m /\ (m = true <-> looked p).
Proof.
  intros H. unfold mine, looked. destruct (Z.eqb_spec (p mod workers) idx) as [E|E].
  - destruct (element_ok wanted p) as (a & A1 & A2); [qlia|]. exists a. split; [assumption|]. rewrite A2. split; [intros ->; auto|]. intros (_ & [= ->]). reflexivity.
  - exists false. split; [reflexivity|]. split; [discriminate|]. intros (X & _). contradiction.
Qed.

Lemma verify_ok p n st : 0 <= p <= full / ps -> 0 <= n <= zlen (buffer st) -> exists st', verify sha hashes p n st = Ok st' /\
  buffer st' = buffer st /\ cur st' = cur st /\ checked st' = checked st /\
  (forall q, In q (added st') <-> In q (added st) \/ (q = p /\ right (firstn (Z.to_nat n) (buffer st)) p)).
Proof.
  intros Hp Hn. unfold verify. rewrite (memory_ok _ _ Hn). cbn [bind]. destruct (element_ok hashes p) as (h & H1 & H2); [qlia|].
  rewrite H1. cbn [bind]. eexists. split; [reflexivity|]. unfold right. rewrite H2.
  destruct (list_eqb (sha (firstn (Z.to_nat n) (buffer st))) h) eqn:E.
  - apply list_eqb_spec in E. subst h. cbn [buffer cur checked added In]. do 3 (split; [reflexivity|]). intros q. split.
    + intros [->|X]; auto.
    + intros [X|(-> & _)]; auto.
  - do 3 (split; [reflexivity|]). intros q. split; [auto|]. intros [X|(_ & [= X])]; [assumption|]. subst h. rewrite list_eqb_refl in E. discriminate.
Qed.

(** What a read of up to [n] bytes at [at_] does to stream and buffer. *)
Lemma readPiece_ok c at_ n s st : 0 <= cur st <= full / ps -> 0 <= at_ -> 0 <= n -> at_ + n <= zlen (buffer st) -> good s = true -> 0 <= pos s ->
  exists s' st', readPiece workers idx wanted c at_ n s st = Ok (s', st') /\ cur st' = cur st /\ added st' = added st /\ checked st' = checked st /\
    zlen (buffer st') = zlen (buffer st) /\
    (if good s' then pos s' = pos s + n else looked (cur st) /\ zlen c < pos s + n) /\
    (pos s + n <= zlen c -> good s' = true) /\
    (looked (cur st) -> forall i, 0 <= i -> zn (buffer st') i =
      let m := Z.min n (Z.max 0 (zlen c - pos s)) in if (at_ <=? i) && (i <? at_ + m) then zn c (pos s + (i - at_)) else zn (buffer st) i).
Proof.
  intros Hc Ha Hn Hl Hg Hp. unfold readPiece. destruct (mine_ok (cur st) Hc) as (m & M1 & M2). rewrite M1. cbn [bind].
  destruct m.
  - unfold sread. rewrite Hg. pose proof (zlen_readAt c (pos s) n Hp Hn) as L. set (d := readAt c (pos s) n) in *. cbv zeta.
    destruct (fill_ok (buffer st) at_ d Ha) as (b & B1 & B2 & B3); [qlia|]. rewrite B1. cbn [bind]. eexists; eexists. split; [reflexivity|].
    cbn [setBuffer cur added checked buffer good pos]. do 4 (split; [assumption || reflexivity|]).
    split; [|split].
    + destruct (Z.eqb_spec (zlen d) n); [qlia|]. split; [now apply M2|]. qlia.
    + intros X. apply Z.eqb_eq. qlia.
    + intros _ i Hi. rewrite B3 by assumption. rewrite L. destruct ((at_ <=? i) && (i <? at_ + _)) eqn:E; [|reflexivity].
      apply andb_true_iff in E. rewrite Z.leb_le, Z.ltb_lt in E. unfold d. rewrite zn_readAt by qlia. reflexivity.
  - eexists; eexists. split; [reflexivity|]. unfold sseek. rewrite Hg. cbn [good pos]. do 4 (split; [reflexivity|]).
    split; [reflexivity|]. split; [reflexivity|]. intros X. apply M2 in X. discriminate.
Qed.

Lemma end_in f o : situated ps o f -> 0 <= o /\ o + fsize f <= full -> endPiece f <= full / ps.
Proof.
  intros (S1 & S2 & S3 & S4 & S5 & S6 & S7 & S8) OB. apply div_le_N; [qlia|].
  destruct (Z.eq_dec (fsize f) 0) as [E|E]; [rewrite (S5 E); qlia|]. specialize (S6 ltac:(qlia)). qlia.
Qed.

(** The loop over the pieces of a whole file from piece [q] on. *)
Section Whole.
Variables (f : file) (o : Z) (c : list Z).
Hypothesis SIT : situated ps o f.
Hypothesis OB : 0 <= o /\ o + fsize f <= full.
Hypothesis CL : zlen c = fsize f.

Lemma covers_end q : (q + 1) * ps <= o + fsize f -> startPiece f <= q -> q <= endPiece f /\ q + 1 <= full / ps.
Proof.
  intros H Hq. destruct SIT as (S1 & S2 & S3 & S4 & S5 & S6 & S7 & S8). split; [|apply div_le_N; qlia].
  destruct (Z.eq_dec (fsize f) 0) as [E|E].
  - exfalso. assert ((startPiece f + 1) * ps <= (q + 1) * ps) by (apply Z.mul_le_mono_nonneg_r; qlia). qlia.
  - specialize (S6 ltac:(qlia)). enough (q + 1 <= endPiece f + 1) by qlia. apply (mul_le_cancel ps); qlia.
Qed.

Lemma whole_ok : forall fuel q s st, fuel = Z.to_nat (endPiece f + 1 - q) -> cur st = q -> startPiece f <= q -> zlen (buffer st) = ps ->
  (if good s then pos s = (q + 1) * ps - o else o + fsize f < (q + 1) * ps) ->
  exists s' st', wholePieces sha ps hashes workers idx wanted fuel f c s st = Ok (s', st') /\ zlen (buffer st') = ps /\
    cur st' = Z.max q ((o + fsize f) / ps) /\ checked st <= checked st' <= Z.max (checked st) (full / ps) /\
    (forall p, In p (added st) -> In p (added st')) /\
    (forall p, In p (added st') -> In p (added st) \/ (q <= p <= endPiece f /\ looked p)) /\
    (forall p, looked p -> q <= p -> (p + 1) * ps <= o + fsize f ->
       (In p (added st') <-> In p (added st) \/ right (if p =? q then buffer st else readAt c (p * ps - o) ps) p)) /\
    (forall p, q <= p -> o + fsize f < (p + 1) * ps -> (In p (added st') <-> In p (added st))) /\
    (forall p, looked p -> q <= p -> p * ps <= o + fsize f < (p + 1) * ps -> forall i, 0 <= i < o + fsize f - p * ps ->
       zn (buffer st') i = if p =? q then zn (buffer st) i else zn c (p * ps - o + i)).
Proof.
  pose proof SIT as (S1 & S2 & S3 & S4 & S5 & S6 & S7 & S8). pose proof (end_in f o SIT OB) as EI.
  assert (STOP : forall q (s : stream) st, cur st = q -> startPiece f <= q -> zlen (buffer st) = ps -> o + fsize f < (q + 1) * ps ->
    exists (s' : stream) st', Ok (s, st) = Ok (s', st') /\ zlen (buffer st') = ps /\
    cur st' = Z.max q ((o + fsize f) / ps) /\ checked st <= checked st' <= Z.max (checked st) (full / ps) /\
    (forall p, In p (added st) -> In p (added st')) /\
    (forall p, In p (added st') -> In p (added st) \/ (q <= p <= endPiece f /\ looked p)) /\
    (forall p, looked p -> q <= p -> (p + 1) * ps <= o + fsize f ->
       (In p (added st') <-> In p (added st) \/ right (if p =? q then buffer st else readAt c (p * ps - o) ps) p)) /\
    (forall p, q <= p -> o + fsize f < (p + 1) * ps -> (In p (added st') <-> In p (added st))) /\
    (forall p, looked p -> q <= p -> p * ps <= o + fsize f < (p + 1) * ps -> forall i, 0 <= i < o + fsize f - p * ps ->
       zn (buffer st') i = if p =? q then zn (buffer st) i else zn c (p * ps - o + i))).
  { intros q s st Hc Hq Hb Hs. exists s, st. split; [reflexivity|]. split; [assumption|].
    assert (D : (o + fsize f) / ps <= q) by (apply Z.lt_succ_r; unfold Z.succ; apply Z.div_lt_upper_bound; qlia).
    split; [qlia|]. split; [qlia|]. split; [auto|]. split; [auto|]. split; [|split].
    - intros p _ Hp X. exfalso. assert ((q + 1) * ps <= (p + 1) * ps) by (apply Z.mul_le_mono_nonneg_r; qlia). qlia.
    - tauto.
    - intros p _ Hp X i Hi. destruct (Z.eqb_spec p q); [reflexivity|]. exfalso.
      assert ((q + 1) * ps <= p * ps) by (apply Z.mul_le_mono_nonneg_r; qlia). qlia. }
  induction fuel as [|fuel IH]; intros q s st Hf Hc Hq Hb Hs; cbn [wholePieces].
  - apply STOP; try assumption. destruct (Z.lt_ge_cases (o + fsize f) ((q + 1) * ps)) as [X|X]; [assumption|].
    exfalso. destruct (covers_end q X Hq). qlia.
  - destruct (Z.lt_ge_cases (o + fsize f) ((q + 1) * ps)) as [X|X].
    + replace (good s && (pos s <=? fsize f) && (cur st <=? endPiece f)) with false; [now apply STOP|].
      symmetry. destruct (good s); [|reflexivity]. cbn [andb]. destruct (Z.leb_spec (pos s) (fsize f)); [qlia|reflexivity].
    + destruct (covers_end q X Hq) as [E1 E2]. destruct (good s) eqn:G; [|qlia].
      destruct (Z.leb_spec (pos s) (fsize f)); [|qlia]. destruct (Z.leb_spec (cur st) (endPiece f)); [|qlia]. cbn [andb].
      destruct (mine_ok (cur st)) as (m & M1 & M2); [qlia|]. rewrite M1. cbn [bind].
      assert (V : exists st1, (if m then verify sha hashes (cur st) ps st else Ok st) = Ok st1 /\ buffer st1 = buffer st /\ cur st1 = cur st /\
        checked st1 = checked st /\ (forall p, In p (added st1) <-> In p (added st) \/ (p = q /\ looked q /\ right (buffer st) q))).
      { destruct m.
        - destruct (verify_ok (cur st) ps st) as (st1 & V1 & V2 & V3 & V4 & V5); [qlia|qlia|]. exists st1. do 4 (split; [assumption|]).
          intros p. rewrite V5. rewrite Hc in *. replace (firstn (Z.to_nat ps) (buffer st)) with (buffer st).
          + assert (looked q) by (now apply M2). tauto.
          + symmetry. apply firstn_all2. unfold zlen in Hb. qlia.
        - exists st. do 4 (split; [reflexivity|]). intros p. split; [auto|]. intros [Y|(_ & Y & _)]; [assumption|]. rewrite Hc in M2. apply M2 in Y. discriminate. }
      destruct V as (st1 & V1 & V2 & V3 & V4 & V5). rewrite V1. cbn [bind]. cbv zeta. rewrite V3, Hc.
      rewrite (u32_id (q + 1)) by qlia.
      assert (PN : (startPiece f + 1) * ps <= (q + 1) * ps) by (apply Z.mul_le_mono_nonneg_r; qlia).
      destruct (readPiece_ok c 0 ps s (goTo (q + 1) st1)) as (s2 & st2 & R1 & R2 & R3 & R4 & R5 & R6 & R7 & R8);
        cbn [goTo cur buffer added checked] in *; rewrite ?V2 in *; try qlia; try assumption.
      rewrite R1. cbn [bind].
      destruct (IH (q + 1) s2 st2) as (s3 & st3 & I1 & I2 & I3 & I4 & I5 & I6 & I7 & I8 & I9); try qlia; try assumption.
      { destruct (good s2); qlia. }
      assert (E3 : q + 1 <= (o + fsize f) / ps) by (apply div_le_N; qlia).
      rewrite I1. exists s3, st3. split; [reflexivity|]. split; [assumption|]. split; [qlia|]. split; [qlia|]. split; [|split; [|split; [|split]]].
      * intros p Hp. apply I5. rewrite R3. apply V5. now left.
      * intros p Hp. apply I6 in Hp. rewrite R3 in Hp. destruct Hp as [Hp|(Hp & L)]; [|right; split; [qlia|assumption]].
        apply V5 in Hp. destruct Hp as [Hp|(-> & L & _)]; [now left|]. right. split; [qlia|assumption].
      * intros p L Hp Y. destruct (Z.eqb_spec p q) as [->|N].
        { split.
          - intros Z. apply I6 in Z. rewrite R3 in Z. destruct Z as [Z|(Z & _)]; [|qlia]. apply V5 in Z. tauto.
          - intros Z. apply I5. rewrite R3. apply V5. tauto. }
        rewrite (I7 p L ltac:(qlia) Y), R3, V5.
        replace (right (if p =? q + 1 then buffer st2 else readAt c (p * ps - o) ps) p) with (right (readAt c (p * ps - o) ps) p).
        { split; [intros [[Z|(Z & _)]|Z]; auto; qlia|]. tauto. }
        destruct (Z.eqb_spec p (q + 1)) as [->|]; [|reflexivity]. f_equal.
        assert (LR : zlen (readAt c ((q + 1) * ps - o) ps) = ps) by (rewrite zlen_readAt; qlia).
        apply list_zn_ext; [qlia|]. intros i Hi. rewrite R8 by (assumption || qlia). cbv zeta. rewrite zn_readAt by qlia.
        destruct (Z.leb_spec 0 i); [|qlia]. destruct (Z.ltb_spec i (0 + Z.min ps (Z.max 0 (zlen c - pos s)))); cbn [andb]; [f_equal; qlia|qlia].
      * intros p Hp Y. rewrite I8; [|destruct (Z.eq_dec p q) as [->|]; qlia|assumption]. rewrite R3, V5. split; [|auto]. intros [Z|(-> & _)]; [assumption|qlia].
      * intros p L Hp Y i Hi. destruct (Z.eqb_spec p q) as [->|N]; [qlia|]. rewrite (I9 p L ltac:(qlia) Y i Hi).
        destruct (Z.eqb_spec p (q + 1)) as [->|]; [|reflexivity]. rewrite R8 by (assumption || qlia). cbv zeta.
        destruct (Z.leb_spec 0 i); [|qlia]. destruct (Z.ltb_spec i (0 + Z.min ps (Z.max 0 (zlen c - pos s)))); cbn [andb]; [f_equal; qlia|qlia].
Qed.
(** The bytes of piece [p] after this file, when [b] holds those before it. *)
Definition with_part (b : list Z) (p : Z) : list Z :=
  firstn (Z.to_nat (Z.max 0 (o - p * ps))) b ++
  readAt c (Z.max 0 (p * ps - o)) (Z.min (o + fsize f) ((p + 1) * ps) - Z.max o (p * ps)).

Lemma with_part_len b p : touches f p -> zlen b = ps -> zlen (with_part b p) = Z.min (o + fsize f) ((p + 1) * ps) - p * ps.
Proof.
  intros T L. destruct (touch_range ps f o p (proj1 PS) SIT T). unfold with_part. unfold zlen at 1. rewrite app_length, Nat2Z.inj_add.
  fold (zlen (firstn (Z.to_nat (Z.max 0 (o - p * ps))) b)) (zlen (readAt c (Z.max 0 (p * ps - o)) (Z.min (o + fsize f) ((p + 1) * ps) - Z.max o (p * ps)))).
  destruct SIT as (S1 & S2 & S3 & _). rewrite zlen_firstn, zlen_readAt; qlia.
Qed.

Lemma with_part_zn b p i : touches f p -> zlen b = ps -> 0 <= i < Z.min (o + fsize f) ((p + 1) * ps) - p * ps ->
  zn (with_part b p) i = if i <? o - p * ps then zn b i else zn c (p * ps - o + i).
Proof.
  intros T L Hi. destruct (touch_range ps f o p (proj1 PS) SIT T). destruct SIT as (S1 & S2 & S3 & _). unfold with_part.
  assert (L1 : zlen (firstn (Z.to_nat (Z.max 0 (o - p * ps))) b) = Z.max 0 (o - p * ps)) by (rewrite zlen_firstn; qlia).
  rewrite zn_app, L1 by qlia. destruct (Z.ltb_spec i (Z.max 0 (o - p * ps))); destruct (Z.ltb_spec i (o - p * ps)); try qlia.
  - apply zn_firstnZ. qlia.
  - rewrite zn_readAt by qlia. f_equal. qlia.
Qed.

Lemma is_with_part b l p : touches f p -> zlen b = ps -> zlen l = Z.min (o + fsize f) ((p + 1) * ps) - p * ps ->
  (forall i, 0 <= i < zlen l -> zn l i = if i <? o - p * ps then zn b i else zn c (p * ps - o + i)) -> l = with_part b p.
Proof.
  intros T L Hl H. apply list_zn_ext; [rewrite with_part_len; assumption|]. intros i Hi. rewrite with_part_zn by (assumption || qlia). now apply H.
Qed.

Lemma checkWhole_ok isLast st : cur st = startPiece f -> zlen (buffer st) = ps -> (isLast = true -> o + fsize f = full) ->
  exists st', checkWhole sha ps hashes workers idx wanted isLast f c st = Ok st' /\ zlen (buffer st') = ps /\ cur st' <= endPiece f + 1 /\
    checked st <= checked st' <= Z.max (checked st) (full / ps) /\
    (forall p, In p (added st) -> In p (added st')) /\
    (forall p, In p (added st') -> In p (added st) \/ (touches f p /\ looked p)) /\
    (forall p, looked p -> touches f p ->
       if ((p + 1) * ps <=? o + fsize f) || isLast
       then In p (added st') <-> In p (added st) \/ right (with_part (buffer st) p) p
       else (In p (added st') <-> In p (added st)) /\ firstn (Z.to_nat (o + fsize f - p * ps)) (buffer st') = with_part (buffer st) p).
Proof.
  intros Hc Hb Hl. pose proof SIT as (S1 & S2 & S3 & S4 & S5 & S6 & S7 & S8). pose proof (end_in f o SIT OB) as EI.
  unfold checkWhole. cbv zeta. rewrite (u32_id (ps - startPos f)) by qlia.
  destruct (readPiece_ok c (startPos f) (ps - startPos f) {| good := true; pos := 0 |} st) as (s1 & st1 & R1 & R2 & R3 & R4 & R5 & R6 & R7 & R8);
    cbn [good pos] in *; try qlia; try reflexivity.
  rewrite R1. cbn [bind].
  destruct (whole_ok (Z.to_nat (endPiece f + 1 - cur st1)) (cur st1) s1 st1) as (s2 & st2 & W1 & W2 & W3 & W4 & W5 & W6 & W7 & W8 & W9); try qlia; try reflexivity.
  { destruct (good s1); qlia. }
  rewrite W1. cbn [bind].
  (* the buffer with the first piece *)
  assert (B0 : forall i, looked (startPiece f) -> 0 <= i < Z.min (o + fsize f) ((startPiece f + 1) * ps) - startPiece f * ps ->
    zn (buffer st1) i = zn (with_part (buffer st) (startPiece f)) i).
  { intros i L Hi. rewrite with_part_zn by (assumption || (split; qlia)). rewrite R8 by (rewrite ?Hc; assumption || qlia). cbv zeta.
    destruct (Z.ltb_spec i (o - startPiece f * ps)).
    - destruct (Z.leb_spec (startPos f) i); [qlia|]. reflexivity.
    - destruct (Z.leb_spec (startPos f) i); [|qlia]. destruct (Z.ltb_spec i (startPos f + Z.min (ps - startPos f) (Z.max 0 (zlen c - 0)))); [|qlia].
      cbn [andb]. f_equal. qlia. }
  assert (COV : forall p, looked p -> touches f p -> (p + 1) * ps <= o + fsize f -> 
    (In p (added st2) <-> In p (added st) \/ right (with_part (buffer st) p) p)).
  { intros p L T Y. rewrite (W7 p L) by (unfold touches in T; qlia). rewrite R3.
    replace (if p =? cur st1 then buffer st1 else readAt c (p * ps - o) ps) with (with_part (buffer st) p); [reflexivity|].
    pose proof (with_part_len (buffer st) p T Hb) as LW.
    destruct (Z.eqb_spec p (cur st1)) as [E|E].
    - apply list_zn_ext; [qlia|]. intros i Hi. rewrite R2, Hc in E. subst p. symmetry. apply B0; [assumption|qlia].
    - symmetry. apply is_with_part; [assumption|assumption| |].
      + rewrite zlen_readAt by (unfold touches in T; assert ((startPiece f + 1) * ps <= p * ps) by (apply Z.mul_le_mono_nonneg_r; qlia); qlia).
        unfold touches in T; assert ((startPiece f + 1) * ps <= p * ps) by (apply Z.mul_le_mono_nonneg_r; qlia). qlia.
      + assert ((startPiece f + 1) * ps <= p * ps) by (unfold touches in T; apply Z.mul_le_mono_nonneg_r; qlia).
        intros i Hi. rewrite zlen_readAt in Hi by qlia. rewrite zn_readAt by qlia. destruct (Z.ltb_spec i (o - p * ps)); [qlia|reflexivity]. }
  assert (TAIL : forall p, looked p -> touches f p -> o + fsize f < (p + 1) * ps -> 
    firstn (Z.to_nat (o + fsize f - p * ps)) (buffer st2) = with_part (buffer st) p).
  { intros p L T Y. destruct (touch_range ps f o p (proj1 PS) SIT T) as [T3 T4]. apply is_with_part; [assumption|assumption| |].
    - rewrite zlen_firstn; qlia.
    - intros i Hi. rewrite zlen_firstn in Hi by qlia. rewrite zn_firstnZ by qlia. rewrite (W9 p L) by (unfold touches in T; qlia).
      destruct (Z.eqb_spec p (cur st1)) as [E|E].
      + rewrite R2, Hc in E. subst p. rewrite B0 by (assumption || qlia). apply with_part_zn; [assumption|assumption|qlia].
      + assert ((startPiece f + 1) * ps <= p * ps) by (unfold touches in T; apply Z.mul_le_mono_nonneg_r; qlia).
        destruct (Z.ltb_spec i (o - p * ps)); [qlia|reflexivity]. }
  assert (CUR : cur st2 <= endPiece f + 1).
  { rewrite W3, R2, Hc. apply Z.max_lub; [qlia|]. apply Z.div_le_upper_bound; [qlia|].
    destruct (Z.eq_dec (fsize f) 0) as [E|E]; [|specialize (S6 ltac:(qlia)); qlia]. rewrite (S5 E). qlia. }
  assert (PLAIN : isLast = false \/ cur st2 <> endPiece f -> isLast = false -> exists st', Ok st2 = Ok st' /\ zlen (buffer st') = ps /\ cur st' <= endPiece f + 1 /\
    checked st <= checked st' <= Z.max (checked st) (full / ps) /\
    (forall p, In p (added st) -> In p (added st')) /\
    (forall p, In p (added st') -> In p (added st) \/ (touches f p /\ looked p)) /\
    (forall p, looked p -> touches f p ->
       if ((p + 1) * ps <=? o + fsize f) || isLast
       then In p (added st') <-> In p (added st) \/ right (with_part (buffer st) p) p
       else (In p (added st') <-> In p (added st)) /\ firstn (Z.to_nat (o + fsize f - p * ps)) (buffer st') = with_part (buffer st) p)).
  { intros _ ->. exists st2. split; [reflexivity|]. split; [assumption|]. split; [assumption|]. split; [qlia|]. split; [|split].
    - intros p Hp. apply W5. now rewrite R3.
    - intros p Hp. apply W6 in Hp. rewrite R3 in Hp. destruct Hp as [Hp|(Hp & L)]; [now left|]. right. split; [|assumption]. unfold touches. qlia.
    - intros p L T. rewrite orb_false_r. destruct (Z.leb_spec ((p + 1) * ps) (o + fsize f)) as [Y|Y]; [now apply COV|].
      split; [|now apply TAIL]. rewrite W8 by (unfold touches in T; qlia). now rewrite R3. }
  destruct isLast.
  - assert (LE : o + fsize f = full) by (now apply Hl). rewrite LE in S8. specialize (S8 LASTP).
    assert (NE : endPos f < ps).
    { destruct (Z.eq_dec (endPos f) ps) as [E|E]; [|qlia]. exfalso. apply LASTP. rewrite <- S8, E.
      replace (endPiece f * ps + ps) with ((endPiece f + 1) * ps) by ring. apply Z.mod_mul. qlia. }
    assert (CE : cur st2 = endPiece f).
    { rewrite W3, R2, Hc, LE. enough (full / ps = endPiece f) by qlia. symmetry. apply (Z.div_unique full ps (endPiece f) (endPos f)); qlia. }
    rewrite CE, Z.eqb_refl. cbn [andb]. destruct (mine_ok (endPiece f)) as (m & M1 & M2); [qlia|]. rewrite M1. cbn [bind].
    assert (V : exists st3, (if m then verify sha hashes (endPiece f) (endPos f) st2 else Ok st2) = Ok st3 /\ buffer st3 = buffer st2 /\ cur st3 = cur st2 /\
        checked st3 = checked st2 /\ (forall p, In p (added st3) <-> In p (added st2) \/ (p = endPiece f /\ looked p /\ right (firstn (Z.to_nat (endPos f)) (buffer st2)) p))).
    { destruct m.
      - destruct (verify_ok (endPiece f) (endPos f) st2) as (st3 & V1 & V2 & V3 & V4 & V5); [qlia|qlia|]. exists st3. do 4 (split; [assumption|]).
        intros p. rewrite V5. split; [intros [Y|(-> & Y)]; [now left|]|]; [|intros [Y|(-> & _ & Y)]; auto]. right. split; [reflexivity|]. split; [now apply M2|assumption].
      - exists st2. do 4 (split; [reflexivity|]). intros p. split; [auto|]. intros [Y|(-> & Y & _)]; [assumption|]. apply M2 in Y. discriminate. }
    destruct V as (st3 & V1 & V2 & V3 & V4 & V5). rewrite V1. cbn [bind]. eexists. split; [reflexivity|]. cbn [buffer cur checked added].
    rewrite V2, V3, V4, CE. rewrite u32_id by qlia. split; [assumption|]. split; [qlia|]. split; [qlia|]. split; [|split].
    + intros p Hp. apply V5. left. apply W5. now rewrite R3.
    + intros p Hp. apply V5 in Hp. destruct Hp as [Hp|(-> & L & _)].
      * apply W6 in Hp. rewrite R3 in Hp. destruct Hp as [Hp|(Hp & L)]; [now left|]. right. split; [|assumption]. unfold touches. qlia.
      * right. split; [|assumption]. unfold touches. qlia.
    + intros p L T. rewrite orb_true_r. rewrite V5. destruct (Z.lt_ge_cases (o + fsize f) ((p + 1) * ps)) as [Y|Y].
      * assert (PE : p = endPiece f).
        { unfold touches in T. enough (endPiece f < p + 1) by qlia. apply (mul_lt_cancel ps); qlia. }
        rewrite W8 by (unfold touches in T; qlia). rewrite R3. replace (endPos f) with (o + fsize f - p * ps) by (subst p; qlia).
        rewrite (TAIL p L T Y). subst p. tauto.
      * rewrite (COV p L T Y). assert (p <> endPiece f); [|tauto]. intros ->. qlia.
  - rewrite andb_false_r. apply PLAIN; auto.
Qed.
End Whole.
Section Temporary.
Variables (f : file) (o : Z).
Hypothesis SIT : situated ps o f.
Hypothesis OB : 0 <= o /\ o + fsize f <= full.

Lemma checkTemporary_ok c st : zlen (buffer st) = ps ->
  exists st', checkTemporary sha ps hashes workers idx wanted f c st = Ok st' /\ zlen (buffer st') = ps /\ cur st' = cur st /\
    checked st' = checked st /\
    (forall p, In p (added st) -> In p (added st')) /\
    (forall p, In p (added st') -> In p (added st) \/ (p = startPiece f /\ looked p)) /\
    (startPiece f < endPiece f -> ps - startPos f <= zlen c <= ps - startPos f + endPos f -> looked (startPiece f) ->
      (In (startPiece f) (added st') <-> In (startPiece f) (added st) \/
        right (firstn (Z.to_nat (startPos f)) (buffer st) ++ readAt c 0 (ps - startPos f)) (startPiece f))) /\
    (startPiece f < endPiece f -> zlen c = ps - startPos f + endPos f -> looked (endPiece f) ->
      firstn (Z.to_nat (endPos f)) (buffer st') = readAt c (ps - startPos f) (endPos f)).
Proof.
  intros Hb. pose proof SIT as (S1 & S2 & S3 & S4 & S5 & S6 & S7 & S8). pose proof (end_in f o SIT OB) as EI.
  unfold checkTemporary. cbv zeta. rewrite (u32_id (ps - startPos f)) by qlia. rewrite (u32_id (ps - startPos f + endPos f)) by qlia.
  destruct ((ps - startPos f <=? zlen c) && (zlen c <=? ps - startPos f + endPos f)) eqn:RANGE.
  2: { exists st. do 4 (split; [reflexivity || assumption|]). split; [auto|]. split; [auto|].
    apply andb_false_iff in RANGE. rewrite !Z.leb_gt in RANGE. split; intros; exfalso; qlia. }
  apply andb_true_iff in RANGE. rewrite !Z.leb_le in RANGE.
  destruct (mine_ok (startPiece f)) as (m & M1 & M2); [qlia|]. rewrite M1. cbn [bind].
  assert (FIRST : exists s st1, (if m then let '(d, s) := sread c {| good := true; pos := 0 |} (ps - startPos f) in
                      bind (fill (buffer st) (startPos f) d) (fun b =>
                        bind (verify sha hashes (startPiece f) ps (setBuffer b st)) (fun st => Ok (s, st)))
            else Ok (sseek {| good := true; pos := 0 |} (ps - startPos f), st)) = Ok (s, st1) /\
    good s = true /\ pos s = ps - startPos f /\ zlen (buffer st1) = ps /\ cur st1 = cur st /\ checked st1 = checked st /\
    (forall p, In p (added st1) <-> In p (added st) \/ (p = startPiece f /\ looked p /\
       right (firstn (Z.to_nat (startPos f)) (buffer st) ++ readAt c 0 (ps - startPos f)) p))).
  { destruct m.
    - unfold sread. cbn [good pos]. cbv zeta. pose proof (zlen_readAt c 0 (ps - startPos f) ltac:(qlia) ltac:(qlia)) as LD.
      set (d := readAt c 0 (ps - startPos f)) in *.
      destruct (fill_ok (buffer st) (startPos f) d) as (b & B1 & B2 & B3); [qlia|qlia|]. rewrite B1. cbn [bind].
      destruct (verify_ok (startPiece f) ps (setBuffer b st)) as (st1 & V1 & V2 & V3 & V4 & V5); cbn [setBuffer buffer cur checked added] in *; [qlia|qlia|].
      rewrite V1. cbn [bind]. eexists; exists st1. split; [reflexivity|]. cbn [good pos]. split; [apply Z.eqb_eq; qlia|]. split; [qlia|].
      split; [congruence|]. split; [assumption|]. split; [assumption|]. intros p. rewrite V5.
      replace (firstn (Z.to_nat ps) b) with (firstn (Z.to_nat (startPos f)) (buffer st) ++ d).
      + assert (looked (startPiece f)) by (now apply M2). split; [intros [Y|(-> & Y)]; auto|]. intros [Y|(-> & _ & Y)]; auto.
      + assert (LF : zlen (firstn (Z.to_nat (startPos f)) (buffer st)) = startPos f) by (rewrite zlen_firstn; qlia).
        apply list_zn_ext; [rewrite zlen_firstn by qlia; unfold zlen at 1; rewrite app_length, Nat2Z.inj_add;
          fold (zlen (firstn (Z.to_nat (startPos f)) (buffer st))) (zlen d); qlia|].
        intros i Hi. assert (i < ps).
        { unfold zlen in Hi at 1. rewrite app_length, Nat2Z.inj_add in Hi.
          fold (zlen (firstn (Z.to_nat (startPos f)) (buffer st))) (zlen d) in Hi. qlia. }
        rewrite zn_firstnZ, B3, zn_app, LF by qlia. destruct (Z.ltb_spec i (startPos f)).
        * rewrite zn_firstnZ by qlia. destruct (Z.leb_spec (startPos f) i); [qlia|reflexivity].
        * destruct (Z.leb_spec (startPos f) i); [|qlia]. destruct (Z.ltb_spec i (startPos f + zlen d)); [reflexivity|qlia].
    - eexists; exists st. split; [reflexivity|]. cbn [sseek good pos]. do 5 (split; [reflexivity || assumption|]).
      intros p. split; [auto|]. intros [Y|(-> & Y & _)]; [assumption|]. apply M2 in Y. discriminate. }
  destruct FIRST as (s & st1 & F1 & F2 & F3 & F4 & F5 & F6 & F7). rewrite F1. cbn [bind].
  assert (REST : exists st', (if zlen c =? ps - startPos f + endPos f then
          bind (mine workers idx wanted (endPiece f)) (fun m =>
            if m then bind (fill (buffer st1) 0 (fst (sread c s (endPos f)))) (fun b => Ok (setBuffer b st1)) else Ok st1)
        else Ok st1) = Ok st' /\ zlen (buffer st') = ps /\ cur st' = cur st1 /\ checked st' = checked st1 /\ added st' = added st1 /\
        (zlen c = ps - startPos f + endPos f -> looked (endPiece f) -> firstn (Z.to_nat (endPos f)) (buffer st') = readAt c (ps - startPos f) (endPos f))).
  { destruct (Z.eqb_spec (zlen c) (ps - startPos f + endPos f)) as [E|E].
    2: { exists st1. do 5 (split; [reflexivity || assumption|]). intros; contradiction. }
    destruct (mine_ok (endPiece f)) as (m2 & N1 & N2); [qlia|]. rewrite N1. cbn [bind]. destruct m2.
    2: { exists st1. do 5 (split; [reflexivity || assumption|]). intros _ Y. apply N2 in Y. discriminate. }
    unfold sread. rewrite F2. cbv zeta. cbn [fst]. rewrite F3.
    pose proof (zlen_readAt c (ps - startPos f) (endPos f) ltac:(qlia) ltac:(qlia)) as LD. set (d := readAt c (ps - startPos f) (endPos f)) in *.
    destruct (fill_ok (buffer st1) 0 d) as (b & B1 & B2 & B3); [qlia|qlia|]. rewrite B1. cbn [bind]. eexists. split; [reflexivity|].
    cbn [setBuffer buffer cur checked added]. split; [qlia|]. do 3 (split; [reflexivity|]). intros _ _.
    apply list_zn_ext; [rewrite zlen_firstn; qlia|]. intros i Hi. rewrite zlen_firstn in Hi by qlia. rewrite zn_firstnZ, B3 by qlia.
    destruct (Z.leb_spec 0 i); [|qlia]. destruct (Z.ltb_spec i (0 + zlen d)); [|qlia]. cbn [andb]. f_equal. qlia. }
  destruct REST as (st2 & G1 & G2 & G3 & G4 & G5 & G6). rewrite G1. exists st2. split; [reflexivity|]. split; [assumption|].
  split; [congruence|]. split; [congruence|]. rewrite G5. split; [|split; [|split]].
  - intros p Hp. apply F7. now left.
  - intros p Hp. apply F7 in Hp. tauto.
  - intros _ _ L. rewrite F7. tauto.
  - intros _ E L. now apply G6.
Qed.

(** One file. *)
Lemma checkFile_ok isLast d st : cur st = startPiece f -> zlen (buffer st) = ps -> (isLast = true -> o + fsize f = full) ->
  exists st', checkFile sha ps hashes workers idx wanted isLast f d st = Ok st' /\ zlen (buffer st') = ps /\
    checked st <= checked st' <= Z.max (checked st) (full / ps + 1) /\ (isLast = true -> endPiece f + 1 <= checked st') /\
    (forall p, In p (added st) -> In p (added st')) /\
    (forall p, In p (added st') -> In p (added st) \/ (touches f p /\ looked p)) /\
    (forall p, looked p -> touches f p -> keeps ps f d p -> (isLast = true -> p = endPiece f -> exists c, d = Some c /\ zlen c = fsize f) ->
       (startPiece f < p < endPiece f -> nth_error wanted (Z.to_nat (startPiece f)) = Some true \/ nth_error wanted (Z.to_nat (endPiece f)) = Some true) ->
       let X := firstn (Z.to_nat (Z.max 0 (o - p * ps))) (buffer st) ++ part ps f d p in
       if ((p + 1) * ps <=? o + fsize f) || isLast
       then In p (added st') <-> In p (added st) \/ right X p
       else (In p (added st') <-> In p (added st)) /\ firstn (Z.to_nat (o + fsize f - p * ps)) (buffer st') = X).
Proof.
  intros Hc Hb Hl. pose proof SIT as (S1 & S2 & S3 & S4 & S5 & S6 & S7 & S8). pose proof (end_in f o SIT OB) as EI.
  unfold checkFile. destruct (element_ok wanted (startPiece f)) as (a & A1 & A2); [qlia|]. rewrite A1. cbn [bind].
  destruct (element_ok wanted (endPiece f)) as (a' & A3 & A4); [qlia|].
  assert (W : (if a then Ok true else element wanted (endPiece f)) = Ok (a || a')) by (destruct a; [reflexivity|assumption]). rewrite W. cbn [bind].
  assert (WP : forall p, looked p -> touches f p -> (startPiece f < p < endPiece f -> nth_error wanted (Z.to_nat (startPiece f)) = Some true \/
    nth_error wanted (Z.to_nat (endPiece f)) = Some true) -> a || a' = true).
  { intros p (_ & L) [T1 T2] G. rewrite A2, A4 in G. apply orb_true_iff.
    destruct (Z.eq_dec p (startPiece f)) as [->|N1]; [left; congruence|]. destruct (Z.eq_dec p (endPiece f)) as [->|N2]; [right; congruence|].
    destruct G as [[= ->]|[= ->]]; [qlia| |]; auto. }
  assert (FB : first_byte ps f = o) by exact S1.
  assert (MID : exists st1, match d with
          | Some c => if a || a' then if zlen c =? fsize f then checkWhole sha ps hashes workers idx wanted isLast f c st
                      else checkTemporary sha ps hashes workers idx wanted f c st else Ok st
          | None => Ok st end = Ok st1 /\ zlen (buffer st1) = ps /\ cur st1 <= endPiece f + 1 /\
    checked st <= checked st1 <= Z.max (checked st) (full / ps) /\
    (forall p, In p (added st) -> In p (added st1)) /\
    (forall p, In p (added st1) -> In p (added st) \/ (touches f p /\ looked p)) /\
    (forall p, looked p -> touches f p -> keeps ps f d p -> (isLast = true -> p = endPiece f -> exists c, d = Some c /\ zlen c = fsize f) ->
       (startPiece f < p < endPiece f -> nth_error wanted (Z.to_nat (startPiece f)) = Some true \/ nth_error wanted (Z.to_nat (endPiece f)) = Some true) ->
       let X := firstn (Z.to_nat (Z.max 0 (o - p * ps))) (buffer st) ++ part ps f d p in
       if ((p + 1) * ps <=? o + fsize f) || isLast
       then In p (added st1) <-> In p (added st) \/ right X p
       else (In p (added st1) <-> In p (added st)) /\ firstn (Z.to_nat (o + fsize f - p * ps)) (buffer st1) = X)).
  { assert (SKIP : (forall p, looked p -> touches f p -> keeps ps f d p -> 
        (startPiece f < p < endPiece f -> nth_error wanted (Z.to_nat (startPiece f)) = Some true \/ nth_error wanted (Z.to_nat (endPiece f)) = Some true) -> False) ->
      exists st1, Ok st = Ok st1 /\ zlen (buffer st1) = ps /\ cur st1 <= endPiece f + 1 /\
      checked st <= checked st1 <= Z.max (checked st) (full / ps) /\
      (forall p, In p (added st) -> In p (added st1)) /\
      (forall p, In p (added st1) -> In p (added st) \/ (touches f p /\ looked p)) /\
      (forall p, looked p -> touches f p -> keeps ps f d p -> (isLast = true -> p = endPiece f -> exists c, d = Some c /\ zlen c = fsize f) ->
       (startPiece f < p < endPiece f -> nth_error wanted (Z.to_nat (startPiece f)) = Some true \/ nth_error wanted (Z.to_nat (endPiece f)) = Some true) ->
       let X := firstn (Z.to_nat (Z.max 0 (o - p * ps))) (buffer st) ++ part ps f d p in
       if ((p + 1) * ps <=? o + fsize f) || isLast
       then In p (added st1) <-> In p (added st) \/ right X p
       else (In p (added st1) <-> In p (added st)) /\ firstn (Z.to_nat (o + fsize f - p * ps)) (buffer st1) = X)).
    { intros NO. exists st. split; [reflexivity|]. split; [assumption|]. split; [qlia|]. split; [qlia|]. split; [auto|]. split; [auto|].
      intros p L T K _ G. exfalso. exact (NO p L T K G). }
    destruct d as [c|]; [|apply SKIP; intros p _ _ (c & X & _); discriminate].
    destruct (a || a') eqn:AA; [|apply SKIP; intros p L T _ G; specialize (WP p L T G); discriminate].
    destruct (Z.eqb_spec (zlen c) (fsize f)) as [E|E].
    - destruct (checkWhole_ok f o c SIT OB E isLast st Hc Hb Hl) as (st1 & W1 & W2 & W3 & W4 & W5 & W6 & W7).
      exists st1. do 6 (split; [assumption|]). intros p L T _ _ _. cbv zeta. unfold part. rewrite E, Z.eqb_refl, FB. exact (W7 p L T).
    - destruct (checkTemporary_ok c st Hb) as (st1 & T1 & T2 & T3 & T4 & T5 & T6 & T7 & T8). exists st1. split; [assumption|]. split; [assumption|].
      split; [qlia|]. split; [qlia|]. split; [assumption|]. split.
      { intros p Hp. apply T6 in Hp. destruct Hp as [Hp|(-> & L)]; [now left|]. right. split; [|assumption]. split; qlia. }
      intros p L T (c' & [= <-] & K) KL G. cbv zeta. unfold part. destruct (Z.eqb_spec (zlen c) (fsize f)) as [|_]; [contradiction|].
      destruct K as [K|(K1 & _ & [(-> & K2)|(-> & K2 & K4 & K3)])]; [contradiction| |].
      + rewrite Z.eqb_refl. destruct (Z.leb_spec ((startPiece f + 1) * ps) (o + fsize f)) as [Y|Y].
        * cbn [orb]. rewrite (T7 K1 K2 L). replace (Z.max 0 (o - startPiece f * ps)) with (startPos f) by qlia. reflexivity.
        * exfalso. destruct (Z.eq_dec (fsize f) 0) as [Z0|Z0]; [specialize (S5 Z0); qlia|]. specialize (S6 ltac:(qlia)).
          assert ((startPiece f + 1) * ps <= endPiece f * ps) by (apply Z.mul_le_mono_nonneg_r; qlia). qlia.
      + destruct (Z.eqb_spec (endPiece f) (startPiece f)); [qlia|]. unfold end_byte in K3. rewrite FB in K3.
        assert (NL : isLast = false).
        { destruct isLast; [|reflexivity]. destruct (KL eq_refl eq_refl) as (c' & [= <-] & E2). contradiction. }
        rewrite NL, orb_false_r.
        assert (OL : o - endPiece f * ps <= 0).
        { assert ((startPiece f + 1) * ps <= endPiece f * ps) by (apply Z.mul_le_mono_nonneg_r; qlia). qlia. }
        assert (SAME : In (endPiece f) (added st1) <-> In (endPiece f) (added st)).
        { split; [|apply T5]. intros Y. apply T6 in Y. destruct Y as [Y|(Y & _)]; [assumption|qlia]. }
        replace (Z.max 0 (o - endPiece f * ps)) with 0 by qlia. cbn [Z.to_nat firstn app].
        replace (o + fsize f - endPiece f * ps) with (endPos f) by qlia. specialize (T8 K1 K2 L).
        destruct (Z.leb_spec ((endPiece f + 1) * ps) (o + fsize f)) as [Y|Y]; [|split; assumption].
        exfalso. qlia. }
  destruct MID as (st1 & I1 & I2 & I3 & I4 & I5 & I6 & I7). rewrite I1. cbn [bind]. cbv zeta. eexists. split; [reflexivity|].
  cbn [goTo buffer added checked]. rewrite (u32_id (endPiece f + 1)) by qlia.
  split; [assumption|]. split; [|split; [|split; [assumption|split; assumption]]].
  - destruct isLast; [qlia|]. destruct (Z.ltb_spec (cur st1) (endPiece f)); qlia.
  - intros ->. qlia.
Qed.
End Temporary.
Lemma touchb f p : (startPiece f <=? p) && (p <=? endPiece f) = true <-> touches f p.
Proof. unfold touches. rewrite andb_true_iff, !Z.leb_le. reflexivity. Qed.

Lemma end_of_last f o : situated ps o f -> o + fsize f = full -> 0 <= o -> endPiece f = full / ps.
Proof.
  intros S E O. pose proof S as (S1 & S2 & S3 & S4 & S5 & S6 & S7 & S8). rewrite E in S8. specialize (S8 LASTP).
  assert (NE : endPos f < ps).
  { destruct (Z.eq_dec (endPos f) ps) as [X|X]; [|qlia]. exfalso. apply LASTP. rewrite <- S8, X.
    replace (endPiece f * ps + ps) with ((endPiece f + 1) * ps) by ring. apply Z.mod_mul. qlia. }
  apply (Z.div_unique full ps (endPiece f) (endPos f)); qlia.
Qed.

(** All files: nothing undefined happens, all pieces count as checked, only pieces of this worker are added. *)
Lemma checkFrom_runs : forall fs o disk st, fs <> [] -> length disk = length fs -> all_situated ps o fs -> 0 <= o ->
  o + total (map fsize fs) = full -> (match fs with f :: _ => cur st = startPiece f | [] => True end) -> zlen (buffer st) = ps ->
  checked st <= full / ps + 1 ->
  exists st', checkFrom sha ps hashes workers idx wanted fs disk st = Ok st' /\ checked st' = full / ps + 1 /\
    forall p, In p (added st') -> In p (added st) \/ (looked p /\ exists f, In f fs /\ touches f p).
Proof.
  induction fs as [|f fs IH]; intros o disk st NE LD S O T C B K; [contradiction|].
  destruct disk as [|d disk]; [discriminate|]. cbn [all_situated] in S. destruct S as [S SS]. cbn [map] in T.
  assert (T' : fsize f + total (map fsize fs) = total (fsize f :: map fsize fs)) by reflexivity.
  assert (TN : 0 <= total (map fsize fs)).
  { clear - SS. revert SS. generalize (o + fsize f). induction fs as [|g fs IH]; intros o' SS; [cbn; qlia|]. destruct SS as [(_ & _ & S3 & _) SS].
    cbn [map total fold_right]. specialize (IH _ SS). unfold total in IH. qlia. }
  assert (OB : 0 <= o /\ o + fsize f <= full) by (destruct S as (_ & _ & S3 & _); qlia).
  pose proof (end_in f o S OB) as EI. pose proof S as (S1 & S2 & S3 & S4 & _).
  cbn [checkFrom]. destruct (Z.ltb_spec (cur st) (zlen hashes)); [|qlia].
  destruct (checkFile_ok f o S OB (match fs with [] => true | _ => false end) d st C B) as (st1 & I1 & I2 & I3 & I4 & I5 & I6 & _).
  { destruct fs; [|discriminate]. intros _. cbn [map total fold_right] in T. qlia. }
  rewrite I1. cbn [bind]. destruct fs as [|g fs].
  - cbn [map total fold_right] in T. exists st1. split; [reflexivity|]. split.
    + specialize (I4 eq_refl). rewrite (end_of_last f o S) in I4 by qlia. qlia.
    + intros p Hp. apply I6 in Hp. destruct Hp as [Hp|(Hp & L)]; [now left|]. right. split; [assumption|]. exists f. split; [now left|assumption].
  - destruct (IH (o + fsize f) disk {| cur := startPiece g; buffer := buffer st1; added := added st1; checked := checked st1 |})
      as (st2 & J1 & J2 & J3); cbn [cur buffer checked added]; try discriminate; try assumption; try reflexivity; try qlia.
    { cbn [length] in LD |- *. qlia. }
    exists st2. split; [assumption|]. split; [assumption|]. intros p Hp. apply J3 in Hp. cbn [added] in Hp.
    destruct Hp as [Hp|(L & h & Hh & Th)].
    + apply I6 in Hp. destruct Hp as [Hp|(Hp & L)]; [now left|]. right. split; [assumption|]. exists f. split; [now left|assumption].
    + right. split; [assumption|]. exists h. split; [now right|assumption].
Qed.

(** Piece [p], whose bytes in the files before are [known]. *)
Lemma checkFrom_piece p : looked p -> 0 <= p -> p * ps < full ->
  forall fs o disk st known, fs <> [] -> length disk = length fs -> all_situated ps o fs -> 0 <= o ->
  o + total (map fsize fs) = full -> (match fs with f :: _ => cur st = startPiece f | [] => True end) -> zlen (buffer st) = ps ->
  all_keep ps fs disk p ->
  (forall f, In f fs -> startPiece f < p < endPiece f ->
     nth_error wanted (Z.to_nat (startPiece f)) = Some true \/ nth_error wanted (Z.to_nat (endPiece f)) = Some true) ->
  (o < (p + 1) * ps -> ~ In p (added st) /\ zlen known = Z.max 0 (o - p * ps) /\ firstn (Z.to_nat (zlen known)) (buffer st) = known) ->
  ((p + 1) * ps <= o -> (In p (added st) <-> right known p)) ->
  forall st', checkFrom sha ps hashes workers idx wanted fs disk st = Ok st' ->
  (In p (added st') <-> right (known ++ piece_data ps fs disk p) p).
Proof.
  intros L P0 PF. induction fs as [|f fs IH]; intros o disk st known NE LD S O T C B K G BEFORE DONE st' RUN; [contradiction|].
  destruct disk as [|d disk]; [discriminate|]. cbn [all_situated] in S. destruct S as [S SS]. cbn [map] in T.
  assert (T' : fsize f + total (map fsize fs) = total (fsize f :: map fsize fs)) by reflexivity.
  assert (TN : 0 <= total (map fsize fs)).
  { clear - SS. revert SS. generalize (o + fsize f). induction fs as [|g fs IH]; intros o' SS; [cbn; qlia|]. destruct SS as [(_ & _ & S3 & _) SS].
    cbn [map total fold_right]. specialize (IH _ SS). unfold total in IH. qlia. }
  assert (OB : 0 <= o /\ o + fsize f <= full) by (destruct S as (_ & _ & S3 & _); qlia).
  pose proof (end_in f o S OB) as EI. pose proof S as (S1 & S2 & S3 & S4 & S5 & S6 & S7 & S8).
  cbn [all_keep] in K. destruct K as [K KK].
  cbn [checkFrom] in RUN. destruct (Z.ltb_spec (cur st) (zlen hashes)); [|qlia].
  set (isLast := match fs with [] => true | _ => false end) in *.
  assert (LL : isLast = true -> o + fsize f = full).
  { unfold isLast. destruct fs; [|discriminate]. intros _. cbn [map total fold_right] in T. qlia. }
  destruct (checkFile_ok f o S OB isLast d st C B LL) as (st1 & I1 & I2 & _ & _ & I5 & I6 & I7).
  rewrite I1 in RUN. cbn [bind] in RUN.
  (* where the piece is *)
  assert (AFTER : (p + 1) * ps <= o -> ~ touches f p).
  { intros X [X1 X2]. assert (startPiece f * ps <= p * ps) by (apply Z.mul_le_mono_nonneg_r; qlia). qlia. }
  assert (NOT : ~ touches f p -> o < (p + 1) * ps -> o + fsize f <= p * ps).
  { intros X Y. assert (X1 : startPiece f <= p) by (enough (startPiece f < p + 1) by qlia; apply (mul_lt_cancel ps); qlia).
    assert (X2 : endPiece f + 1 <= p) by (unfold touches in X; qlia).
    assert ((endPiece f + 1) * ps <= p * ps) by (apply Z.mul_le_mono_nonneg_r; qlia).
    destruct (Z.eq_dec (fsize f) 0) as [E|E]; [rewrite (S5 E) in *; qlia|]. specialize (S6 ltac:(qlia)). qlia. }
  set (mid := if (startPiece f <=? p) && (p <=? endPiece f) then part ps f d p else []).
  assert (NEXT : (o + fsize f < (p + 1) * ps -> isLast = false -> ~ In p (added st1) /\ zlen (known ++ mid) = Z.max 0 (o + fsize f - p * ps) /\
        firstn (Z.to_nat (zlen (known ++ mid))) (buffer st1) = known ++ mid) /\
      ((p + 1) * ps <= o + fsize f \/ isLast = true -> (In p (added st1) <-> right (known ++ mid) p))).
  { unfold mid. destruct ((startPiece f <=? p) && (p <=? endPiece f)) eqn:TB.
    - apply touchb in TB. destruct (touch_range ps f o p (proj1 PS) S TB) as [Q1 Q2]. destruct (BEFORE Q2) as (B1 & B2 & B3).
      destruct (K TB) as [K1 K2]. specialize (I7 p L TB K1).
      assert (K3 : isLast = true -> p = endPiece f -> exists c, d = Some c /\ zlen c = fsize f).
      { intros X Y. apply K2; [|assumption]. unfold isLast in X. destruct fs; [reflexivity|discriminate]. }
      specialize (I7 K3 (G f (or_introl eq_refl))). cbv zeta in I7. rewrite <- B2, B3 in I7.
      destruct (Z.leb_spec ((p + 1) * ps) (o + fsize f)) as [Y|Y]; cbn [orb] in I7.
      + split; [intros; qlia|]. intros _. rewrite I7. tauto.
      + destruct isLast.
        * split; [discriminate|]. intros _. rewrite I7. tauto.
        * destruct I7 as [I7 I8]. split; [|intros [X|X]; [qlia|discriminate]]. intros _ _. rewrite I7. split; [assumption|].
          assert (LX : zlen (known ++ part ps f d p) = o + fsize f - p * ps) by (rewrite <- I8, zlen_firstn; qlia).
          rewrite LX. split; [qlia|assumption].
    - assert (NT : ~ touches f p) by (intros X; apply touchb in X; congruence). rewrite app_nil_r.
      assert (SAME : In p (added st1) <-> In p (added st)).
      { split; [|apply I5]. intros X. apply I6 in X. destruct X as [X|(X & _)]; [assumption|contradiction]. }
      destruct (Z.lt_ge_cases o ((p + 1) * ps)) as [Y|Y].
      + specialize (NOT NT Y). destruct (BEFORE Y) as (B1 & B2 & B3). split.
        * intros _ _. rewrite SAME. split; [assumption|]. rewrite B2. split; [qlia|].
          assert (Z.max 0 (o - p * ps) = 0) by qlia. assert (N0 : known = []) by (destruct known; [reflexivity|unfold zlen in *; cbn [length] in *; qlia]).
          rewrite N0. rewrite H0. reflexivity.
        * intros [X|X]; [qlia|]. specialize (LL X). qlia.
      + split; [intros; qlia|]. intros _. rewrite SAME. now apply DONE. }
  destruct NEXT as [N1 N2].
  cbn [piece_data]. fold mid. destruct fs as [|g fs].
  - inversion RUN; subst st'. cbn [piece_data]. rewrite app_nil_r. apply N2. now right.
  - rewrite app_assoc. apply (IH (o + fsize f) disk {| cur := startPiece g; buffer := buffer st1; added := added st1; checked := checked st1 |} (known ++ mid));
      cbn [cur buffer checked added]; try discriminate; try assumption; try reflexivity; try qlia.
    + cbn [length] in LD |- *. qlia.
    + intros h Hh. apply G. now right.
    + intros X. now apply N1.
    + intros X. apply N2. now left.
Qed.
End Check.
