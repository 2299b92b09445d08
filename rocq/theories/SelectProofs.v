From Verif Require Import Base BaseLemmas LayoutModel LayoutSpec LayoutProofs LayoutProps ProgressModel ProgressSpec ProgressProofs ProgressProofs2 SelectModel.

Definition contains (f : file) (p : Z) : Prop := startPiece f <= p <= endPiece f.

(** The files are in the order of their pieces. *)
Definition ordered (fs : list file) : Prop :=
  Forall (fun f => 0 <= startPiece f <= endPiece f /\ endPiece f < 4294967295) fs /\
  forall k, (S k < length fs)%nat -> endPiece (nth k fs noFile) <= startPiece (nth (S k) fs noFile).

(** No piece is shared by three files. *)
Definition no_triple (fs : list file) : Prop :=
  forall k, (S (S k) < length fs)%nat -> endPiece (nth k fs noFile) < startPiece (nth (S (S k)) fs noFile).

(** Some selected file contains the piece. *)
Definition wanted (fs : list file) (sel : list bool) (p : Z) : Prop :=
  exists k, (k < length fs)%nat /\ nth k sel false = true /\ contains (nth k fs noFile) p.

Definition selection_ok (fs : list file) (sp : list bool * progress) : Prop :=
  length (fst sp) = length fs /\ flags_ok (snd sp) /\ exact (snd sp) /\
  Forall (fun f => endPiece f < zlen (pieces (snd sp))) fs /\
  forall p, 0 <= p < zlen (pieces (snd sp)) -> is_chosen (snd sp) p = true <-> wanted fs (fst sp) p.

Lemma ordered_range fs k : ordered fs -> (k < length fs)%nat -> 0 <= startPiece (nth k fs noFile) <= endPiece (nth k fs noFile) /\ endPiece (nth k fs noFile) < 4294967295.
Proof. intros [F _] H. rewrite Forall_forall in F. apply F. now apply nth_In. Qed.

Lemma ordered_lt fs : ordered fs -> forall d j, (j + S d < length fs)%nat ->
  endPiece (nth j fs noFile) <= startPiece (nth (j + S d) fs noFile).
Proof.
  intros O. induction d as [|d IH]; intros j H.
  - replace (j + 1)%nat with (S j) by lia. apply O. lia.
  - etransitivity; [apply IH; lia|]. replace (j + S (S d))%nat with (S (j + S d)) by lia.
    etransitivity; [|apply O; lia]. apply (ordered_range fs (j + S d) O). lia.
Qed.

Lemma ordered_between fs j k : ordered fs -> (j < k < length fs)%nat -> endPiece (nth j fs noFile) <= startPiece (nth k fs noFile).
Proof. intros O H. replace k with (j + S (k - j - 1))%nat by lia. apply ordered_lt; [assumption|lia]. Qed.

(** [keepStart] finds every earlier selected file which contains the piece. *)
Lemma keepStart_spec fs sel s : ordered fs -> forall n, (n <= length fs)%nat ->
  (forall j, (j < n)%nat -> endPiece (nth j fs noFile) <= s) ->
  keepStart fs sel s n = true <-> exists j, (j < n)%nat /\ nth j sel false = true /\ contains (nth j fs noFile) s.
Proof.
  intros O. induction n as [|i IH]; intros Hn Hle; cbn [keepStart].
  - split; [discriminate|]. intros (j & H & _). lia.
  - destruct (ordered_range fs i O) as [R1 R2]; [lia|].
    destruct (Z.eqb_spec (endPiece (nth i fs noFile)) s) as [E|E].
    + destruct (nth i sel false) eqn:S.
      * split; [intros _|reflexivity]. exists i. split; [lia|]. split; [assumption|]. unfold contains. lia.
      * rewrite IH by (try lia; intros; apply Hle; lia). split; intros (j & H1 & H2 & H3); exists j; repeat split; try assumption; try apply H3; try lia.
        destruct (Nat.eq_dec j i) as [->|]; [congruence|lia].
    + split; [discriminate|]. intros (j & H1 & H2 & H3). exfalso. unfold contains in H3.
      assert (endPiece (nth i fs noFile) <= s) by (apply Hle; lia).
      destruct (Nat.eq_dec j i) as [->|N]; [lia|].
      assert (endPiece (nth j fs noFile) <= startPiece (nth i fs noFile)) by (apply ordered_between; [assumption|lia]). lia.
Qed.

Lemma keepEnd_spec fs sel idx : ordered fs -> no_triple fs -> (idx + 1 < length fs)%nat -> nth idx sel false = false ->
  let e := endPiece (nth idx fs noFile) in
  keepEnd fs sel e (idx + 2) = true <-> exists j, (idx < j < length fs)%nat /\ nth j sel false = true /\ contains (nth j fs noFile) e.
Proof.
  intros O T Hi Hs e. replace (idx + 2)%nat with (S (S idx)) by lia. cbn [keepEnd].
  assert (N1 : (S idx < length fs)%nat) by lia.
  destruct (ordered_range fs (S idx) O N1) as [R1 R2].
  assert (OE : e <= startPiece (nth (S idx) fs noFile)) by (apply (proj2 O); lia).
  assert (FAR : forall j, (S idx < j < length fs)%nat -> ~ contains (nth j fs noFile) e).
  { intros j Hj C. unfold contains in C. assert (S (S idx) <= j)%nat by lia. assert (e < startPiece (nth (S (S idx)) fs noFile)) by (apply T; lia).
    destruct (Nat.eq_dec j (S (S idx))) as [->|]; [lia|].
    assert (endPiece (nth (S (S idx)) fs noFile) <= startPiece (nth j fs noFile)) by (apply ordered_between; [assumption|lia]).
    destruct (ordered_range fs (S (S idx)) O) as [? _]; lia. }
  destruct (Z.eqb_spec (startPiece (nth (S idx) fs noFile)) e) as [E|E].
  - destruct (nth (S idx) sel false) eqn:S1.
    + split; [intros _|reflexivity]. exists (S idx). split; [lia|]. split; [assumption|]. unfold contains. lia.
    + assert (NO : ~ exists j, (idx < j < length fs)%nat /\ nth j sel false = true /\ contains (nth j fs noFile) e).
      { intros (j & J1 & J2 & J3). destruct (Nat.eq_dec j (S idx)) as [->|]; [congruence|]. apply (FAR j); [lia|assumption]. }
      split; [|intros X; contradiction]. intros K. exfalso. rewrite Hs in K.
      destruct (Z.eqb_spec (startPiece (nth idx fs noFile)) e) as [E2|E2]; [|discriminate].
      destruct idx as [|i]; [discriminate K|]. cbn [keepEnd] in K.
      destruct (Z.eqb_spec (startPiece (nth i fs noFile)) e) as [E3|E3]; [|discriminate].
      assert (endPiece (nth i fs noFile) < startPiece (nth (S (S i)) fs noFile)) by (apply T; lia).
      destruct (ordered_range fs i O) as [? _]; lia.
  - split; [discriminate|]. intros (j & J1 & J2 & J3). exfalso. destruct (Nat.eq_dec j (S idx)) as [->|]; [unfold contains in J3; lia|]. apply (FAR j); [lia|assumption].
Qed.

Lemma wanted_dec fs sel p k : length sel = length fs -> (k < length fs)%nat -> contains (nth k fs noFile) p ->
  wanted fs (upd k true sel) p.
Proof. intros L H C. exists k. split; [assumption|]. split; [apply nth_upd_same; lia|assumption]. Qed.

Lemma selectOneFile_ok fs idx s sp : ordered fs -> no_triple fs -> zlen (pieces (snd sp)) < 4294967296 -> selection_ok fs sp -> (idx < length fs)%nat ->
  exists sp', selectOneFile fs idx s sp = Ok sp' /\ selection_ok fs sp' /\ fst sp' = upd idx s (fst sp) /\
    zlen (pieces (snd sp')) = zlen (pieces (snd sp)) /\
    (forall j, 0 <= j < zlen (pieces (snd sp)) -> is_received (snd sp') j = is_received (snd sp) j).
Proof.
  intros O T Hz (L & F & E & B & W) Hi. destruct sp as [sel p]. cbn [fst snd] in *. unfold selectOneFile.
  assert (NE : nth_error sel idx = Some (nth idx sel false)) by (apply nth_error_nth'; lia). rewrite NE.
  destruct (ordered_range fs idx O Hi) as [R1 R2].
  assert (Be : endPiece (nth idx fs noFile) < zlen (pieces p)) by (rewrite Forall_forall in B; apply B; now apply nth_In).
  destruct (Bool.eqb (nth idx sel false) s) eqn:EQ.
  - apply eqb_prop in EQ. exists (sel, p). rewrite <- EQ. cbn [fst snd]. rewrite upd_nth. split; [reflexivity|]. split; [exact (conj L (conj F (conj E (conj B W))))|]. auto.
  - assert (SEL : forall a b, 0 <= a -> b < zlen (pieces p) -> exists q, select a b s p = Ok q /\ flags_ok q /\ exact q /\ zlen (pieces q) = zlen (pieces p) /\
      (forall j, 0 <= j < zlen (pieces p) -> is_received q j = is_received p j /\ is_chosen q j = if (a <=? j) && (j <=? b) then s else is_chosen p j)).
    { intros a b Ha Hb. destruct (select_ok p a b s F E Ha Hb) as (q & Q1 & Q2 & Q3 & Q4 & Q5). exists q. do 4 (split; [assumption|]).
      intros j Hj. destruct (Q5 j) as [X1 X2]; [lia|]. unfold is_received, is_chosen. rewrite Q4, X1, X2.
      split; [reflexivity|]. destruct (Z.leb_spec 0 j); [|lia]. destruct (Z.ltb_spec j (zlen (pieces p))); [|lia]. cbn [andb]. reflexivity. }
    set (f := nth idx fs noFile) in *.
    assert (FIN : forall q, flags_ok q -> exact q -> zlen (pieces q) = zlen (pieces p) ->
      (forall j, 0 <= j < zlen (pieces p) -> is_received q j = is_received p j /\ (is_chosen q j = true <-> wanted fs (upd idx s sel) j)) ->
      selection_ok fs (upd idx s sel, q)).
    { intros q Q1 Q2 Q3 Q4. unfold selection_ok. cbn [fst snd]. rewrite upd_length, Q3. do 4 (split; [assumption|]). intros j Hj. now apply Q4. }
    destruct s.
    + destruct (SEL (startPiece f) (endPiece f)) as (q & Q1 & Q2 & Q3 & Q4 & Q5); [lia|lia|]. rewrite Q1. cbn [bind]. eexists. split; [reflexivity|]. cbn [fst snd].
      split; [|split; [reflexivity|split; [assumption|intros; now apply Q5]]]. apply FIN; try assumption. intros j Hj. destruct (Q5 j Hj) as [X1 X2]. split; [assumption|]. rewrite X2.
      destruct ((startPiece f <=? j) && (j <=? endPiece f)) eqn:IN.
      * split; [intros _|reflexivity]. apply wanted_dec; try assumption. fold f. unfold contains. lia.
      * rewrite W by assumption. split; intros (k & K1 & K2 & K3); exists k; split; try assumption; split; try assumption.
        -- rewrite nth_upd. destruct ((k =? idx)%nat && (idx <? length sel)%nat); [reflexivity|assumption].
        -- destruct (Nat.eq_dec k idx) as [->|N]; [exfalso; fold f in K3; unfold contains in K3; lia|]. now rewrite nth_upd_other in K2.
    + set (sel' := upd idx false sel).
      assert (Old : nth idx sel false = true) by (destruct (nth idx sel false); [reflexivity|discriminate]).
      assert (New : nth idx sel' false = false) by (apply nth_upd_same; lia).
      assert (Oth : forall k, k <> idx -> nth k sel' false = nth k sel false) by (intros; now apply nth_upd_other).
      pose proof (keepStart_spec fs sel' (startPiece f) O idx ltac:(lia)) as KS.
      assert (KS' : keepStart fs sel' (startPiece f) idx = true <-> exists j, (j < idx)%nat /\ nth j sel' false = true /\ contains (nth j fs noFile) (startPiece f)).
      { apply KS. intros j Hj. apply ordered_between; [assumption|lia]. } clear KS.
      assert (KE : (Nat.ltb (idx + 1) (length fs)) && keepEnd fs sel' (endPiece f) (idx + 2) = true <-> 
        exists j, (idx < j < length fs)%nat /\ nth j sel' false = true /\ contains (nth j fs noFile) (endPiece f)).
      { destruct (Nat.ltb_spec (idx + 1) (length fs)) as [Q|Q]; cbn [andb]; [now apply keepEnd_spec|]. split; [discriminate|]. intros (j & J & _). lia. }
      (* the other selected files which contain a piece of this one *)
      assert (AROUND : forall j, contains f j -> wanted fs sel' j <->
        (j = startPiece f /\ keepStart fs sel' (startPiece f) idx = true) \/ (j = endPiece f /\ (Nat.ltb (idx + 1) (length fs)) && keepEnd fs sel' (endPiece f) (idx + 2) = true)).
      { intros j Cj. unfold contains in Cj. rewrite KS', KE. split.
        - intros (k & K1 & K2 & K3). destruct (Nat.lt_trichotomy k idx) as [H|[H|H]].
          + left. assert (endPiece (nth k fs noFile) <= startPiece f) by (apply ordered_between; [assumption|lia]). unfold contains in K3.
            assert (j = startPiece f) by lia. split; [assumption|]. exists k. subst j. unfold contains. repeat split; try assumption; lia.
          + subst k. congruence.
          + right. assert (endPiece f <= startPiece (nth k fs noFile)) by (apply ordered_between; [assumption|lia]). unfold contains in K3.
            assert (j = endPiece f) by lia. split; [assumption|]. exists k. subst j. unfold contains. repeat split; try assumption; lia.
        - intros [(-> & k & K1 & K2 & K3)|(-> & k & K1 & K2 & K3)]; exists k; repeat split; try assumption; try apply K3; lia. }
      assert (REST : forall j, ~ contains f j -> (wanted fs sel' j <-> wanted fs sel j)).
      { intros j Nj. split; intros (k & K1 & K2 & K3); exists k; (split; [assumption|]); (split; [|assumption]).
        - destruct (Nat.eq_dec k idx) as [->|N]; [congruence|]. now rewrite <- Oth.
        - destruct (Nat.eq_dec k idx) as [->|N]; [exfalso; apply Nj, K3|]. now rewrite Oth. }
      assert (GO : forall a b, 0 <= a -> b < zlen (pieces p) ->
        (forall j, 0 <= j -> (a <=? j) && (j <=? b) = true <-> contains f j /\ ~ wanted fs sel' j) ->
        exists sp', bind (select a b false p) (fun q => Ok (sel', q)) = Ok sp' /\ selection_ok fs sp' /\ fst sp' = sel' /\ zlen (pieces (snd sp')) = zlen (pieces p) /\
          (forall j, 0 <= j < zlen (pieces p) -> is_received (snd sp') j = is_received p j)).
      { intros a b Ha Hb X. destruct (SEL a b Ha Hb) as (q & Q1 & Q2 & Q3 & Q4 & Q5). rewrite Q1. cbn [bind]. eexists. split; [reflexivity|]. cbn [fst snd].
        split; [|split; [reflexivity|split; [assumption|intros; now apply Q5]]]. apply FIN; try assumption. intros j Hj. destruct (Q5 j Hj) as [X1 X2]. split; [assumption|]. rewrite X2. fold sel'.
        specialize (X j ltac:(lia)). destruct ((a <=? j) && (j <=? b)).
        - split; [discriminate|]. intros Wj. destruct X as [X _]. destruct (X eq_refl). contradiction.
        - rewrite W by assumption. destruct X as [_ X].
          destruct (Z_lt_le_dec j (startPiece f)); [symmetry; apply REST; unfold contains; lia|].
          destruct (Z_lt_le_dec (endPiece f) j); [symmetry; apply REST; unfold contains; lia|].
          assert (Cf : contains f j) by (unfold contains; lia).
          split; intros Wj.
          + destruct (AROUND j Cf) as [_ A2]. 
            destruct (keepStart fs sel' (startPiece f) idx) eqn:K1; destruct ((idx + 1 <? length fs)%nat && keepEnd fs sel' (endPiece f) (idx + 2)) eqn:K2;
            destruct (Z.eq_dec j (startPiece f)); destruct (Z.eq_dec j (endPiece f)); try (apply A2; intuition congruence);
            (exfalso; assert (false = true) by (apply X; split; [assumption|]; intros Y; apply AROUND in Y; [|assumption]; intuition congruence); discriminate).
          + exists idx. split; [assumption|]. split; [assumption|]. exact Cf. }
      assert (CC : forall j, contains f j <-> startPiece f <= j <= endPiece f) by (intros; reflexivity).
      destruct (keepStart fs sel' (startPiece f) idx) eqn:K1; destruct ((idx + 1 <? length fs)%nat && keepEnd fs sel' (endPiece f) (idx + 2)) eqn:K2.
      * rewrite (u32_id (startPiece f + 1)) by lia. destruct (Z.eqb_spec (endPiece f) 0) as [Z0|Z0].
        -- rewrite u32_id by lia. apply GO; [lia|lia|]. intros j Hj. split; [lia|]. intros [C1 C2]. exfalso. apply C2. apply AROUND; [assumption|]. left. split; [unfold contains in C1; lia|reflexivity].
        -- apply GO; [lia|lia|]. intros j Hj. rewrite CC. split.
           ++ intros H. split; [lia|]. intros Y. apply AROUND in Y; [|unfold contains; lia]. destruct Y as [[Y _]|[Y _]]; lia.
           ++ intros [C1 C2]. destruct (Z.eq_dec j (startPiece f)); [exfalso; apply C2, AROUND; [assumption|left; auto]|]. destruct (Z.eq_dec j (endPiece f)); [exfalso; apply C2, AROUND; [assumption|right; auto]|]. lia.
      * rewrite (u32_id (startPiece f + 1)) by lia. apply GO; [lia|lia|]. intros j Hj. rewrite CC. split.
        -- intros H. split; [lia|]. intros Y. apply AROUND in Y; [|unfold contains; lia]. destruct Y as [[Y _]|[_ Y]]; [lia|discriminate].
        -- intros [C1 C2]. destruct (Z.eq_dec j (startPiece f)); [exfalso; apply C2, AROUND; [assumption|left; auto]|]. lia.
      * destruct (Z.eqb_spec (endPiece f) 0) as [Z0|Z0].
        -- rewrite u32_id by lia. apply GO; [lia|lia|]. intros j Hj. split; [lia|]. intros [C1 C2]. exfalso. apply C2. apply AROUND; [assumption|]. right. split; [unfold contains in C1; lia|reflexivity].
        -- apply GO; [lia|lia|]. intros j Hj. rewrite CC. split.
           ++ intros H. split; [lia|]. intros Y. apply AROUND in Y; [|unfold contains; lia]. destruct Y as [[_ Y]|[Y _]]; [discriminate|lia].
           ++ intros [C1 C2]. destruct (Z.eq_dec j (endPiece f)); [exfalso; apply C2, AROUND; [assumption|right; auto]|]. lia.
      * apply GO; [lia|lia|]. intros j Hj. rewrite CC. split.
        -- intros H. split; [lia|]. intros Y. apply AROUND in Y; [|unfold contains; lia]. destruct Y as [[_ Y]|[_ Y]]; discriminate.
        -- intros [C1 C2]. lia.
Qed.

(** ** Sequences of selections *)
Inductive selection_op :=
| PickFile (index : nat) (selected : bool)
| PickFiles (s : list bool).

Definition run_selection (fs : list file) (o : selection_op) (sp : list bool * progress) : res (list bool * progress) :=
  let keep r := match r with Ok (Some x) => Ok x | Ok None => Ok sp | UB => UB end in
  match o with PickFile i s => keep (selectFile fs i s sp) | PickFiles s => keep (selectFiles fs s sp) end.

Fixpoint run_selections (fs : list file) (os : list selection_op) (sp : list bool * progress) : res (list bool * progress) :=
  match os with [] => Ok sp | o :: os' => bind (run_selection fs o sp) (run_selections fs os') end.

(** What the selections mean. *)
Definition meant (n : nat) (sel : list bool) (o : selection_op) : list bool :=
  match o with
  | PickFile i s => upd i s sel
  | PickFiles s => if Nat.ltb n (length s) then sel else s ++ skipn (length s) sel
  end.

Lemma selectFrom_ok_ fs : ordered fs -> no_triple fs -> forall s i sp, zlen (pieces (snd sp)) < 4294967296 -> selection_ok fs sp -> (i + length s <= length fs)%nat ->
  exists sp', selectFrom_ fs i s sp = Ok sp' /\ selection_ok fs sp' /\ fst sp' = firstn i (fst sp) ++ s ++ skipn (i + length s) (fst sp) /\
    zlen (pieces (snd sp')) = zlen (pieces (snd sp)) /\ (forall j, 0 <= j < zlen (pieces (snd sp)) -> is_received (snd sp') j = is_received (snd sp) j).
Proof.
  intros O T. induction s as [|b s IH]; intros i sp Z H L; cbn [selectFrom_ length].
  - exists sp. rewrite Nat.add_0_r. cbn [app]. rewrite firstn_skipn. auto.
  - cbn [length] in L. destruct (selectOneFile_ok fs i b sp O T Z H) as (sp1 & A1 & A2 & A3 & A4 & A5); [lia|]. rewrite A1. cbn [bind].
    destruct (IH (S i) sp1) as (sp2 & B1 & B2 & B3 & B4 & B5); [lia|assumption|lia|]. exists sp2. split; [assumption|]. split; [assumption|]. split.
    + rewrite B3, A3. destruct H as (Ln & _). assert (Q : (i < length (fst sp))%nat) by lia.
      replace (i + S (length s))%nat with (S i + length s)%nat by lia. revert Q. generalize (fst sp). clear. intros l Q.
      revert i Q. induction l as [|x l IH]; intros i Q; [cbn in Q; lia|]. destruct i as [|i]; [reflexivity|].
      cbn [length] in Q. cbn [upd firstn skipn app plus]. f_equal. apply (IH i). lia.
    + split; [lia|]. intros j Hj. rewrite B5 by lia. now apply A5.
Qed.

Lemma upd_none {A} i (x : A) l : (length l <= i)%nat -> upd i x l = l.
Proof. revert i. induction l as [|a l IH]; intros [|i] H; cbn in *; try lia; auto. f_equal. apply IH. lia. Qed.

Lemma run_selections_ok fs : ordered fs -> no_triple fs -> forall os sp, zlen (pieces (snd sp)) < 4294967296 -> selection_ok fs sp ->
  exists sp', run_selections fs os sp = Ok sp' /\ selection_ok fs sp' /\ fst sp' = fold_left (meant (length fs)) os (fst sp) /\
    zlen (pieces (snd sp')) = zlen (pieces (snd sp)) /\ (forall j, 0 <= j < zlen (pieces (snd sp)) -> is_received (snd sp') j = is_received (snd sp) j).
Proof.
  intros O T. induction os as [|o os IH]; intros sp Z H; cbn [run_selections fold_left]; [exists sp; auto|].
  assert (S : exists sp', run_selection fs o sp = Ok sp' /\ selection_ok fs sp' /\ fst sp' = meant (length fs) (fst sp) o /\
    zlen (pieces (snd sp')) = zlen (pieces (snd sp)) /\ (forall j, 0 <= j < zlen (pieces (snd sp)) -> is_received (snd sp') j = is_received (snd sp) j)).
  { destruct o as [i s|s]; cbn [run_selection meant].
    - unfold selectFile. destruct (Nat.leb_spec (length fs) i) as [Q|Q].
      + exists sp. split; [reflexivity|]. split; [assumption|]. split; [|auto]. symmetry. apply upd_none. destruct H as (Ln & _). lia.
      + destruct (selectOneFile_ok fs i s sp O T Z H Q) as (sp1 & A1 & A2 & A3 & A4 & A5). rewrite A1. cbn [bind]. exists sp1. auto.
    - unfold selectFiles. destruct (Nat.ltb_spec (length fs) (length s)) as [Q|Q]; [exists sp; auto|].
      destruct (selectFrom_ok_ fs O T s 0 sp Z H) as (sp1 & A1 & A2 & A3 & A4 & A5); [lia|]. rewrite A1. cbn [bind]. exists sp1. auto. }
  destruct S as (sp1 & A1 & A2 & A3 & A4 & A5). rewrite A1. cbn [bind]. destruct (IH sp1) as (sp2 & B1 & B2 & B3 & B4 & B5); [lia|assumption|].
  exists sp2. split; [assumption|]. split; [assumption|]. split; [now rewrite B3, A3|]. split; [lia|]. intros j Hj. rewrite B5 by lia. now apply A5.
Qed.

Lemma initialize_ok fs n : 0 <= n < 4294967296 -> Forall (fun f => endPiece f < n) fs -> (forall p, 0 <= p < n -> exists k, (k < length fs)%nat /\ contains (nth k fs noFile) p) ->
  selection_ok fs (initialize fs n) /\ zlen (pieces (snd (initialize fs n))) = n.
Proof.
  intros Hn B C. destruct (init_exact n Hn) as (F & E & L). split; [|exact L]. unfold initialize, selection_ok. cbn [fst snd]. rewrite repeat_length, L.
  do 4 (split; [auto|]). intros p Hp. split; intros _.
  - destruct (C p Hp) as (k & K1 & K2). exists k. split; [assumption|]. split; [|assumption].
    rewrite (nth_indep _ false true) by (rewrite repeat_length; lia). apply nth_repeat.
  - unfold is_chosen. rewrite L. destruct (Z.leb_spec 0 p); [|lia]. destruct (Z.ltb_spec p n); [|lia]. cbn [andb].
    assert (X : nth (Z.to_nat p) (pieces (init n emptyProgress)) 0 = 0).
    { unfold init, emptyProgress. cbn [pieces]. destruct (zlen (@nil Z) <? n); [cbn [app]; generalize (Z.to_nat p); generalize (Z.to_nat (n - zlen (@nil Z))); intros a; induction a; intros [|b]; cbn; auto|destruct (Z.to_nat p); reflexivity]. }
    rewrite X. reflexivity.
Qed.

(** ** Torrents of several files *)
Definition pieces_of (ps total : Z) : Z := (total + ps - 1) / ps.

Lemma parsed_ordered ps sizes t : sizes_fit ps sizes -> parseMultiFile ps sizes = Ok t -> ordered (files t).
Proof.
  intros H E. destruct (multi ps sizes H) as (t1 & T1 & _ & _ & _ & _ & T3 & T4). rewrite T1 in E. inversion E; subst t1. clear E.
  destruct H as (H1 & H2 & H3 & H4).
  assert (R : forall k, (k < length sizes)%nat -> 0 <= offset sizes k /\ offset sizes k + nth k sizes 0 <= total sizes /\ 0 <= nth k sizes 0 /\ offset sizes (S k) = offset sizes k + nth k sizes 0).
  { clear -H2. unfold offset. revert H2. induction sizes as [|s l IH]; intros H2 [|k] Hk; cbn [length] in Hk; try lia; inversion H2; subst.
    - cbn [firstn nth]. rewrite total_cons. pose proof (total_nonneg l H3). cbn. lia.
    - cbn [nth]. rewrite !firstn_cons, !total_cons. destruct (IH H3 k) as (A & B & C & D); [lia|]. lia. }
  split.
  - apply Forall_nth. intros k d Hk. rewrite T3 in Hk. rewrite (nth_indep _ d noFile) by lia. destruct (T4 k Hk) as (B1 & B2 & B3 & B4 & B5 & B6). split; [assumption|].
    destruct (R k Hk) as (R1 & R2 & R3 & _). enough (endPiece (nth k (files t) noFile) <= total sizes / ps) by lia. apply Z.div_le_lower_bound; [lia|].
    assert (0 <= endPos (nth k (files t) noFile)) by (rewrite B4; apply Z.mod_pos_bound; lia).
    destruct (negb (nth k sizes 0 =? 0) && ((offset sizes k + nth k sizes 0) mod ps =? 0)); lia.
  - intros k Hk. rewrite T3 in Hk. destruct (T4 k ltac:(lia)) as (B1 & B2 & B3 & B4 & B5 & B6). destruct (T4 (S k) Hk) as (C1 & C2 & C3 & _).
    destruct (R k ltac:(lia)) as (R1 & R2 & R3 & R4). rewrite R4 in C2. unfold first_byte in C2.
    assert (0 <= endPos (nth k (files t) noFile)) by (rewrite B4; apply Z.mod_pos_bound; lia).
    apply Z.lt_succ_r. unfold Z.succ. apply (Z.mul_lt_mono_pos_r ps); [lia|].
    destruct (negb (nth k sizes 0 =? 0) && ((offset sizes k + nth k sizes 0) mod ps =? 0)); lia.
Qed.
