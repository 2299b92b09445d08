(** C92: what a start does with the pieces which were there. *)
From Coq Require Import Permutation.
From Verif Require Import Base BaseLemmas LayoutModel LayoutSpec LayoutProofs LayoutProps ProgressModel ProgressSpec ProgressProofs ProgressProps
  StorageModel StorageSpec StorageProofs StorageProps CheckModel CheckSpec CheckProofs CheckProps RoomModel RoomSpec RoomProofs RoomProps
  StartModel StartSpec StartProofs.

Lemma within_in_pieces t n : parsed t -> Forall (fun f => endPiece f < n) (files t) -> Forall (in_pieces n) (files t).
Proof.
  intros H F. destruct (parsed_ok t H) as (P & S & _). apply Forall_forall. intros f Hf. rewrite Forall_forall in F. pose proof (F f Hf). pose proof (start_positive _ _ _ _ S Hf).
  apply (In_nth _ _ noFile) in Hf. destruct Hf as (k & K & <-). pose proof (situated_at _ _ _ k S K) as (S1 & S2 & S3 & S4 & S5 & S6 & _).
  split; [|assumption]. lia.
Qed.

Lemma reaches_reached c b fs ts p : length ts = length fs -> (forall x, b x = true <-> c x) -> reached b fs ts p = true <-> file_reaches c fs ts p.
Proof.
  intros L B. rewrite reached_spec. unfold file_reaches, touches. split.
  - intros (k & K & _ & C & T). exists k. rewrite <- B. auto.
  - intros (k & K & C & T). exists k. rewrite B. split; [assumption|]. split; [lia|auto].
Qed.

Lemma newer_spec last x : newer last x = true <-> last < x.
Proof. apply Z.ltb_lt. Qed.
Lemma gone_spec x : gone x = true <-> x = 0.
Proof. apply Z.eqb_eq. Qed.

(** A start removes from the progress exactly the pieces which a missing file file_reaches. If a file is newer than the last time,
    the pieces which the newer files reach are to be checked, and no others; otherwise nothing is checked. *)
Theorem C92_start_partial : forall t n sel available now s, parsed t -> Forall (fun f => endPiece f < n) (files t) -> length sel = length (files t) ->
  zlen (files t) <= 4294967296 -> length (times s) = length (files t) ->
  flags_ok (prog s) -> exact (prog s) -> zlen (pieces (prog s)) = n ->
  exists o s', startFiles t n sel available now s = Ok (o, s') /\ flags_ok (prog s') /\ exact (prog s') /\ zlen (pieces (prog s')) = n /\
    (forall p, 0 <= p -> (is_received (prog s') p = true <-> is_received (prog s) p = true /\ ~ file_reaches (fun x => x = 0) (files t) (times s) p) /\
       is_chosen (prog s') p = is_chosen (prog s) p) /\
    ((exists x, In x (times s) /\ lastTime s < x) ->
       exists wanted, o = BeginCheck wanted /\ zlen wanted = n /\ lastTime s' = 0 /\ disk s' = disk s /\ times s' = times s /\
         forall p, 0 <= p -> nth_error wanted (Z.to_nat p) = Some true <-> file_reaches (fun x => lastTime s < x) (files t) (times s) p) /\
    ((forall x, In x (times s) -> x <= lastTime s) -> forall wanted, o <> BeginCheck wanted).
Proof.
  intros t n sel available now s H F LS ZF LT F1 F2 F3. pose proof (within_in_pieces t n H F) as I.
  destruct (scanFiles_ok n (lastTime s) (files t) (times s) [] (prog s) (conj F1 (conj F2 F3)) I LT (or_introl eq_refl)) as (w & q & E & (Q1 & Q2 & Q3) & W1 & W2 & W3 & R).
  unfold startFiles. rewrite E. cbn [bind].
  assert (RR : forall p, 0 <= p -> (is_received q p = true <-> is_received (prog s) p = true /\ ~ file_reaches (fun x => x = 0) (files t) (times s) p) /\ is_chosen q p = is_chosen (prog s) p).
  { intros p P. destruct (R p P) as [A B]. split; [|assumption]. rewrite A, andb_true_iff, negb_true_iff, <- (reaches_reached (fun x => x = 0) gone) by (assumption || apply gone_spec).
    destruct (reached gone (files t) (times s) p); intuition congruence. }
  destruct w as [|b w].
  - destruct W2 as [W2 _]. destruct (W2 eq_refl) as [_ NN]. rewrite Forall_forall in NN.
    assert (OLD : ~ exists x, In x (times s) /\ lastTime s < x).
    { intros (x & X & Y). specialize (NN x X). apply newer_spec in Y. congruence. }
    destruct (selectedFinished q).
    + eexists. eexists. split; [reflexivity|]. cbn [prog]. split; [assumption|]. split; [assumption|]. split; [assumption|]. split; [assumption|]. split; [intros X; contradiction|discriminate].
    + destruct (C91_demand_partial t n sel H LS ZF F) as (l & -> & _). cbn [bind]. destruct (preallocateSelection t available l (disk s)) as [ok d'].
      destruct (if vEnough _ then _ else _) as [a ts']. eexists. eexists. split; [reflexivity|]. cbn [prog]. split; [assumption|]. split; [assumption|]. split; [assumption|]. split; [assumption|]. split; [intros X; contradiction|].
      intros _ w. destruct ok; discriminate.
  - eexists. eexists. split; [reflexivity|]. cbn [prog lastTime disk times]. split; [assumption|]. split; [assumption|]. split; [assumption|]. split; [assumption|].
    destruct W1 as [W1|W1]; [discriminate|]. split.
    + intros _. exists (b :: w). split; [reflexivity|]. split; [assumption|]. split; [reflexivity|]. split; [reflexivity|]. split; [reflexivity|]. intros p P.
      rewrite <- (reaches_reached (fun x => lastTime s < x) (newer (lastTime s))) by (assumption || apply newer_spec). specialize (W3 p P). replace (nth (Z.to_nat p) [] false) with false in W3 by now destruct (Z.to_nat p).
      cbn [orb] in W3. rewrite <- W3. destruct (nth_error (b :: w) (Z.to_nat p)) as [x|] eqn:EX.
      * rewrite (nth_error_nth _ _ false EX). split; congruence.
      * apply nth_error_None in EX. rewrite nth_overflow by assumption. split; discriminate.
    + intros OLD. exfalso. destruct W2 as [_ W2]. discriminate W2. split; [reflexivity|]. apply Forall_forall. intros x X. specialize (OLD x X). unfold newer. apply Z.ltb_ge. assumption.
Qed.
Print Assumptions C92_start_partial.

(** A file which has pieces strictly between its first and its last has them alone. *)
Lemma inside_alone t j k p : parsed t -> (j < length (files t))%nat -> (k < length (files t))%nat ->
  startPiece (nth k (files t) noFile) < p < endPiece (nth k (files t) noFile) -> touches (nth j (files t) noFile) p -> j = k.
Proof.
  intros H J K I T. destruct (parsed_ok t H) as (P & S & _). unfold touches in T. destruct (Nat.lt_total j k) as [L|[L|L]]; [exfalso|assumption|exfalso].
  - destruct (ordered (pieceSize t) (files t) 0 j k ltac:(lia) S ltac:(lia)). lia.
  - destruct (ordered (pieceSize t) (files t) 0 k j ltac:(lia) S ltac:(lia)). lia.
Qed.

(** The check which a start begins: whatever the order in which the four workers add their pieces, in the end a piece which a
    newer file file_reaches is in the progress exactly if its stored bytes have its hash, the others as the start left them. The last
    time is then that of the newest file. Missing: pieces of which a file does not hold its bytes, and torrents whose last piece is
    full (C90_stale_refuted, C90_full_last_refuted). *)
Theorem C92_checked_partial : forall sha t hashes sel available now s, parsed t -> fullSize t mod pieceSize t <> 0 -> length sel = length (files t) ->
  zlen (files t) <= 4294967296 -> length (times s) = length (files t) -> length (disk s) = length (files t) -> zlen hashes = pieces_of t ->
  flags_ok (prog s) -> exact (prog s) -> zlen (pieces (prog s)) = pieces_of t -> (exists x, In x (times s) /\ lastTime s < x) ->
  exists wanted s' a0 a1 a2 a3, startFiles t (pieces_of t) sel available now s = Ok (BeginCheck wanted, s') /\
    workerAdds sha t hashes wanted (disk s) 0 = Ok a0 /\ workerAdds sha t hashes wanted (disk s) 1 = Ok a1 /\
    workerAdds sha t hashes wanted (disk s) 2 = Ok a2 /\ workerAdds sha t hashes wanted (disk s) 3 = Ok a3 /\
    forall order, Permutation order (a0 ++ a1 ++ a2 ++ a3) ->
    exists s'', checkFiles wanted order s' = Ok s'' /\ (forall x, In x (times s) -> x <= lastTime s'') /\ times s'' = times s /\ disk s'' = disk s /\
      flags_ok (prog s'') /\ exact (prog s'') /\ zlen (pieces (prog s'')) = pieces_of t /\
      forall p, 0 <= p < pieces_of t -> is_chosen (prog s'') p = is_chosen (prog s) p /\
        (file_reaches (fun x => lastTime s < x) (files t) (times s) p -> all_keep (pieceSize t) (files t) (disk s) p ->
           is_received (prog s'') p = true <-> nth_error hashes (Z.to_nat p) = Some (sha (piece_data (pieceSize t) (files t) (disk s) p))) /\
        (~ file_reaches (fun x => lastTime s < x) (files t) (times s) p ->
           is_received (prog s'') p = true <-> is_received (prog s) p = true /\ ~ file_reaches (fun x => x = 0) (files t) (times s) p).
Proof.
  intros sha t hashes sel available now s H M LS ZF LT LD HH F1 F2 F3 NEW. pose proof (files_within t H M) as W. pose proof (within_in_pieces t _ H W) as I.
  destruct (C92_start_partial t (pieces_of t) sel available now s H W LS ZF LT F1 F2 F3) as (o & s' & E & G1 & G2 & G3 & R & N & _).
  destruct (N NEW) as (wanted & -> & ZW & _ & DS & TS & WR). exists wanted, s'.
  assert (NB : pieces_of t < 4294967296).
  { destruct (parsed_ok t H) as (P & _ & _ & F0 & N' & _). rewrite pieces_count by (assumption || lia). lia. }
  assert (ADD : forall idx, exists a, workerAdds sha t hashes wanted (disk s) idx = Ok a /\
    (forall p, In p a -> 0 <= p /\ p mod 4 = idx /\ nth_error wanted (Z.to_nat p) = Some true) /\
    forall p, 0 <= p < pieces_of t -> all_keep (pieceSize t) (files t) (disk s) p -> file_reaches (fun x => lastTime s < x) (files t) (times s) p ->
      (In p a <-> p mod 4 = idx /\ nth_error hashes (Z.to_nat p) = Some (sha (piece_data (pieceSize t) (files t) (disk s) p)))).
  { intros idx. destruct (C90_exact_partial sha t (disk s) hashes 4 idx wanted H M HH ZW LD) as (st & C1 & _ & C3 & C4).
    exists (rev (added st)). unfold workerAdds, WorkersCount. rewrite C1. cbn [bind]. split; [reflexivity|]. split; [intros p Q; apply C3; now rewrite in_rev|].
    intros p P K RC. rewrite <- in_rev, C4; try assumption; [apply WR in RC; [tauto|lia]|].
    intros f Hf Q. left. apply WR; [enough (0 <= startPiece f) by lia; rewrite Forall_forall in I; destruct (I f Hf); lia|].
    destruct RC as (k & K1 & K2 & K3). apply (In_nth _ _ noFile) in Hf. destruct Hf as (j & J & EJ). rewrite <- EJ in Q. rewrite (inside_alone t k j p H K1 J Q K3) in K2.
    exists j. split; [assumption|]. split; [assumption|]. rewrite EJ in *. lia. }
  destruct (ADD 0) as (a0 & A0 & I0 & X0), (ADD 1) as (a1 & A1 & I1 & X1), (ADD 2) as (a2 & A2 & I2 & X2), (ADD 3) as (a3 & A3 & I3 & X3).
  exists a0, a1, a2, a3. split; [assumption|]. split; [assumption|]. split; [assumption|]. split; [assumption|]. split; [assumption|]. intros order PM.
  assert (IW : forall p, In p order -> nth_error wanted (Z.to_nat p) = Some true).
  { intros p Q. apply (Permutation_in _ PM) in Q. rewrite !in_app_iff in Q. destruct Q as [Q|[Q|[Q|Q]]]; [apply I0 in Q|apply I1 in Q|apply I2 in Q|apply I3 in Q]; apply Q. }
  assert (PO : forall p, In p order -> 0 <= p).
  { intros p Q. apply (Permutation_in _ PM) in Q. rewrite !in_app_iff in Q. destruct Q as [Q|[Q|[Q|Q]]]; [apply I0 in Q|apply I1 in Q|apply I2 in Q|apply I3 in Q]; apply Q. }
  unfold checkFiles. destruct (removeReceived_ok (prog s') wanted G1 G2 ltac:(lia)) as (q & RQ & Q1 & Q2 & Q3 & _).
  destruct (C19_remove_where (prog s') wanted G1 G2 ltac:(lia)) as (q' & RQ' & _ & RW). rewrite RQ in RQ'. injection RQ' as <-. rewrite RQ. cbn [bind].
  destruct (addPieces_ok (pieces_of t) order NB q) as (r & RA & (V1 & V2 & V3) & RB).
  { split; [assumption|]. split; [assumption|lia]. }
  { intros p Q. split; [now apply PO|]. specialize (IW p Q). assert (Z.to_nat p < length wanted)%nat by (apply nth_error_Some; congruence). unfold zlen in ZW. lia. }
  rewrite RA. cbn [bind]. eexists. split; [reflexivity|]. cbn [lastTime times disk prog]. rewrite TS. split; [apply newest_spec|]. split; [reflexivity|]. split; [assumption|].
  split; [assumption|]. split; [assumption|]. split; [assumption|]. intros p P. destruct (RB p P) as [B1 B2]. destruct (RW p ltac:(lia)) as [C1 C2]. destruct (R p ltac:(lia)) as [D1 D2].
  split; [congruence|]. assert (WN : nth (Z.to_nat p) wanted false = true <-> nth_error wanted (Z.to_nat p) = Some true).
  { destruct (nth_error wanted (Z.to_nat p)) as [x|] eqn:EX; [rewrite (nth_error_nth _ _ false EX); split; congruence|]. apply nth_error_None in EX. rewrite nth_overflow by assumption. split; discriminate. }
  split.
  - intros RC K. rewrite B1, C2. apply WR in RC as RC'; [|lia]. apply WN in RC'. rewrite RC'. cbn [negb]. rewrite andb_false_r.
    assert (IO : In p order <-> In p (a0 ++ a1 ++ a2 ++ a3)) by (split; apply Permutation_in; [assumption|now symmetry]).
    rewrite IO, !in_app_iff, X0, X1, X2, X3 by assumption. pose proof (Z.mod_pos_bound p 4 ltac:(lia)). intuition (try discriminate). 
    assert (p mod 4 = 0 \/ p mod 4 = 1 \/ p mod 4 = 2 \/ p mod 4 = 3) by lia. tauto.
  - intros NR. rewrite B1, C2. destruct (nth (Z.to_nat p) wanted false) eqn:EW; [exfalso; apply NR; apply WR; [lia|]; now apply WN|]. cbn [negb]. rewrite andb_true_r, D1. split; [|tauto].
    intros [X|X]; [assumption|]. exfalso. apply NR, WR; [lia|]. now apply IW.
Qed.
Print Assumptions C92_checked_partial.

(** What the start itself writes is no change to be checked: after a start which made room, no file is newer than the last time, so
    the next start checks nothing. Missing: files which are longer than they should be ([C92_shortened_refuted]). *)
Theorem C92_own_partial : forall t n sel available now s s' o, startFiles t n sel available now s = Ok (o, s') -> o = Allocated ->
  (forall k, stored (nth k (disk s) None) <= fsize (nth k (files t) noFile)) -> (forall x, In x (times s) -> x <= lastTime s) ->
  forall x, In x (times s') -> x <= lastTime s'.
Proof.
  intros t n sel available now s s' o E EO SH OLD x X. unfold startFiles in E. destruct (scanFiles _ _ _ _) as [[w p]|]; [|discriminate]. cbn [bind] in E. destruct w; [|injection E as E1 E2; congruence].
  destruct (selectedFinished p); [injection E as _ <-; now apply OLD|]. destruct (selectedFiles t n sel) as [l|]; [|discriminate]. cbn [bind] in E. unfold preallocateSelection in E.
  destruct (vEnough (validatePath (disk s) available l)).
  - destruct (allocateFrom _ _ _ _ _) as [ok d']. destruct (allocTimes_own (files t) now available (disk s) l (allocTime s, times s) SH) as [A B].
    destruct (allocTimes _ _ _ _ _ _) as [a ts]. cbn [fst snd] in *. injection E as E1 <-. rewrite EO in E1. destruct ok; [|discriminate]. cbn [times lastTime] in *.
    destruct B as [B|B]; [injection B as -> ->; specialize (OLD x X); lia|subst a]. apply A in X. destruct X as [->|X]; [lia|]. specialize (OLD x X). lia.
  - injection E as E1 _. congruence.
Qed.
Print Assumptions C92_own_partial.

(** Finding: a file which is longer than it should be is made shorter by the start; its own change begins a check at the next one. *)
Theorem C92_shortened_refuted : forall ps c size available now s, 0 < ps < 2147483648 -> 0 < size < zlen c -> size < 9223372036854775808 -> (size + ps - 1) / ps < 4294967295 ->
  0 <= available -> (exists x, times s = [x] /\ 0 < x <= lastTime s) -> disk s = [Some c] -> allocTime s <= lastTime s < now ->
  flags_ok (prog s) -> exact (prog s) -> zlen (pieces (prog s)) = (size + ps - 1) / ps -> selectedFinished (prog s) = false ->
  exists t s' wanted s'', parseSingleFile ps size ((size + ps - 1) / ps) = Ok t /\ startFiles t ((size + ps - 1) / ps) [true] available now s = Ok (Allocated, s') /\
    startFiles t ((size + ps - 1) / ps) [true] available now s' = Ok (BeginCheck wanted, s'').
Proof.
  intros ps c size available now s P C SZ Q A (x & T & X) D AT F1 F2 F3 NF. set (q := (size + ps - 1) / ps) in *.
  assert (Q1 : 1 <= q) by (apply Z.div_le_lower_bound; lia). 
  assert (PT : exists t, parseSingleFile ps size q = Ok t /\ files t = [singleFile ps size q] /\ pieceSize t = ps).
  { unfold parseSingleFile. destruct (Z.eqb_spec ps 0); [lia|]. eexists. split; [reflexivity|]. split; reflexivity. }
  destruct PT as (t & PT & FT & PST). assert (H : parsed t) by (eapply (one_file_parsed ps size); fold q; try eassumption; lia).
  assert (SE : endPiece (singleFile ps size q) < q) by (cbn [singleFile endPiece]; rewrite u32_id by lia; lia).
  assert (W : Forall (fun f => endPiece f < q) (files t)) by (rewrite FT; constructor; [assumption|constructor]).
  destruct (C92_start_partial t q [true] available now s H W) as (o & s' & E & G1 & G2 & G3 & R & _ & NB); [now rewrite FT|rewrite FT; unfold zlen; cbn [length]; lia|now rewrite FT, T|assumption|assumption|assumption|].
  assert (SF : selectedFiles t q [true] = Ok [(0, size)]).
  { unfold selectedFiles. rewrite FT. cbn [markFiles chooseFrom bind singleFile endPiece startPiece fsize]. rewrite (u32_id (q - 1)) by lia.
    destruct (markFrom_ok (Z.to_nat (q - 1 + 1 - 0)) 0 (repeat false (Z.to_nat q))) as (l & -> & _); [lia|unfold zlen; rewrite repeat_length; lia|]. reflexivity. }
  assert (ES : o = Allocated /\ times s' = [now] /\ lastTime s' = lastTime s).
  { unfold startFiles in E. rewrite FT, T in E. cbn [scanFiles bind] in E. unfold scanFile in E. destruct (Z.ltb_spec (lastTime s) x); [lia|]. destruct (Z.eqb_spec x 0); [lia|]. cbn [bind] in E.
    rewrite NF in E. rewrite SF in E. cbn [bind] in E. unfold preallocateSelection in E.
    rewrite validate_ok in E; [|constructor; [cbn; lia|constructor]|cbn [map snd total fold_right]; lia].
    assert (LK : lacking (disk s) [(0, size)] = 0) by (rewrite D; unfold lacking; cbn [map fold_right fst snd]; change (Z.to_nat 0) with 0%nat; cbn [nth stored]; lia).
    rewrite LK in E. destruct (Z.leb_spec 0 available); [|lia]. cbn [vEnough] in E. rewrite D, FT in E. cbn [allocateFrom allocTimes] in E. change (Z.to_nat 0) with 0%nat in E. cbn [nth] in E.
    assert (RF : refused available (Some c) size = false) by (unfold refused; destruct (Z.ltb_spec (zlen c) size); [lia|reflexivity]). rewrite RF in E.
    unfold grows, shrinks in E. destruct (Z.ltb_spec (zlen c) size); [lia|]. cbn [singleFile fsize] in E. rewrite Z.eqb_refl in E. destruct (Z.gtb_spec (zlen c) size); [|lia]. cbn [andb orb upd fst snd] in E.
    injection E as E1 E2. rewrite <- E2. cbn [times lastTime]. split; [congruence|]. split; [reflexivity|lia]. }
  destruct ES as (-> & T' & L'). destruct (C92_start_partial t q [true] available now s' H W) as (o2 & s2 & E2 & _ & _ & _ & _ & N2 & _); [now rewrite FT|rewrite FT; unfold zlen; cbn [length]; lia|now rewrite FT, T'|assumption|assumption|assumption|].
  destruct N2 as (wanted & -> & _); [exists now; rewrite T', L'; split; [now left|lia]|]. exists t, s', wanted, s2. auto.
Qed.
Print Assumptions C92_shortened_refuted.

(** Finding: an empty file which is not selected is never made, and as long as it is missing its piece is dropped at every start,
    whatever is stored of it. *)
Theorem C92_empty_refuted : forall t n sel available now s k, parsed t -> Forall (fun f => endPiece f < n) (files t) -> length sel = length (files t) ->
  zlen (files t) <= 4294967296 -> length (times s) = length (files t) -> length (disk s) = length (files t) -> 0 <= available ->
  flags_ok (prog s) -> exact (prog s) -> zlen (pieces (prog s)) = n ->
  (k < length (files t))%nat -> fsize (nth k (files t) noFile) = 0 -> nth k sel false = false -> nth k (times s) 0 = 0 -> nth k (disk s) None = None ->
  exists o s', startFiles t n sel available now s = Ok (o, s') /\ is_received (prog s') (startPiece (nth k (files t) noFile)) = false /\
    nth k (times s') 0 = 0.
Proof.
  intros t n sel available now s k H W LS ZF LT LD A F1 F2 F3 K EMP SEL TK DK.
  destruct (C92_start_partial t n sel available now s H W LS ZF LT F1 F2 F3) as (o & s' & E & _ & _ & _ & R & _). exists o, s'. split; [assumption|].
  destruct (parsed_ok t H) as (P & S & _). pose proof (situated_at _ _ _ k S K) as (S1 & S2 & S3 & S4 & S5 & _). rewrite Forall_forall in W.
  pose proof (start_positive _ _ _ _ S (nth_In (files t) noFile K)) as SP. split.
  - destruct (R _ SP) as [R1 _]. destruct (is_received (prog s') _); [|reflexivity]. exfalso. destruct R1 as [R1 _]. destruct (R1 eq_refl) as [_ R2]. apply R2. exists k. split; [assumption|]. split; [assumption|]. rewrite (S5 EMP). lia.
  - unfold startFiles in E. destruct (scanFiles _ _ _ _) as [[w p]|]; [|discriminate]. cbn [bind] in E. destruct w; [|injection E as _ <-; assumption].
    destruct (selectedFinished p); [injection E as _ <-; assumption|]. destruct (C91_demand_partial t n sel H LS ZF ltac:(now rewrite Forall_forall)) as (l & L1 & L2 & L3). rewrite L1 in E. cbn [bind] in E.
    destruct (preallocateSelection _ _ _ _) as [ok d']. assert (O : nth k (snd (if vEnough (validatePath (disk s) available l) then allocTimes (files t) now available l (disk s) (allocTime s, times s) else (allocTime s, times s))) 0 = 0).
    { destruct (vEnough _); [|assumption]. rewrite allocTimes_other; [assumption|]. intros i x Hin EI. apply L3 in Hin. destruct Hin as (k' & K' & -> & X & Y). rewrite Nat2Z.id in EI. subst k'.
      destruct Y as [[Y _]|[_ Y]]; [congruence|]. apply Y. rewrite X, EMP.
      match goal with |- needed ?a ?b ?c ?d ?e = 0 => enough (0 <= needed a b c d e <= 0) by lia end. apply needed_le; [lia| |lia].
      apply total_nonneg. apply Forall_forall. intros y Hy. pose proof (sizes_positive _ _ _ S) as F'. rewrite Forall_forall in F'. apply F'. rewrite <- (firstn_skipn k). apply in_or_app. now left. }
    destruct (if vEnough _ then _ else _) as [a ts]. injection E as _ <-. exact O.
Qed.
Print Assumptions C92_empty_refuted.

(** The torrent, disk and hashes of C90_example: the second file, which is in every piece, is newer than the last time; piece 2 was
    thought to be there. The check finds the pieces 0 and 3. *)
Definition startState : filesState := {| lastTime := 7; allocTime := 0;
  prog := {| pieces := [0; 0; 1; 8]; selectedPieces := 3; receivedPiecesCount := 1; selectedReceivedPiecesCount := 1 |};
  disk := sampleDisk; times := [5; 9; 7] |}.

Example C92_checked_meets : flags_ok (prog startState) /\ exact (prog startState) /\ zlen (pieces (prog startState)) = pieces_of sampleT /\ (exists x, In x (times startState) /\ lastTime startState < x) /\ match startFiles sampleT 4 [true; true; true] 100 20 startState with
  | Ok (BeginCheck w, s') => w = [true; true; true; true] /\ workerAdds (fun d => d) sampleT sampleHashes w sampleDisk 0 = Ok [0] /\ workerAdds (fun d => d) sampleT sampleHashes w sampleDisk 1 = Ok [] /\ workerAdds (fun d => d) sampleT sampleHashes w sampleDisk 3 = Ok [3] /\ match checkFiles w [3; 0] s' with Ok s'' => pieces (prog s'') = [1; 0; 0; 9] /\ lastTime s'' = 9 | UB => False end
  | _ => False
  end.
Proof.
  split; [split; [repeat constructor; unfold flag_ok; lia|reflexivity]|]. split; [repeat split|]. split; [reflexivity|]. split; [exists 9; split; [right; now left|reflexivity]|].
  vm_compute. auto 10.
Qed.

(** No file is newer, the second is missing: the pieces it reaches are dropped, room is made, and that is no change. *)
Definition startState2 : filesState := {| lastTime := 7; allocTime := 0;
  prog := {| pieces := [1; 1; 1; 1; 1]; selectedPieces := 5; receivedPiecesCount := 5; selectedReceivedPiecesCount := 5 |};
  disk := [Some [1; 2; 3]; None; Some [4; 5]; Some [6; 7; 8; 9; 1]]; times := [5; 0; 7; 6] |}.

Example C92_own_meets : (forall x, In x (times startState2) -> x <= lastTime startState2) /\ match startFiles roomT 5 [true; true; true; true] 100 20 startState2 with
  | Ok (Allocated, s') => pieces (prog s') = [0; 0; 0; 1; 1] /\ times s' = [5; 20; 7; 6] /\ lastTime s' = 20 /\ nth 1 (disk s') None = Some (repeat 0 9)
  | _ => False
  end.
Proof. split; [|vm_compute; auto]. cbn. intuition lia. Qed.

Example C92_shortened_meets : let s := {| lastTime := 7; allocTime := 0; prog := init 2 emptyProgress; disk := [Some [1; 2; 3; 4; 5; 6; 7; 8]]; times := [5] |} in
  flags_ok (prog s) /\ exact (prog s) /\ zlen (pieces (prog s)) = (6 + 4 - 1) / 4 /\ selectedFinished (prog s) = false.
Proof. split; [split; [repeat constructor; unfold flag_ok; lia|reflexivity]|]. split; [repeat split|]. split; reflexivity. Qed.

(** A file of 3 bytes, complete, and an empty one which is not selected: the only piece is dropped. *)
Example C92_empty_meets : match parseMultiFile 4 [3; 0] with
  | Ok t => parsed t /\ Forall (fun f => endPiece f < 1) (files t) /\ match startFiles t 1 [true; false] 100 20 {| lastTime := 7; allocTime := 0;
        prog := {| pieces := [1]; selectedPieces := 1; receivedPiecesCount := 1; selectedReceivedPiecesCount := 1 |}; disk := [Some [1; 2; 3]; None]; times := [5; 0] |} with
      | Ok (_, s') => pieces (prog s') = [0] /\ disk s' = [Some [1; 2; 3]; None]
      | UB => False
      end
  | UB => False
  end.
Proof.
  destruct (parseMultiFile 4 [3; 0]) as [t|] eqn:E; [|discriminate]. split.
  - apply (files_parsed 4 [3; 0]); [|lia|discriminate|assumption]. unfold sizes_fit. split; [lia|]. split; [repeat constructor; lia|]. split; reflexivity.
  - vm_compute in E. injection E as <-. split; [repeat constructor|]. vm_compute. auto.
Qed.
