(** C24: the write cache. C60: the hash of a piece is that of the bytes stored last. *)
From Verif Require Import Base BaseLemmas LayoutModel LayoutSpec LayoutProofs LayoutProps StorageModel StorageSpec StorageProofs StorageProps CacheModel CacheSpec CacheProofs ShaModel ShaSpec ShaProps.
From Coq Require Import Permutation.

Local Opaque SHA1.

(** Reading a piece gives, for every byte, the one stored last (or the one in the files before),
    whatever blocks are still in groups, being written, written or cleared, and whatever is done
    between looking into the cache and reading the files. Nothing undefined happens.
    Missing: storing a block with other bytes while an earlier one is cached, storing while the whole
    cache is flushed, blocks which are not those of the pieces; for these it is false, see below. *)
Theorem C24_transparent_partial : forall t disk size es1 es2 idx buffer, laid_out t -> allocated (files t) disk -> 16384 <= size < 9223372036854775808 ->
  calm t size (empty_cache disk) (es1 ++ es2) -> (forall b, In b (stores es2) -> bindex (binfo b) <> idx) ->
  0 <= idx -> idx * pieceSize t < fullSize t -> zlen buffer = getPieceSize t idx ->
  exists s1 s2 b, run t size (empty_cache disk) es1 = Ok s1 /\ run t size s1 es2 = Ok s2 /\
    readPiece t s1 s2 idx buffer = Ok (Success, b) /\ zlen b = size_of_piece (pieceSize t) (fullSize t) idx /\
    forall i, 0 <= i < zlen b -> zn b i = latest (pieceSize t) (stores es1) (bytes_of disk) (idx * pieceSize t + i).
Proof.
  intros t disk size es1 es2 idx buffer LO A SZ C N Hi Hf Hb. destruct (calm_app t size es1 es2 _ C) as [C1 C2].
  destruct (run_inv t size LO SZ es1 _ _ (empty_ok t size disk A) C1) as (s1 & R1 & I1). exists s1.
  destruct (read_ok t size LO SZ _ es2 s1 idx buffer I1 (C2 s1 R1) Hi Hf Hb N) as (s2 & b & R2 & R3 & R4 & R5). exists s2, b.
  destruct (laid_out_piece t idx LO Hi Hf) as (P1 & _). rewrite P1 in *.
  split; [assumption|]. split; [assumption|]. split; [assumption|]. split; [assumption|]. intros i Hii. rewrite R5 by lia. now rewrite latest_overlay.
Qed.
Print Assumptions C24_transparent_partial.

(** The check of a piece compares the hash of exactly these bytes. *)
Theorem C60_check_partial : forall t disk size es1 es2 idx buffer hash, laid_out t -> allocated (files t) disk -> 16384 <= size < 9223372036854775808 ->
  calm t size (empty_cache disk) (es1 ++ es2) -> (forall b, In b (stores es2) -> bindex (binfo b) <> idx) ->
  0 <= idx -> idx * pieceSize t < fullSize t -> zlen buffer = getPieceSize t idx ->
  let piece := map (fun i => latest (pieceSize t) (stores es1) (bytes_of disk) (idx * pieceSize t + Z.of_nat i))
                 (seq 0 (Z.to_nat (size_of_piece (pieceSize t) (fullSize t) idx))) in
  bytes_ok piece ->
  exists s1 s2, run t size (empty_cache disk) es1 = Ok s1 /\ run t size s1 es2 = Ok s2 /\
    checkPieceFunc t hash s1 s2 idx buffer = Ok (Some (list_eqb (sha1 piece) hash)).
Proof.
  intros t disk size es1 es2 idx buffer hash LO A SZ C N Hi Hf Hb piece B.
  destruct (C24_transparent_partial t disk size es1 es2 idx buffer LO A SZ C N Hi Hf Hb) as (s1 & s2 & b & R1 & R2 & R3 & R4 & R5). exists s1, s2.
  split; [assumption|]. split; [assumption|]. unfold checkPieceFunc. rewrite R3. cbn [bind isSuccess].
  destruct (laid_out_piece t idx LO Hi Hf) as (_ & _ & P3).
  assert (n0 : 0 <= size_of_piece (pieceSize t) (fullSize t) idx <= pieceSize t) by (unfold size_of_piece; lia).
  assert (E : b = piece).
  { apply list_zn_ext; [unfold piece, zlen in *; rewrite map_length, seq_length; lia|]. intros i Hii. rewrite R5 by assumption. unfold piece, zn.
    rewrite (nth_indep _ 0 (latest (pieceSize t) (stores es1) (bytes_of disk) (idx * pieceSize t + Z.of_nat 0))) by (rewrite map_length, seq_length; lia).
    rewrite (map_nth (fun i => latest (pieceSize t) (stores es1) (bytes_of disk) (idx * pieceSize t + Z.of_nat i))). rewrite seq_nth by lia. f_equal. lia. }
  rewrite E. rewrite C48_sha1; [reflexivity|assumption|]. rewrite <- E, R4. assert (2 ^ 64 = 18446744073709551616) by reflexivity. lia.
Qed.
Print Assumptions C60_check_partial.

Lemma write_tasks t s id s' : flushWrite t s id = Ok s' -> In id (posted s) -> posted s' = takeId id (posted s) /\ written s' = written s ++ [id].
Proof.
  unfold flushWrite. intros H K. apply memId_In in K. rewrite K in H. destruct (findGroup s id); [|discriminate].
  destruct (storePieceBlocks t (cdisk s) _) as [[st d]|]; [|discriminate]. cbn [bind] in H. inversion H. now split.
Qed.

Lemma clear_tasks s id s' : flushClear s id = Ok s' -> In id (written s) -> posted s' = posted s /\ written s' = takeId id (written s).
Proof.
  unfold flushClear. intros H K. apply memId_In in K. rewrite K in H. destruct (findGroup s id); [|discriminate]. inversion H. now split.
Qed.

(** Every group with blocks has a task. *)
Definition busy (s : cache) : Prop := forall g, In g (groups s) -> gblocks g <> [] -> In (gid g) (posted s ++ written s).

Lemma busy_flush t size img s : inv t size img s -> busy (flushAll s).
Proof.
  intros [H1 H2 H3 H4 H5 H6 H7 H8 H9 H10] g K N. cbn [flushAll groups posted written] in *. destruct (full g) eqn:F.
  - specialize (H6 g K F). rewrite !in_app_iff in *. tauto.
  - rewrite !in_app_iff. left. right. apply in_map. apply filter_In. split; [assumption|]. rewrite F. destruct (gblocks g); [contradiction|reflexivity].
Qed.

Lemma busy_step t size s e s' : busy s -> (match e with EWrite _ | EClear _ => True | _ => False end) -> step t size s e = Ok s' -> busy s'.
Proof.
  intros B T H. destruct e as [b|id|id| |]; try contradiction; cbn [step] in H.
  - unfold flushWrite in H. destruct (memId id (posted s)) eqn:M; [|inversion H; now subst]. apply memId_In in M. destruct (findGroup s id); [|discriminate].
    destruct (storePieceBlocks t (cdisk s) _) as [[st d]|]; [|discriminate]. cbn [bind] in H. inversion H; subst. intros g' K N. cbn in *. specialize (B g' K N).
    assert (P : Permutation (takeId id (posted s) ++ written s ++ [id]) (posted s ++ written s)).
    { rewrite app_assoc. rewrite Permutation_app_comm. cbn [app]. rewrite app_comm_cons. now apply Permutation_app_tail, take_perm. }
    now apply (Permutation_in _ (Permutation_sym P)).
  - unfold flushClear in H. destruct (memId id (written s)) eqn:M; [|inversion H; now subst]. apply memId_In in M. destruct (findGroup s id) as [g|] eqn:F; [|discriminate].
    inversion H; subst. intros g' K N. cbn in *. apply in_app_or in K. destruct K as [K|[<-|[]]]; [|contradiction N; reflexivity].
    apply filter_In in K. destruct K as [K D]. apply negb_true_iff, Z.eqb_neq in D. specialize (B g' K N). apply in_app_or in B. apply in_or_app. destruct B as [B|B]; [now left|].
    apply (Permutation_in _ (Permutation_sym (take_perm id (written s) M))) in B. destruct B as [B|B]; [congruence|now right].
Qed.

Lemma busy_run t size es : forall s s', busy s -> tasks es -> run t size s es = Ok s' -> busy s'.
Proof.
  induction es as [|e es IH]; intros s s' B T R; cbn [run] in R; [inversion R; now subst|]. inversion T; subst.
  destruct (step t size s e) as [s1|] eqn:S1; [|discriminate]. cbn [bind] in R. apply (IH s1 s'); auto. eapply busy_step; eauto.
Qed.

Lemma tasks_stores es : tasks es -> stores es = [].
Proof. induction es as [|e es IH]; intros T; [reflexivity|]. inversion T; subst. unfold stores. cbn [flat_map]. destruct e; try contradiction; now apply IH. Qed.

Lemma tasks_calm t size es : forall s, tasks es -> calm t size s es.
Proof. induction es as [|e es IH]; intros s T; [exact I|]. inversion T; subst. split; [destruct e; try contradiction; exact I|]. intros s' _. now apply IH. Qed.

Lemma calm_join t size es1 es2 : forall s, calm t size s es1 -> (forall s', run t size s es1 = Ok s' -> calm t size s' es2) -> calm t size s (es1 ++ es2).
Proof.
  induction es1 as [|e es1 IH]; intros s C1 C2; [now apply C2|]. destruct C1 as [A C1]. split; [assumption|]. intros s' S1.
  apply IH; [now apply C1|]. intros s2 R. apply C2. cbn [run]. rewrite S1. exact R.
Qed.

(** Stopping: when the whole cache was flushed and the tasks of the pool are done, in any order, the
    files hold the bytes stored last and no block is left in the cache; so it can be thrown away. *)
Theorem C24_stop_partial : forall t disk size es1 es2, laid_out t -> allocated (files t) disk -> 16384 <= size < 9223372036854775808 ->
  calm t size (empty_cache disk) (es1 ++ [EFlush]) -> tasks es2 ->
  exists s, run t size (empty_cache disk) (es1 ++ EFlush :: es2) = Ok s /\
    (posted s = [] -> written s = [] ->
      allowed t s EEnd /\ forall x, 0 <= x < fullSize t -> zn (bytes_of (cdisk s)) x = latest (pieceSize t) (stores es1) (bytes_of disk) x).
Proof.
  intros t disk size es1 es2 LO A SZ C T.
  assert (C' : calm t size (empty_cache disk) ((es1 ++ [EFlush]) ++ es2)).
  { apply calm_join; [assumption|]. intros. now apply tasks_calm. }
  rewrite <- app_assoc in C'. cbn [app] in C'.
  destruct (calm_app t size es1 (EFlush :: es2) _ C') as [C1 C2].
  destruct (run_inv t size LO SZ es1 _ _ (empty_ok t size disk A) C1) as (s1 & R1 & I1). specialize (C2 s1 R1).
  destruct (run_inv t size LO SZ (EFlush :: es2) _ s1 I1 C2) as (s & R2 & I2). exists s.
  assert (RA : forall es es' s0, run t size s0 (es ++ es') = bind (run t size s0 es) (fun s1 => run t size s1 es')).
  { clear. induction es as [|e es IH]; intros es' s0; [reflexivity|]. cbn [app run]. destruct (step t size s0 e); [|reflexivity]. cbn [bind]. apply IH. }
  split; [rewrite RA, R1; exact R2|]. intros P W.
  assert (Bz : busy s).
  { cbn [run step bind] in R2. apply (busy_run t size es2 (flushAll s1) s); try assumption. eapply busy_flush; exact I1. }
  assert (E : forall g, In g (groups s) -> gblocks g = []).
  { intros g K. destruct (gblocks g) as [|c l] eqn:D; [reflexivity|]. exfalso. assert (N : gblocks g <> []) by congruence. specialize (Bz g K N). rewrite P, W in Bz. contradiction Bz. }
  split; [cbn; auto|]. intros x Hx. destruct I2 as [_ _ _ _ _ _ _ D _ _]. rewrite D; [|assumption|].
  - unfold stores. cbn [flat_map app]. change (flat_map _ es2) with (stores es2). rewrite (tasks_stores es2 T). cbn [overlay fold_left]. now rewrite latest_overlay.
  - intros g c [K Kc]. rewrite (E g K) in Kc. contradiction Kc.
Qed.
Print Assumptions C24_stop_partial.

(** The tasks can be done: none is stuck. *)
Theorem C24_finishes_partial : forall t disk size es, laid_out t -> allocated (files t) disk -> 16384 <= size < 9223372036854775808 ->
  calm t size (empty_cache disk) es ->
  exists es2 s, tasks es2 /\ run t size (empty_cache disk) (es ++ es2) = Ok s /\ posted s = [] /\ written s = [].
Proof.
  intros t disk size es LO A SZ C.
  destruct (run_inv t size LO SZ es _ _ (empty_ok t size disk A) C) as (s1 & R1 & I1).
  assert (G : forall n img s, inv t size img s -> (2 * length (posted s) + length (written s) <= n)%nat ->
    exists es2 s', tasks es2 /\ run t size s es2 = Ok s' /\ posted s' = [] /\ written s' = []).
  { induction n as [|n IH]; intros img s Inv L.
    - exists [], s. split; [constructor|]. split; [reflexivity|]. destruct (posted s); destruct (written s); cbn in L; try lia. now split.
    - destruct (posted s) as [|id l] eqn:P; [destruct (written s) as [|id l] eqn:W|].
      + exists [], s. split; [constructor|]. split; [reflexivity|]. now split.
      + destruct (clear_ok t size LO SZ img s id Inv) as (s2 & S1 & S2 & _).
        destruct (clear_tasks s id s2 S1) as [K1 K2]; [rewrite W; now left|]. rewrite P in K1. rewrite W in K2. cbn [takeId] in K2. rewrite Z.eqb_refl in K2.
        destruct (IH img s2 S2) as (es2 & s' & T & R & E1 & E2); [rewrite K1, K2; cbn in *; lia|].
        exists (EClear id :: es2), s'. split; [constructor; [exact I|assumption]|]. split; [|now split]. cbn [run step]. now rewrite S1.
      + destruct (write_ok t size LO SZ img s id Inv) as (s2 & S1 & S2 & _).
        destruct (write_tasks t s id s2 S1) as [K1 K2]; [rewrite P; now left|]. rewrite P in K1. cbn [takeId] in K1. rewrite Z.eqb_refl in K1.
        destruct (IH img s2 S2) as (es2 & s' & T & R & E1 & E2); [rewrite K1, K2, app_length; cbn in *; lia|].
        exists (EWrite id :: es2), s'. split; [constructor; [exact I|assumption]|]. split; [|now split]. cbn [run step]. now rewrite S1. }
  destruct (G _ _ s1 I1 (le_n _)) as (es2 & s & T & R & E1 & E2). exists es2, s. split; [assumption|]. split; [|now split].
  clear - R1 R. revert R1. generalize (empty_cache disk). induction es as [|e es IH]; intros s0 R1; cbn [app run] in *; [inversion R1; now subst|].
  destruct (step t size s0 e); [|discriminate]. cbn [bind] in *. now apply IH.
Qed.
Print Assumptions C24_finishes_partial.

(** ** Findings and examples: a torrent of 6 bytes in pieces of 4 *)
Definition small : torrentInfo := makeInfo 4 6 [singleFile 4 6 2].
Definition smallDisk : list (option (list Z)) := [Some [0; 0; 0; 0; 0; 0]].
Definition blk (idx len : Z) (d : list Z) : blockData := {| bdata := d; binfo := {| bindex := idx; bbegin := 0; blength := len |} |}.

Lemma small_laid : laid_out small.
Proof. apply (one_file_torrent 4 6); [lia|lia|vm_compute; reflexivity|reflexivity]. Qed.

Lemma small_standard idx len d : (idx = 0 /\ len = 4) \/ (idx = 1 /\ len = 2) -> standard small (binfo (blk idx len d)).
Proof.
  intros H. unfold standard, size_of_piece. cbn. split; [lia|]. split; [lia|]. exists 0. lia.
Qed.

(** Finding: a piece which was wrong is downloaded again while its first block is still in a group
    (being written): reading gives the wrong bytes again, not those stored last. *)
Theorem C24_conflict_refuted : exists es s, run small 16384 (empty_cache smallDisk) es = Ok s /\
  stores es = [blk 0 4 [9; 9; 9; 9]; blk 0 4 [1; 2; 3; 4]] /\
  readPiece small s s 0 [0; 0; 0; 0] = Ok (Success, [9; 9; 9; 9]).
Proof.
  exists [EStore (blk 0 4 [9; 9; 9; 9]); EStore (blk 0 4 [1; 2; 3; 4])].
  destruct (run small 16384 (empty_cache smallDisk) [EStore (blk 0 4 [9; 9; 9; 9]); EStore (blk 0 4 [1; 2; 3; 4])]) as [s|] eqn:E; [|vm_compute in E; discriminate].
  exists s. split; [reflexivity|]. split; [reflexivity|]. vm_compute in E. inversion E. vm_compute. reflexivity.
Qed.
Print Assumptions C24_conflict_refuted.

(** And the files end up with the wrong bytes if the newer group is written first. *)
Theorem C24_order_refuted : exists es s, run small 16384 (empty_cache smallDisk) es = Ok s /\
  stores es = [blk 0 4 [9; 9; 9; 9]; blk 0 4 [1; 2; 3; 4]] /\
  posted s = [] /\ written s = [] /\ cdisk s = [Some [9; 9; 9; 9; 0; 0]].
Proof.
  exists [EStore (blk 0 4 [9; 9; 9; 9]); EStore (blk 0 4 [1; 2; 3; 4]); EWrite 1; EClear 1; EWrite 0; EClear 0].
  match goal with |- exists s, ?r = _ /\ _ => destruct r as [s|] eqn:E; [|vm_compute in E; discriminate] end.
  exists s. split; [reflexivity|]. vm_compute in E. inversion E. now repeat split.
Qed.
Print Assumptions C24_order_refuted.

(** Finding: a block stored while its group is flushed as part of the whole cache is lost. *)
Theorem C24_lost_refuted : exists es s, run small 16390 (empty_cache smallDisk) es = Ok s /\
  stores es = [blk 0 4 [1; 2; 3; 4]; blk 1 2 [5; 6]] /\ posted s = [] /\ written s = [] /\
  readPiece small s s 1 [0; 0] = Ok (Success, [0; 0]).
Proof.
  exists [EStore (blk 0 4 [1; 2; 3; 4]); EFlush; EWrite 0; EStore (blk 1 2 [5; 6]); EClear 0].
  match goal with |- exists s, ?r = _ /\ _ => destruct r as [s|] eqn:E; [|vm_compute in E; discriminate] end.
  exists s. split; [reflexivity|]. split; [reflexivity|]. vm_compute in E. inversion E. vm_compute. now repeat split.
Qed.
Print Assumptions C24_lost_refuted.

(** Finding: a group which becomes full while it is flushed that way is flushed twice; the second
    flush has no blocks and takes the first of none. *)
Theorem C24_twice_refuted : exists es, stores es = [blk 0 4 [1; 2; 3; 4]; blk 1 2 [5; 6]] /\ run small 16388 (empty_cache smallDisk) es = UB.
Proof.
  exists [EStore (blk 0 4 [1; 2; 3; 4]); EFlush; EStore (blk 1 2 [5; 6]); EWrite 0; EClear 0; EWrite 0]. split; [reflexivity|]. vm_compute. reflexivity.
Qed.
Print Assumptions C24_twice_refuted.

(** Finding: the size of a block is not checked; one larger than a group is written behind the
    buffer, and one larger than the piece is copied behind the buffer of the check. *)
Theorem C24_oversize_refuted : forall size disk b, 0 <= size < zlen (bdata b) -> storeBlock size (empty_cache disk) b = UB.
Proof.
  intros size disk b H. cbn [storeBlock empty_cache groups place gbuf]. unfold fill. unfold zlen at 2. rewrite repeat_length.
  destruct (Z.leb_spec (0 + zlen (bdata b)) (Z.of_nat (Z.to_nat size))); [lia|reflexivity].
Qed.
Print Assumptions C24_oversize_refuted.

Theorem C24_outside_refuted : forall s idx buffer g c, In g (groups s) -> In c (gblocks g) -> bindex (cinfo c) = idx ->
  (forall g c, In g (groups s) -> In c (gblocks g) -> bindex (cinfo c) = idx -> 0 <= bbegin (cinfo c)) ->
  bbegin (cinfo c) + zlen (cdata g c) > zlen buffer -> forall t s', readPiece t s s' idx buffer = UB.
Proof.
  intros s idx buffer g c K Kc E N H t s'. unfold readPiece, missingOf, readBlocks.
  assert (X : In (g, c) (cachedOf s idx)) by (apply cachedOf_In; split; [now split|assumption]).
  assert (P : forall g c, In (g, c) (cachedOf s idx) -> 0 <= bbegin (cinfo c)).
  { intros g' c' Q. apply cachedOf_In in Q. destruct Q as [[Q1 Q2] Q3]. now apply (N g' c'). }
  assert (U : copyBlocks (cachedOf s idx) buffer = UB).
  { clear K Kc E N. revert buffer H X P. induction (cachedOf s idx) as [|[g1 c1] l IH]; intros buffer H X P; [contradiction X|]. cbn [copyBlocks].
    destruct (fill buffer (bbegin (cinfo c1)) (cdata g1 c1)) as [b1|] eqn:F; [|reflexivity]. cbn [bind].
    assert (L : zlen b1 = zlen buffer).
    { specialize (P g1 c1 (or_introl eq_refl)). unfold fill in F. destruct (Z.leb_spec (bbegin (cinfo c1) + zlen (cdata g1 c1)) (zlen buffer)); [|discriminate].
      inversion F. unfold zlen in *. rewrite !app_length, firstn_length, skipn_length. lia. }
    destruct X as [X|X].
    - inversion X; subst. unfold fill in F. destruct (Z.leb_spec (bbegin (cinfo c) + zlen (cdata g c)) (zlen buffer)); [lia|discriminate].
    - apply IH; [lia|assumption|]. intros. apply (P g0 c0). now right. }
  rewrite U. reflexivity.
Qed.
Print Assumptions C24_outside_refuted.

(** A run which meets the hypotheses: two groups, one written and cleared between looking into the
    cache and reading the files. *)
Definition sample1 : list event := [EStore (blk 0 4 [1; 2; 3; 4]); EWrite 0; EStore (blk 1 2 [5; 6])].
Definition sample2 : list event := [EClear 0; EWrite 1; EClear 1].

Example C24_calm : calm small 16384 (empty_cache smallDisk) (sample1 ++ sample2).
Proof.
  cbn [app sample1 sample2 calm allowed]. split.
  { split; [apply small_standard; lia|]. split; [reflexivity|]. split; [intros g c x []|intros g []]. }
  intros s1 E1. split; [exact I|]. intros s2 E2. 
  vm_compute in E1. inversion E1; subst s1. clear E1. vm_compute in E2. inversion E2; subst s2. clear E2. split.
  { split; [apply small_standard; lia|]. split; [reflexivity|]. split.
    - intros g c x [<-|[]] [<-|[]] C1 C2. exfalso. unfold covers, block_start in C1, C2. cbn in C1, C2. lia.
    - intros g [<-|[]] _. vm_compute. reflexivity. }
  intros s3 _. split; [exact I|]. intros s4 _. split; [exact I|]. intros s5 _. split; [exact I|]. intros s6 _. exact I.
Qed.

Example C24_example : exists s1 s2, run small 16384 (empty_cache smallDisk) sample1 = Ok s1 /\ run small 16384 s1 sample2 = Ok s2 /\
  readPiece small s1 s2 1 [7; 7] = Ok (Success, [5; 6]) /\ readPiece small s2 s2 0 [7; 7; 7; 7] = Ok (Success, [1; 2; 3; 4]).
Proof.
  destruct (run small 16384 (empty_cache smallDisk) sample1) as [s1|] eqn:E1; [|vm_compute in E1; discriminate]. exists s1.
  vm_compute in E1. inversion E1; subst s1. clear E1. eexists. split; [reflexivity|]. split; [vm_compute; reflexivity|]. split; vm_compute; reflexivity.
Qed.

Lemma loadFrom_missing ps idx offs fs : forall o disk k buffer st b, 0 < ps -> all_placed ps o fs -> length disk = length fs -> (k < length fs)%nat ->
  idx <= endPiece (nth 0 fs noFile) -> startPiece (nth k fs noFile) <= idx -> nth k disk (Some []) = None ->
  loadFrom ps fs disk idx offs buffer = Ok (st, b) -> isSuccess st = false.
Proof.
  induction fs as [|f fs IH]; intros o disk k buffer st b P A L K E S N R; [inversion K|].
  destruct disk as [|c disk]; [discriminate|]. destruct A as [A1 A2]. cbn [loadFrom] in R.
  assert (SS : startPiece f <= startPiece (nth k (f :: fs) noFile)).
  { destruct k as [|k]; [apply Z.le_refl|]. cbn [nth].
    assert (G : forall fs o, all_placed ps o fs -> forall k, (k < length fs)%nat -> startPiece f * ps <= o -> startPiece f <= startPiece (nth k fs noFile)).
    { clear -P. induction fs as [|g fs IH]; intros o A k K H; [inversion K|]. destruct A as [A1 A2]. destruct k as [|k].
      - now apply (start_ge ps o).
      - cbn [nth]. apply (IH (o + fsize g)); [assumption|cbn [length] in K; lia|]. destruct A1 as (_ & _ & _ & _ & A1 & _). lia. }
    apply (G fs (o + fsize f) A2); [cbn [length] in K; lia|]. destruct A1 as (B1 & B2 & B3 & B4 & B5 & B6). lia. }
  cbn [nth] in E. unfold fileContainsPiece in R.
  destruct (Z.leb_spec (startPiece f) idx); [|lia]. destruct (Z.leb_spec idx (endPiece f)); [|lia]. cbn [andb] in R.
  destruct k as [|k].
  - cbn [nth] in N. subst c. cbn [loadFromFile bind isSuccess] in R. inversion R; subst. reflexivity.
  - destruct (loadFromFile ps f c idx offs buffer) as [[s1 b1]|]; [|discriminate]. cbn [bind] in R.
    destruct (isSuccess s1) eqn:Q; [|inversion R; subst; assumption]. cbn [nth] in N, S. cbn [length] in K.
    apply (IH (o + fsize f) disk k b1 st b); try assumption; try lia.
    + cbn [length] in L. lia.
    + destruct fs as [|g fs]; [inversion K; lia|]. cbn [nth]. destruct A2 as [A2 _].
      assert (endPiece f <= startPiece g).
      { apply (start_ge ps (o + fsize f) g P A2). destruct A1 as (_ & B2 & _ & B4 & _). lia. }
      destruct A2 as (_ & _ & _ & _ & _ & D6 & _). lia.
Qed.

(** A piece with bytes in a file which is missing, of which nothing is cached, never passes its
    check (nor counts as having wrong bytes): the error of the storage is reported. *)
Theorem C60_missing_file : forall t hash s s' idx buffer k, laid_out t -> length (cdisk s') = length (files t) ->
  (forall g c, In g (groups s) -> In c (gblocks g) -> bindex (cinfo c) <> idx) -> 0 < zlen buffer ->
  (k < length (files t))%nat -> startPiece (nth k (files t) noFile) <= idx <= endPiece (nth k (files t) noFile) -> nth k (cdisk s') (Some []) = None ->
  forall r, checkPieceFunc t hash s s' idx buffer <> Ok (Some r).
Proof.
  intros t hash s s' idx buffer k LO L N B K S D r R. destruct (laid_out_ok t LO) as (P & A & _).
  assert (C : cachedOf s idx = []).
  { destruct (cachedOf s idx) as [|[g c] l] eqn:E; [reflexivity|exfalso]. assert (X : In (g, c) (cachedOf s idx)) by (rewrite E; now left).
    apply cachedOf_In in X. destruct X as [[X1 X2] X3]. now apply (N g c). }
  unfold checkPieceFunc, readPiece, missingOf, readBlocks in R. rewrite C in R. cbn [map copyBlocks bind sortOffsets gaps] in R.
  destruct (Z.ltb_spec 0 (zlen buffer)); [|lia]. cbn [app] in R. unfold loadPieceBlocks in R.
  match type of R with context [loadLowerBound ?p ?f ?d ?i ?q ?b] => destruct (loadLowerBound p f d i q b) as [[st b']|] eqn:E; [|discriminate]; set (offs := q) in * end.
  cbn [bind] in R. destruct (isSuccess st) eqn:Q; [|discriminate]. clear R. enough (isSuccess st = false) by congruence. clear Q C N.
  destruct S as [S1 S2]. revert E. generalize (cdisk s') L D. clear L D. revert k K S1 S2. revert A. generalize 0 at 1. generalize (files t).
  induction l as [|f fs IH]; intros o A k K S1 S2 disk L D E; [inversion K|]. destruct disk as [|c disk]; [discriminate|].
  cbn [loadLowerBound] in E. destruct (Z.ltb_spec (endPiece f) idx).
  - destruct k as [|k]; [cbn [nth] in S2; lia|]. cbn [nth length] in *. destruct A as [_ A]. apply (IH _ A k ltac:(lia) S1 S2 disk); try assumption; lia.
  - apply (loadFrom_missing (pieceSize t) idx offs (f :: fs) o (c :: disk) k buffer st b'); try assumption; lia.
Qed.
Print Assumptions C60_missing_file.

Example C60_missing_example : forall hash, checkPieceFunc small hash (empty_cache [None]) (empty_cache [None]) 0 [1; 2; 3; 4] = Ok None.
Proof. reflexivity. Qed.

(** Finding: the buffer of an earlier check is used again and a file which is too short is read
    without an error. A piece whose check was the last that succeeded succeeds again although its
    file was cut to nothing since. *)
Theorem C60_truncated_refuted : forall piece, zlen piece = 4 ->
  checkPieceFunc small (SHA1 piece) (empty_cache [Some []]) (empty_cache [Some []]) 0 piece = Ok (Some true).
Proof.
  intros piece H. destruct piece as [|a [|b [|c [|d [|e l]]]]]; try discriminate.
  - unfold checkPieceFunc. replace (readPiece small _ _ 0 _) with (Ok (Success, [a; b; c; d])) by reflexivity.
    cbn [bind isSuccess]. now rewrite list_eqb_refl.
  - unfold zlen in H. cbn [length] in H. lia.
Qed.
Print Assumptions C60_truncated_refuted.
