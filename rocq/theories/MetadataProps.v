(** C27, C67 and C68: torrent metadata from and for peers. *)
From Coq Require Import Sorted.
From Verif Require Import Base BaseLemmas Dec BencodeModel ShaModel MetadataModel MetadataSpec MetadataProofs MetadataProofs2.

(** Complete exactly when a size was announced and each part arrived, in any order, from any
    peers and with repetitions. *)
Theorem C27_complete_iff : forall evs s, Forall event_ok evs -> mrun noMdl evs = Ok s ->
  (mfin s = true <-> exists sz, announced evs = Some sz /\ forall k, 0 <= k < parts sz -> exists d, arrived evs k d) /\
  mfinished (mrec s) = mfin s.
Proof.
  intros evs s Hok E. pose proof (mrun_inv evs Hok s E) as [A B C D]. split; [|now symmetry]. rewrite B. split.
  - intros F. destruct (announced evs) as [sz|].
    2:{ destruct (C eq_refl) as (_ & C2 & C3 & _). unfold mfinished in F. rewrite C3, C2 in F. discriminate. }
    exists sz. split; [reflexivity|]. destruct (D sz eq_refl) as (_ & _ & _ & _ & _ & D6). intros k K.
    destruct (D6 k K) as [X|(d & X & _)].
    + unfold mfinished in F. destruct (mremain (mrec s)); [easy|discriminate].
    + exists d. now apply first_arrived.
  - intros (sz & EA & ALL). destruct (D sz EA) as (D1 & D2 & D3 & D4 & D5 & D6). pose proof (parts_range sz D1).
    unfold mfinished. destruct (mremain (mrec s)) as [|k l] eqn:R.
    + rewrite D3. lia.
    + destruct (D5 k) as [K NA]; [now left|]. destruct (ALL k K) as [d X]. now apply NA in X.
Qed.
Print Assumptions C27_complete_iff.

(** The buffer then is the metadata, if each message brought the part it named. *)
Theorem C27_assembled : forall evs s M, Forall event_ok evs -> mrun noMdl evs = Ok s -> mfin s = true ->
  announced evs = Some (zlen M) -> (forall k d, arrived evs k d -> d = part k M) -> mbuf (mrec s) = M.
Proof.
  intros evs s M Hok E F EA HM. pose proof (mrun_inv evs Hok s E) as [A B C D]. rewrite B in F.
  destruct (D _ EA) as (D1 & D2 & D3 & D4 & D5 & D6). unfold zlen in *.
  apply (nth_ext _ _ 0 0); [lia|]. intros i Hi.
  assert (K : 0 <= Z.of_nat i / 16384 < parts (Z.of_nat (length M))) by (unfold parts; lia).
  destruct (D6 _ K) as [X|(d & X & H1 & H2 & H3)].
  { unfold mfinished in F. destruct (mremain (mrec s)); [easy|discriminate]. }
  apply first_arrived in X. apply HM in X. set (k := Z.of_nat i / 16384) in *.
  set (j := Z.of_nat i mod 16384). pose proof (Z.mod_pos_bound (Z.of_nat i) 16384 eq_refl) as J. fold j in J.
  assert (KM : Z.of_nat i = k * 16384 + j) by (unfold k, j; lia). clearbody k j.
  assert (LD : j < Z.of_nat (length d)).
  { rewrite X. unfold part, slice. rewrite firstn_length, skipn_length. lia. }
  assert (ID : i = Z.to_nat (k * 16384 + j)) by lia. rewrite ID at 1. rewrite H3 by (unfold zlen; lia). rewrite X. unfold part. rewrite nth_slice by lia. f_equal. lia.
Qed.
Print Assumptions C27_assembled.

(** Without that: what is in the buffer is what arrived first for each part. *)
Theorem C27_first_counts : forall evs s sz k, Forall event_ok evs -> mrun noMdl evs = Ok s -> announced evs = Some sz ->
  0 <= k < parts sz -> ~ In k (mremain (mrec s)) ->
  exists d, first_arrival evs k d /\ slice (Z.to_nat (k * 16384)) (length d) (mbuf (mrec s)) = d.
Proof.
  intros evs s sz k Hok E EA K NI. pose proof (mrun_inv evs Hok s E) as [A B C D].
  destruct (D _ EA) as (D1 & D2 & D3 & D4 & D5 & D6). destruct (D6 k K) as [X|(d & X & H1 & H2 & H3)]; [contradiction|].
  exists d. split; [exact X|]. unfold zlen in *. apply (nth_ext _ _ 0 0).
  - unfold slice. rewrite firstn_length, skipn_length. lia.
  - intros i Hi. unfold slice in Hi. rewrite firstn_length in Hi. rewrite nth_slice by lia. specialize (H3 (Z.of_nat i) ltac:(lia)).
    rewrite Nat2Z.id in H3. rewrite <- H3. f_equal. lia.
Qed.
Print Assumptions C27_first_counts.

(** Once a size is known each question is for a part which has not arrived. *)
Theorem C27_asks_missing_partial : forall evs e s s' sz, Forall event_ok (evs ++ [e]) -> mrun noMdl evs = Ok s -> mstep s e = Ok s' ->
  announced (evs ++ [e]) = Some sz ->
  exists new, masked s' = new ++ masked s /\ forall p i, In (p, i) new -> 0 <= i < parts sz /\ forall d, ~ arrived (evs ++ [e]) i d.
Proof.
  intros evs e s s' sz Hok E E' EA.
  assert (I' : minv (evs ++ [e]) s') by (apply (mrun_inv _ Hok); rewrite mrun_app, E; cbn; now rewrite E').
  assert (Q : forall s0 p, minv (evs ++ [e]) s0 -> masked (requestPiece s0 p) = masked s0 \/
    exists i, masked (requestPiece s0 p) = (p, i) :: masked s0 /\ 0 <= i < parts sz /\ forall d, ~ arrived (evs ++ [e]) i d).
  { intros s0 p I. destruct (I_some _ _ I sz EA) as (D1 & D2 & D3 & D4 & D5 & D6). pose proof (parts_range sz D1). unfold requestPiece.
    destruct (mact s0 && negb (mfin s0)) eqn:C; [right|now left].
    assert (N : mremain (mrec s0) <> []).
    { intros X. apply andb_prop in C as [_ C]. rewrite (I_fin _ _ I) in C. unfold mfinished in C. rewrite X, D3 in C. lia. }
    assert (P : Forall (fun k => 0 <= k) (mremain (mrec s0))) by (rewrite Forall_forall; intros k K; apply D5 in K; lia).
    destruct (getMissing_ok (mrec s0) D4 N P) as (n & i & G & IN). rewrite G. exists i. split; [reflexivity|]. now apply D5. }
  assert (QL : forall l s0, minv (evs ++ [e]) s0 -> exists new, masked (fold_left requestPiece l s0) = new ++ masked s0 /\
    forall p i, In (p, i) new -> 0 <= i < parts sz /\ forall d, ~ arrived (evs ++ [e]) i d).
  { induction l as [|p l IH]; intros s0 I; [exists []; split; [reflexivity|easy]|]. cbn [fold_left].
    destruct (IH (requestPiece s0 p)) as (new & EN & HN); [now apply minv_request|].
    destruct (Q s0 p I) as [X|(i & X & Y)]; rewrite X in EN.
    - exists new. now split.
    - exists (new ++ [(p, i)]). split; [now rewrite <- app_assoc|]. intros p' i' J. apply in_app_or in J as [J|[[= <- <-]|[]]]; [now apply (HN p')|exact Y]. }
  (* what the state was before the last question *)
  assert (same : forall s1 p, requestPiece s1 p = s' -> masked s1 = masked s -> exists new, masked s' = new ++ masked s /\
    forall p i, In (p, i) new -> 0 <= i < parts sz /\ forall d, ~ arrived (evs ++ [e]) i d).
  { intros s1 p R M. destruct (requestPiece_same s1 p) as (A1 & A2 & A3 & A4 & A5 & _). rewrite R in *.
    assert (I1 : minv (evs ++ [e]) s1) by (apply (minv_ext _ s'); [exact I'|congruence..]).
    destruct (QL [p] s1 I1) as (new & X & Y). cbn in X. rewrite R, M in X. exists new. now split. }
  assert (none : masked s' = masked s -> exists new, masked s' = new ++ masked s /\
    forall p i, In (p, i) new -> 0 <= i < parts sz /\ forall d, ~ arrived (evs ++ [e]) i d).
  { intros X. exists []. now split. }
  destruct e as [|p z en|p msg| |p|]; cbn in E'.
  - injection E' as E'. apply none. now rewrite <- E'.
  - injection E' as E'. unfold onHandshake in E'. destruct (negb (z =? 0) && en); [|apply none; now rewrite <- E'].
    eapply same; [exact E'|reflexivity].
  - unfold onMessage in E'. destruct (negb (mact s)); [apply none; congruence|].
    destruct msg as [| |k|k t d|k]; try (apply none; congruence).
    destruct (negb _); [apply none; congruence|]. destruct (maddPiece (mrec s) d k) as [[r added]|]; [|discriminate]. cbn [bind] in E'.
    destruct (mfinished r); injection E' as E'; [apply none; now rewrite <- E'|]. eapply same; [exact E'|reflexivity].
  - injection E' as E'. destruct (mact s && negb (mfin s)) eqn:C; [|apply none; congruence].
    (* the same state as far as the invariant goes *)
    assert (I1 : minv (evs ++ [MRetry]) s).
    { apply Forall_app in Hok as [Hok _]. pose proof (mrun_inv evs Hok s E) as I. apply (minv_quiet evs MRetry s); try reflexivity; try assumption.
      - intros k d (p & t & X & _). discriminate.
      - rewrite live_snoc. apply I. }
    destruct (QL (mcomms s) s I1) as (new & X & Y). exists new. rewrite <- E'. now split.
  - injection E' as E'. apply none. now rewrite <- E'.
  - injection E' as E'. apply none. rewrite <- E'. now destruct (mact s).
Qed.
Print Assumptions C27_asks_missing_partial.

(** Nothing is left out: as long as nothing arrives, twice as many questions as parts name
    every missing part. *)
Theorem C27_asks_every_part : forall evs s sz k, Forall event_ok evs -> mrun noMdl evs = Ok s -> announced evs = Some sz ->
  In k (mremain (mrec s)) -> In k (asks (2 * Z.to_nat (parts sz)) (mrec s)).
Proof.
  intros evs s sz k Hok E EA IK. pose proof (mnext_run evs noMdl s (Z.le_refl 0) E) as HN. pose proof (mrun_inv evs Hok s E) as [A B C D].
  destruct (D _ EA) as (D1 & D2 & D3 & D4 & D5 & D6). pose proof (parts_range sz D1).
  assert (P : Forall (fun k => 0 <= k < 4294967295) (mremain (mrec s))) by (rewrite Forall_forall; intros x X; apply D5 in X; lia).
  assert (N : mremain (mrec s) <> []) by (intros X; now rewrite X in IK).
  pose proof (top_in (mrec s) D4 N) as T. apply D5 in T as [T _].
  replace (mrec s) with {| mbuf := mbuf (mrec s); mpieces := mpieces (mrec s); mnext := mnext (mrec s); mremain := mremain (mrec s) |} by (now destruct (mrec s)).
  apply (asks_all (mrec s) D4 N P k IK (Z.to_nat (last (mremain (mrec s)) 0 + 1))); try lia.
Qed.
Print Assumptions C27_asks_every_part.

(** No undefined behaviour, if each accepted part ends within the announced size and each
    message names its type. Missing: any message (see the findings). *)
Theorem C27_safe_partial : forall evs, Forall event_ok evs -> all_fit evs -> exists s, mrun noMdl evs = Ok s.
Proof. intros evs A B. destruct (mrun_ok evs A B) as (s & E & _). now exists s. Qed.
Print Assumptions C27_safe_partial.

(** What [Load] lets through has numbers in range and at most 16 KiB. *)
Theorem C27_loaded_fits : forall fuel m len p msg, Load fuel m len = Val msg -> event_ok (MMessage p msg).
Proof. exact load_fits. Qed.
Print Assumptions C27_loaded_fits.

(** A download of three parts, out of order, from two peers, with one part twice. *)
Definition exMeta : list Z := repeat 7 (Z.to_nat 16384) ++ repeat 8 (Z.to_nat 16384) ++ [1; 2; 3].
Definition exMEvents : list mevent :=
  [MStart; MHandshake 1 32771 true; MMessage 1 (LData 2 32771 [1; 2; 3]); MHandshake 2 99 true; MRetry;
   MMessage 2 (LData 0 32771 (part 0 exMeta)); MClosed 1; MMessage 2 (LData 2 32771 [1; 2; 3]); MMessage 2 (LData 1 32771 (part 1 exMeta))].

Example C27_meets : Forall event_ok exMEvents /\ announced exMEvents = Some (zlen exMeta) /\
  match mrun noMdl exMEvents with
  | Ok s => mfin s && list_eqb (map snd (masked s)) [1; 1; 0; 1; 0; 1; 0] && list_eqb (mbuf (mrec s)) exMeta
  | UB => false
  end = true.
Proof.
  split; [|split; [vm_compute; reflexivity|vm_compute; reflexivity]].
  repeat constructor; try (vm_compute; intros; discriminate).
Qed.

Example C27_fits_meets : all_fit [MStart; MHandshake 1 20000 true; MMessage 1 (LData 1 20000 [1; 2; 3])].
Proof.
  intros pre e post E. destruct pre as [|a [|b [|c [|d pre]]]]; injection E as; subst; try exact I; try easy.
Qed.

(** Finding: a last part with more bytes than remain is written behind the end of the buffer,
    for every size which is not a multiple of 16 KiB. *)
Theorem C27_overlong_refuted : forall sz p d, 0 < sz < 4294967296 -> sz mod 16384 < zlen d <= 16384 -> 0 < sz mod 16384 ->
  mrun noMdl [MStart; MHandshake p sz true; MMessage p (LData (sz / 16384) sz d)] = UB.
Proof.
  intros sz p d H Hd Hm. pose proof (parts_range sz H). destruct (minit_ok sz H) as (M1 & M2 & M3 & M4). cbn [mrun mstep bind].
  unfold onHandshake. replace (sz =? 0) with false by lia. cbn [negb andb mrec noMdl mact mfin mgot mcomms masked minfo].
  replace (mpieces noRecon =? 0) with true by reflexivity. 
  set (s0 := {| mact := true; mfin := false; mgot := 0; mrec := minit noRecon sz; mcomms := [] ++ [p]; masked := []; minfo := None |}).
  destruct (requestPiece_same s0 p) as (A1 & A2 & A3 & A4 & A5 & _). set (s1 := requestPiece s0 p) in *.
  unfold onMessage. rewrite A1. cbn [mact s0 negb]. rewrite A3. cbn [s0 mrec]. rewrite M1, Z.eqb_refl. cbn [negb].
  unfold maddPiece. rewrite A5. cbn [s0 mrec]. rewrite M4.
  assert (IN : In (sz / 16384) (zseq 0 (Z.to_nat (parts sz)))) by (apply In_zseq; unfold parts in *; lia).
  apply inSet_In in IN. rewrite IN. rewrite A3. cbn [s0 mrec]. unfold mcopy. rewrite M1.
  assert (UO : u32 (sz / 16384 * mPart) = sz / 16384 * 16384) by (unfold u32, mPart; apply Z.mod_small; lia). rewrite UO.
  destruct (Z.leb_spec (sz / 16384 * 16384 + zlen d) sz); [|reflexivity].
  pose proof (Z_div_mod_eq_full sz 16384). lia.
Qed.
Print Assumptions C27_overlong_refuted.

(** Finding: a part without data counts as received; the download ends with other bytes. *)
Theorem C27_empty_part_refuted : forall sz p, 0 < sz <= 16384 ->
  exists s, mrun noMdl [MStart; MHandshake p sz true; MMessage p (LData 0 sz [])] = Ok s /\ mfin s = true /\ mbuf (mrec s) = repeat 0 (Z.to_nat sz).
Proof.
  intros sz p H. assert (PP := parts_small sz H).
  set (evs := [MStart; MHandshake p sz true; MMessage p (LData 0 sz [])]).
  assert (EO : Forall event_ok evs) by (repeat constructor; unfold zlen; cbn; lia).
  assert (AN : announced evs = Some sz) by (cbn; destruct (Z.eqb_spec sz 0); [lia|reflexivity]).
  destruct (mrun_ok evs EO) as (s & E & _).
  { intros pre e post EQ. destruct pre as [|a [|b [|c [|d pre]]]]; injection EQ as; subst; try exact I; try easy.
    cbn. intros. unfold zlen. cbn. lia. }
  exists s. split; [exact E|]. split.
  - apply (C27_complete_iff evs s EO E). exists sz. split; [exact AN|]. intros k K. assert (k = 0) by lia. subst k. exists [].
    exists [MStart; MHandshake p sz true], p, sz, []. split; [reflexivity|]. split; [reflexivity|]. cbn. destruct (Z.eqb_spec sz 0); [lia|reflexivity].
  - destruct (minit_ok sz ltac:(lia)) as (M1 & M2 & M3 & M4). rewrite PP in M4. cbn in M4.
    revert E. unfold evs. cbn [mrun mstep bind]. unfold onHandshake. replace (sz =? 0) with false by lia.
    cbn [negb andb mrec noMdl mact mfin mgot mcomms masked minfo]. replace (mpieces noRecon =? 0) with true by reflexivity.
    set (s0 := {| mact := true; mfin := false; mgot := 0; mrec := minit noRecon sz; mcomms := [] ++ [p]; masked := []; minfo := None |}).
    destruct (requestPiece_same s0 p) as (A1 & A2 & A3 & A4 & A5 & _). set (s1 := requestPiece s0 p) in *.
    assert (MB : mbuf (minit noRecon sz) = repeat 0 (Z.to_nat sz)).
    { unfold minit. destruct (initLoop _ _ _ _). cbn [mbuf noRecon length]. rewrite firstn_nil, Nat.sub_0_r. reflexivity. }
    unfold onMessage. rewrite A1. cbn [mact s0 negb]. rewrite A3. cbn [s0 mrec]. rewrite M1, Z.eqb_refl. cbn [negb].
    unfold maddPiece. rewrite A5. cbn [s0 mrec]. rewrite M4. cbn [inSet existsb Z.eqb orb]. rewrite A3. cbn [s0 mrec]. unfold mcopy.
    change (u32 (0 * mPart)) with 0. rewrite M1. replace (0 + zlen (@nil Z) <=? sz) with true by (unfold zlen; cbn; lia).
    cbn [bind app length]. rewrite Nat.add_0_r, firstn_skipn. unfold mfinished. cbn [mremain setErase filter Z.eqb negb mpieces].
    rewrite A4. cbn [s0 mrec]. rewrite M2, PP. cbn [Z.eqb negb]. intros [= <-]. cbn. exact MB.
Qed.
Print Assumptions C27_empty_part_refuted.

(** Finding: before any size is known, a data message for size 0 makes the program ask for
    part 4294967295. *)
Theorem C27_asks_nonsense_refuted : forall p k d, exists s,
  mrun noMdl [MStart; MMessage p (LData k 0 d)] = Ok s /\ masked s = [(p, 4294967295)].
Proof. intros p k d. eexists. split; reflexivity. Qed.
Print Assumptions C27_asks_nonsense_refuted.

(** Finding: a message without a type is used nonetheless. *)
Theorem C27_untyped_refuted : forall p, mrun noMdl [MStart; MMessage p LUnset] = UB.
Proof. reflexivity. Qed.
Print Assumptions C27_untyped_refuted.
Example C27_untyped_meets : Load 20 ([100;101] ++ [0;0;0]) 2 = Val LUnset.
Proof. vm_compute. reflexivity. Qed.

(** ** C67: serving *)

(** The bytes of a request are read as that request, the answer is read as that part with the
    full size, and only parts which exist are answered. Missing: numbers of 2^18 and more (see
    the finding). *)
Theorem C67_exchange_partial : forall data id1 id2 k c rest fuel, 0 <= k < 262144 -> 0 < zlen data < 4294967296 -> (14 <= fuel)%nat ->
  exists req, sendPieceRequest id1 k = be 4 (2 + zlen req) ++ [20; u8 id1] ++ req /\
    Load fuel (req ++ c :: rest) (zlen req) = Val (LRequest k) /\
    if k <? parts (zlen data)
    then exists ans, serve data id2 (LRequest k) = Ok (Some (be 4 (2 + zlen ans) ++ [20; u8 id2] ++ ans)) /\
           Load fuel (ans ++ c :: rest) (zlen ans) = Val (LData k (zlen data) (part k data))
    else serve data id2 (LRequest k) = Ok None.
Proof.
  intros data id1 id2 k c rest fuel Hk Hs Hf. exists (requestBody k). split; [|split].
  - unfold sendPieceRequest, frame. rewrite requestBody_eq. pose proof (reqVal_len k ltac:(lia)). unfold u32.
    rewrite Z.mod_small by (unfold zlen in *; lia). reflexivity.
  - apply load_request; lia.
  - unfold serve. assert (UO : u32 (k * mPart) = k * 16384) by (unfold u32, mPart; apply Z.mod_small; lia). rewrite UO.
    destruct (Z.ltb_spec k (parts (zlen data))) as [L|L]; unfold parts in L.
    + replace (k * 16384 <? zlen data) with true by lia.
      assert (SL : slice (Z.to_nat (k * 16384)) (Z.to_nat (Z.min mPart (zlen data - k * 16384))) data = part k data).
      { unfold part, slice, mPart. rewrite <- (firstn_all2 (n := Z.to_nat (zlen data - k * 16384)) (skipn (Z.to_nat (k * 16384)) data)) at 2
          by (rewrite skipn_length; unfold zlen; lia). rewrite firstn_firstn. f_equal. lia. }
      rewrite SL. exists (responseBody k (part k data) (zlen data)).
      assert (PL : zlen (part k data) <= 16384) by (unfold part; pose proof (slice_le (Z.to_nat (k * 16384)) (Z.to_nat 16384) data); lia).
      split.
      * unfold sendPieceResponse, frame. unfold u32. rewrite responseBody_eq. pose proof (resVal_len k (zlen data) ltac:(lia) ltac:(lia)).
        rewrite zlen_app. rewrite Z.mod_small by (unfold zlen in *; lia). reflexivity.
      * apply load_response; lia.
    + replace (k * 16384 <? zlen data) with false by lia. reflexivity.
Qed.
Print Assumptions C67_exchange_partial.

Example C67_meets : exists ans, serve (repeat 5 20) 3 (LRequest 0) = Ok (Some ans) /\ ans <> [].
Proof. eexists. split; [vm_compute; reflexivity|discriminate]. Qed.

(** Finding: the offset is cut to 32 bits, so a part far behind the end is answered with a part
    from the start. *)
Theorem C67_wrap_refuted : forall data id k, 0 <= k < parts (zlen data) -> zlen data < 4294967296 ->
  serve data id (LRequest (k + 262144)) = Ok (Some (sendPieceResponse id (k + 262144) (part k data) (zlen data))).
Proof.
  intros data id k Hk Hs. unfold serve. unfold parts in Hk.
  assert (UO : u32 ((k + 262144) * mPart) = k * 16384) by (unfold u32, mPart; lia). rewrite UO.
  replace (k * 16384 <? zlen data) with true by lia.
  assert (SL : slice (Z.to_nat (k * 16384)) (Z.to_nat (Z.min mPart (zlen data - k * 16384))) data = part k data).
  { unfold part, slice, mPart. rewrite <- (firstn_all2 (n := Z.to_nat (zlen data - k * 16384)) (skipn (Z.to_nat (k * 16384)) data)) at 2
      by (rewrite skipn_length; unfold zlen; lia). rewrite firstn_firstn. f_equal. lia. }
  now rewrite SL.
Qed.
Print Assumptions C67_wrap_refuted.
Example C67_wrap_meets : 0 <= 0 < parts (zlen (repeat 5 20)) /\ zlen (repeat 5 20) < 4294967296.
Proof. vm_compute. repeat split; discriminate. Qed.

(** ** C68: is it the right metadata? *)

(** What becomes the torrent's metadata was complete, and the hash stored with it is its own. *)
Theorem C68_installed_partial : forall evs s M h, Forall event_ok evs -> mrun noMdl evs = Ok s -> minfo s = Some (M, h) ->
  h = SHA1 M /\ exists sz, announced evs = Some sz /\ zlen M = sz.
Proof.
  induction evs as [|e evs IH] using rev_ind; intros s M h Hok E HI.
  - injection E as <-. discriminate.
  - pose proof Hok as Hok'. apply Forall_app in Hok as [Hok _]. rewrite mrun_app in E.
    destruct (mrun noMdl evs) as [s0|] eqn:E0; [|discriminate]. cbn in E. destruct (mstep s0 e) as [s1|] eqn:E1; [|discriminate].
    injection E as ->.
    assert (K : minfo s = minfo s0 \/ (mfinished (mrec s0) = true /\ minfo s = Some (mbuf (mrec s0), SHA1 (mbuf (mrec s0))))).
    { assert (R : forall a p, minfo (requestPiece a p) = minfo a) by (intros a p; destruct (requestPiece_same a p) as (_ & _ & _ & _ & _ & _ & X); exact X).
      destruct e as [|p z en|p msg| |p|]; cbn in E1.
      - injection E1 as <-. now left.
      - injection E1 as <-. left. unfold onHandshake. destruct (negb (z =? 0) && en); [|reflexivity]. now rewrite R.
      - left. unfold onMessage in E1. destruct (negb (mact s0)); [congruence|].
        destruct msg as [| |k|k t d|k]; try congruence. destruct (negb _); [congruence|].
        destruct (maddPiece (mrec s0) d k) as [[r added]|]; [|discriminate]. cbn [bind] in E1.
        destruct (mfinished r); injection E1 as <-; [reflexivity|]. now rewrite R.
      - injection E1 as <-. left. destruct (mact s0 && negb (mfin s0)); [|reflexivity].
        assert (G : forall l a, minfo (fold_left requestPiece l a) = minfo a) by (induction l; intros a0; [reflexivity|cbn; now rewrite IHl, R]).
        apply G.
      - injection E1 as <-. now left.
      - injection E1 as <-. destruct (mact s0); [|now left]. destruct (mfinished (mrec s0)) eqn:F; [right|left]; cbn; rewrite ?F; now repeat split. }
    destruct K as [K|[F K]].
    + rewrite K in HI. destruct (IH s0 M h Hok eq_refl HI) as (A & sz & B & C). split; [exact A|]. exists sz. split; [|exact C]. now rewrite announced_app, B.
    + rewrite K in HI. injection HI as <- <-. split; [reflexivity|]. pose proof (mrun_inv evs Hok s0 E0) as [A B C D].
      destruct (announced evs) as [sz|] eqn:EA.
      * exists sz. rewrite announced_app, EA. split; [reflexivity|]. now apply D.
      * destruct (C eq_refl) as (_ & C2 & C3 & _). unfold mfinished in F. rewrite C3, C2 in F. discriminate.
Qed.
Print Assumptions C68_installed_partial.

(** Finding: the hash the torrent was added with plays no part. Whatever it is, one peer can
    have other metadata accepted, here one of two dictionaries. *)
Theorem C68_unverified_refuted : forall wanted p, exists M s,
  mrun noMdl [MStart; MHandshake p (zlen M) true; MMessage p (LData 0 (zlen M) M); MStop] = Ok s /\
  minfo s = Some (M, SHA1 M) /\ SHA1 M <> wanted.
Proof.
  intros wanted p.
  assert (D : SHA1 [100; 101] <> SHA1 [108; 101]) by (vm_compute; discriminate).
  assert (X : forall a b, exists s, mrun noMdl [MStart; MHandshake p (zlen [a; b]) true; MMessage p (LData 0 (zlen [a; b]) [a; b]); MStop] = Ok s /\
     minfo s = Some ([a; b], SHA1 [a; b])) by (intros a b; eexists; split; reflexivity).
  destruct (list_eq_dec Z.eq_dec (SHA1 [100; 101]) wanted) as [E|E].
  - destruct (X 108 101) as (s & S1 & S2). exists [108; 101], s. split; [exact S1|]. split; [exact S2|]. congruence.
  - destruct (X 100 101) as (s & S1 & S2). exists [100; 101], s. split; [exact S1|]. split; [exact S2|]. exact E.
Qed.
Print Assumptions C68_unverified_refuted.
