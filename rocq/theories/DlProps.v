(** C51, C23, C61-C66: what the downloader asks from peers, stores and counts as received. *)
From Verif Require Import Base BaseLemmas LayoutModel ProgressModel ProgressSpec ProgressProofs Assoc DlModel DlSpec DlProofs DlProofs2 DlProofs3 DlProofs4 DlProofs5.

(** ** A download used by the examples: 3 pieces of 2 blocks, the last one shorter *)
Definition exTorrent : torrentInfo := match parseMultiFile 32768 [40000; 50000] with Ok t => t | UB => makeInfo 0 0 [] end.
Definition exStart : dl := newDl (init 3 emptyProgress) [] [].
Definition seed : view := {| choking := false; has := fun i => (0 <=? i) && (i <? 3); wish := 10 |}.
Definition seeds : Z -> view := fun _ => seed.
Definition exPr : progress := init 3 emptyProgress.

Lemma ex_start_ok : start_ok exTorrent 3 exPr [] [].
Proof.
  split; [reflexivity|]. split; [split; [repeat constructor; now left|vm_compute; reflexivity]|]. split; [repeat split|]. split; [|constructor].
  intros i Hi. assert (C : i = 0 \/ i = 1 \/ i = 2) by lia. destruct C as [->|[->| ->]]; vm_compute; split; congruence.
Qed.

Definition exBlock (p idx k : Z) : (Z -> view) * devent := (seeds, MBlock p (getPieceBlockInfo exTorrent idx k)).

(** Selecting, a bitfield of a seed, its blocks of piece 0, the check, the announcement *)
Definition exHead : list ((Z -> view) * devent) := [(seeds, MSelect exPr [(0, 10); (1, 10); (2, 10)]); (seeds, MBitfield 7)].
Definition exEvents : list ((Z -> view) * devent) := exHead ++ [exBlock 7 0 0; exBlock 7 0 1; (seeds, MChecked 0 CSuccess); (seeds, MPop)].

(** Histories are runs *)
Fixpoint allowed (t : torrentInfo) (n : Z) (d : dl) (es : list ((Z -> view) * devent)) : Prop :=
  match es with
  | [] => True
  | (vs, e) :: es' => possible n e /\ begins_inside t e /\ keeps d e /\ match dstep t vs d e with Ok d' => allowed t n d' es' | UB => False end
  end.

Lemma history_more t n d0 : forall es2 es d, history t n d0 es d -> allowed t n d es2 -> exists d', history t n d0 (es ++ es2) d' /\ drun t d es2 = Ok d'.
Proof.
  induction es2 as [|[vs e] es2 IH]; intros es d HI AL.
  - exists d. rewrite app_nil_r. auto.
  - cbn in AL. destruct AL as (A & B & C & D). destruct (dstep t vs d e) as [d1|] eqn:E; [|contradiction].
    destruct (IH (es ++ [(vs, e)]) d1) as (d' & X & Y); [now apply (h_step t n d0 es d)|exact D|]. exists d'. rewrite <- app_assoc in X. split; [exact X|]. cbn. now rewrite E.
Qed.

Lemma allowed_run t n d es : allowed t n d es -> exists d', history t n d es d' /\ drun t d es = Ok d'.
Proof. intros A. exact (history_more t n d es [] d (h_start _ _ _) A). Qed.

Lemma allowed_app t n : forall l rest d, allowed t n d (l ++ rest) -> allowed t n d l.
Proof.
  induction l as [|[v e] l IH]; intros rest d; cbn; [auto|]. intros (X1 & X2 & X3 & X4). repeat (split; [assumption|]). destruct (dstep t v d e); [eapply IH; eassumption|exact X4].
Qed.

Lemma ex_keeps d : dProg d = exPr -> forall i, 0 <= i -> is_received exPr i = is_received (dProg d) i.
Proof. now intros ->. Qed.

Lemma ex_allowed : allowed exTorrent 3 exStart exEvents.
Proof.
  unfold exEvents, exHead, exBlock. cbn [allowed app].
  split; [|split; [exact I|split; [now intros|]]].
  { split; [reflexivity|]. split; [exact (proj1 (proj2 ex_start_ok))|]. split; [repeat split|]. repeat constructor; cbn; lia. }
  set (s1 := dstep _ _ exStart _). vm_compute in s1. subst s1. cbv beta iota.
  split; [exact I|split; [exact I|split; [exact I|]]].
  set (s1 := dstep _ _ _ _). vm_compute in s1. subst s1. cbv beta iota.
  split; [vm_compute; split; congruence|split; [vm_compute; reflexivity|split; [exact I|]]].
  set (s1 := dstep _ _ _ _). vm_compute in s1. subst s1. cbv beta iota.
  split; [vm_compute; split; congruence|split; [vm_compute; reflexivity|split; [exact I|]]].
  set (s1 := dstep _ _ _ _). vm_compute in s1. subst s1. cbv beta iota.
  split; [exact I|split; [exact I|split; [exact I|]]].
  set (s1 := dstep _ _ _ _). vm_compute in s1. subst s1. cbv beta iota.
  split; [exact I|split; [exact I|split; [exact I|]]].
  set (s1 := dstep _ _ _ _). vm_compute in s1. subst s1. cbv beta iota. exact I.
Qed.

(** ** C51 *)

(** Whatever happens: no undefined behaviour, what is outstanding stays below the limit, every new
    request is a block of a piece the peer said it has, sent while the peer does not choke, none twice,
    and none which is outstanding, except to a peer which unchokes or for the block it just answered
    (see [C51_unchoke_refuted]). Missing: blocks beginning outside of their piece (see
    [C66_begin_refuted]), Have messages out of range (C52) and pieces of 65536 blocks
    ([C66_blocks_refuted]). *)
Theorem C51_requests_partial : forall t n pr unf stored es d vs e, start_ok t n pr unf stored -> n < 4294967296 ->
  history t n (newDl pr unf stored) es d -> possible n e -> begins_inside t e ->
  exists d' new, dstep t vs d e = Ok d' /\
    dSent d' = dSent d ++ map (fun q => (fst q, getPieceBlockInfo t (fst (snd q)) (snd (snd q)))) new /\
    NoDup new /\
    (forall p idx k, In (p, (idx, k)) new ->
       0 <= idx < n /\ 0 <= k < getPieceBlocksCount t idx /\ claimed (es ++ [(vs, e)]) p idx /\ choking (vs p) = false /\
       outstanding d' p idx k /\ (outstanding d p idx k -> again e p idx k)) /\
    (forall p idx k, outstanding d' p idx k -> outstanding d p idx k \/ In (p, (idx, k)) new) /\
    (forall p, load d' p <= Z.max (limit (vs p)) (load d p)) /\ (forall p, load d' p <= 100).
Proof.
  intros t n pr unf stored es d vs e ST Hn HI PO BI. destruct (history_step _ _ _ _ _ ST Hn es d vs e HI PO BI) as (d' & new & A & G & (O1 & O2 & O3 & O4 & O5) & _).
  exists d', new. split; [exact A|]. split; [exact O1|]. split; [exact O2|]. split; [|split; [exact O4|split; [exact O5|]]].
  - intros p idx k K. rewrite Forall_forall in O3. specialize (O3 _ K). cbn in O3. tauto.
  - intros p. destruct (aget p (dPeers d')) as [info|] eqn:E; [|unfold load; rewrite E; lia].
    rewrite (load_active t n _ d' p info (g_inv _ _ _ _ G) E). exact (i_active _ _ _ _ (g_inv _ _ _ _ G) p info E).
Qed.
Print Assumptions C51_requests_partial.

Example C51_meets : exists d, history exTorrent 3 exStart exEvents d /\ map fst (dSent d) = [7; 7; 7; 7; 7; 7] /\ map (fun q => bindex (snd q)) (dSent d) = [0; 0; 1; 1; 2; 2].
Proof.
  destruct (allowed_run _ _ _ _ ex_allowed) as (d & A & B). exists d. split; [exact A|]. vm_compute in B. injection B as <-. split; reflexivity.
Qed.

(** Finding: a peer which sends Unchoke again gets all its outstanding requests again. *)
Theorem C51_unchoke_refuted : exists d d', history exTorrent 3 exStart (exHead ++ [(seeds, MUnchoke 7)]) d' /\ drun exTorrent exStart exHead = Ok d /\
  length (dSent d) = 6%nat /\ dSent d' = dSent d ++ dSent d.
Proof.
  assert (AL : allowed exTorrent 3 exStart (exHead ++ [(seeds, MUnchoke 7)])).
  { unfold exHead. cbn [allowed app]. split; [|split; [exact I|split; [now intros|]]].
    { split; [reflexivity|]. split; [exact (proj1 (proj2 ex_start_ok))|]. split; [repeat split|]. repeat constructor; cbn; lia. }
    set (s1 := dstep _ _ exStart _). vm_compute in s1. subst s1. cbv beta iota.
    split; [exact I|split; [exact I|split; [exact I|]]]. set (s1 := dstep _ _ _ _). vm_compute in s1. subst s1. cbv beta iota.
    split; [exact I|split; [exact I|split; [exact I|]]]. set (s1 := dstep _ _ _ _). vm_compute in s1. subst s1. exact I. }
  destruct (allowed_run _ _ _ _ AL) as (d' & A & B). vm_compute in B. injection B as <-.
  eexists _, _. split; [exact A|]. split; [vm_compute; reflexivity|]. split; reflexivity.
Qed.
Print Assumptions C51_unchoke_refuted.

(** ** C63: the number of outstanding requests *)
Theorem C63_outstanding_bounded : forall t n pr unf stored es d p, start_ok t n pr unf stored -> n < 4294967296 ->
  history t n (newDl pr unf stored) es d -> load d p <= 100.
Proof. intros. eapply history_load; eassumption. Qed.
Print Assumptions C63_outstanding_bounded.

Theorem C63_grows_to_the_limit : forall t n pr unf stored es d vs e d' p, start_ok t n pr unf stored -> n < 4294967296 ->
  history t n (newDl pr unf stored) es d -> possible n e -> begins_inside t e -> dstep t vs d e = Ok d' ->
  load d' p > load d p -> load d' p <= limit (vs p).
Proof.
  intros t n pr unf stored es d vs e d' p ST Hn HI PO BI SE L. destruct (history_step _ _ _ _ _ ST Hn es d vs e HI PO BI) as (d2 & new & A & G & O & _). rewrite SE in A. injection A as <-.
  destruct O as (_ & _ & _ & _ & O5). specialize (O5 p). lia.
Qed.
Print Assumptions C63_grows_to_the_limit.

Example C63_meets : exists d, history exTorrent 3 exStart exHead d /\ load d 7 = 6.
Proof.
  destruct (allowed_run exTorrent 3 exStart exHead) as (d & A & B).
  - eapply allowed_app. exact ex_allowed.
  - exists d. split; [exact A|]. vm_compute in B. injection B as <-. reflexivity.
Qed.

(** ** C64: every request ever sent is a block of the torrent which that peer said it has *)
Theorem C64_requests_inside : forall t n pr unf stored es d, start_ok t n pr unf stored -> n < 4294967296 ->
  history t n (newDl pr unf stored) es d -> forall p b, In (p, b) (dSent d) ->
  0 <= bindex b < n /\ In b (makePieceBlocksInfo t (bindex b)) /\ claimed es p (bindex b).
Proof.
  intros t n pr unf stored es d ST Hn HI. induction HI as [|es d vs e d' HI IH PO BI KE SE]; [intros p b []|].
  destruct (history_step _ _ _ _ _ ST Hn es d vs e HI PO BI) as (d2 & new & A & G & (O1 & O2 & O3 & _) & _). rewrite SE in A. injection A as <-.
  intros p b K. rewrite O1 in K. apply in_app_or in K. destruct K as [K|K].
  - destruct (IH p b K) as (X & Y & Z). split; [exact X|]. split; [exact Y|now apply claimed_app].
  - apply in_map_iff in K. destruct K as ((q & i & k) & K1 & K2). cbn in K1. injection K1 as -> <-. rewrite Forall_forall in O3. specialize (O3 _ K2). cbn in O3.
    destruct O3 as (X & Y & Z & _). change (bindex (getPieceBlockInfo t i k)) with i. split; [exact Y|]. split; [|exact Z].
    unfold makePieceBlocksInfo. apply in_map_iff. exists (Z.to_nat k). split; [now rewrite Z2Nat.id by lia|]. apply in_seq. lia.
Qed.
Print Assumptions C64_requests_inside.

(** No request while the peer chokes *)
Theorem C64_not_while_choked : forall t n pr unf stored es d vs e d', start_ok t n pr unf stored -> n < 4294967296 ->
  history t n (newDl pr unf stored) es d -> possible n e -> begins_inside t e -> dstep t vs d e = Ok d' ->
  exists new, dSent d' = dSent d ++ new /\ forall p b, In (p, b) new -> choking (vs p) = false.
Proof.
  intros t n pr unf stored es d vs e d' ST Hn HI PO BI SE. destruct (history_step _ _ _ _ _ ST Hn es d vs e HI PO BI) as (d2 & new & A & G & (O1 & _ & O3 & _) & _). rewrite SE in A. injection A as <-.
  eexists. split; [exact O1|]. intros p b K. apply in_map_iff in K. destruct K as ((q & i & k) & K1 & K2). cbn in K1. injection K1 as -> <-. rewrite Forall_forall in O3. specialize (O3 _ K2). cbn in O3. tauto.
Qed.
Print Assumptions C64_not_while_choked.

(** ** C61: a peer which could give more is asked for more *)
Theorem C61_fully_used : forall t n pr unf stored es d vs e d' p, start_ok t n pr unf stored -> n < 4294967296 ->
  history t n (newDl pr unf stored) es d -> possible n e -> begins_inside t e -> dstep t vs d e = Ok d' -> selectedFinished (dProg d) = false ->
  match e with
  | MBlock q b => q = p /\ d' <> d
  | MUnchoke q => q = p
  | MHave q idx => q = p /\ isMissing d idx = true
  | MBitfield q => q = p /\ hasWantedPieces (vs p) d = true
  | _ => False
  end -> fully_used t (vs p) d' p.
Proof.
  intros t n pr unf stored es d vs e d' p ST Hn HI PO BI SE SF Q. destruct (history_step _ _ _ _ _ ST Hn es d vs e HI PO BI) as (d2 & new & A & G & O & F). rewrite SE in A. injection A as <-.
  destruct e; cbn [step_fact] in F; try contradiction.
  - destruct Q as (-> & Q). destruct F as ([F|F] & _); [contradiction|exact F].
  - subst p0. destruct F as (F & _). destruct (F SF) as [F'|F']; [|exact F']. intros C K. exfalso. apply K.
    cbn [dstep] in SE. rewrite SF in SE. unfold unchokePeer in SE. rewrite F' in SE. injection SE as <-. exact F'.
  - destruct Q as (-> & Q). destruct F as (F & _). now apply F.
  - destruct Q as (-> & Q). destruct F as (F & _). now apply F.
Qed.
Print Assumptions C61_fully_used.

(** After a bitfield the example's peer has a request for all the blocks it can give *)
Example C61_meets : hasWantedPieces seed (match drun exTorrent exStart (firstn 1 exHead) with Ok d => d | UB => exStart end) = true.
Proof. vm_compute. reflexivity. Qed.

(** ** C62: a block is stored only when a block of its piece was asked from the peer which sent it *)
Theorem C62_stored_only_if_asked : forall t n pr unf stored es d vs e d', start_ok t n pr unf stored -> n < 4294967296 ->
  history t n (newDl pr unf stored) es d -> possible n e -> begins_inside t e -> dstep t vs d e = Ok d' ->
  dStored d' = dStored d \/
  exists p b k, e = MBlock p b /\ dStored d' = dStored d ++ [b] /\ 0 <= k < getPieceBlocksCount t (bindex b) /\ In (p, getPieceBlockInfo t (bindex b) k) (dSent d).
Proof.
  intros t n pr unf stored es d vs e d' ST Hn HI PO BI SE. destruct (history_step _ _ _ _ _ ST Hn es d vs e HI PO BI) as (d2 & new & A & G & O & F). rewrite SE in A. injection A as <-.
  destruct e; cbn [step_fact] in F.
  - destruct F as (_ & _ & _ & _ & [F|(F1 & F2 & k & F3 & F4)] & _); [now left|]. right. exists p, b, k. auto.
  - destruct F as (_ & _ & F). left. apply F.
  - destruct F as (_ & _ & F). left. apply F.
  - destruct F as (_ & _ & F). left. apply F.
  - left. apply F.
  - left. apply F.
  - left. apply F.
  - subst d'. now left.
  - subst d'. now left.
  - subst d'. now left.
  - subst d'. now left.
Qed.
Print Assumptions C62_stored_only_if_asked.

Example C62_meets : exists d, drun exTorrent exStart (exHead ++ [exBlock 7 0 0]) = Ok d /\ length (dStored d) = 1%nat.
Proof. eexists. (split; [vm_compute; reflexivity|vm_compute; reflexivity]). Qed.

(** ** C65: Have is announced only for checked pieces *)
Theorem C65_announced_were_checked : forall t n pr unf stored es d, start_ok t n pr unf stored -> n < 4294967296 ->
  history t n (newDl pr unf stored) es d -> forall i, In i (dFresh d) \/ In i (dAnnounced d) -> verified t (newDl pr unf stored) es i.
Proof. intros t n pr unf stored es d ST Hn HI. now apply (history_checked t n pr unf stored ST Hn es d HI). Qed.
Print Assumptions C65_announced_were_checked.

(** A check begins only when every block of the piece was stored *)
Theorem C65_checks_whole_pieces : forall t n pr unf stored es d, start_ok t n pr unf stored -> n < 4294967296 ->
  history t n (newDl pr unf stored) es d -> forall i r, In (i, r) (dChecking d) ->
  0 <= i < n /\ forall k, 0 <= k < getPieceBlocksCount t i -> stored_at (dStored d) i k.
Proof. intros t n pr unf stored es d ST Hn HI. exact (proj2 (proj2 (g_stored _ _ _ _ (history_good _ _ _ _ _ ST Hn _ _ HI)))). Qed.
Print Assumptions C65_checks_whole_pieces.

Example C65_meets : exists d, history exTorrent 3 exStart exEvents d /\ dAnnounced d = [0].
Proof. destruct (allowed_run _ _ _ _ ex_allowed) as (d & A & B). exists d. split; [exact A|]. vm_compute in B. injection B as <-. reflexivity. Qed.

(** ** C23 *)

(** As long as no selection changes while a check is pending ([noFlags], see [C23_deselected_refuted]),
    every piece which counts as received was received at the start, is being checked, or was checked
    well. Missing: it counts as received already while it is checked (see [C23_early_refuted]). *)
Theorem C23_received_partial : forall t n pr unf stored es d, start_ok t n pr unf stored -> n < 4294967296 ->
  history t n (newDl pr unf stored) es d -> noFlags es -> forall i, 0 <= i -> is_received (dProg d) i = true ->
  is_received pr i = true \/ In i (map fst (dChecking d)) \/ verified t (newDl pr unf stored) es i.
Proof. intros t n pr unf stored es d ST Hn HI NF. exact (proj2 (proj2 (history_checked t n pr unf stored ST Hn es d HI) NF)). Qed.
Print Assumptions C23_received_partial.

(** A piece whose check fails does not count as received and is asked for again *)
Theorem C23_mismatch_forgets : forall t n pr unf stored es d vs k s idx r d', start_ok t n pr unf stored -> n < 4294967296 ->
  history t n (newDl pr unf stored) es d -> nth_error (dChecking d) k = Some (idx, r) -> s <> CSuccess -> dstep t vs d (MChecked k s) = Ok d' ->
  is_received (dProg d') idx = false /\ dFresh d' = dFresh d /\ (is_chosen (dProg d) idx = true -> isMissing d' idx = true).
Proof.
  intros t n pr unf stored es d vs k s idx r d' ST Hn HI E NS SE. destruct (history_step _ _ _ _ _ ST Hn es d vs (MChecked k s) HI I I) as (d2 & new & A & G & O & F). rewrite SE in A. injection A as <-.
  cbn [step_fact] in F. rewrite E in F. destruct F as (_ & _ & _ & H0 & _ & F2 & _ & F4). destruct s; [congruence| |].
  - destruct F2 as (F5 & F6). destruct (F6 idx H0) as (F7 & _). rewrite F7, Z.eqb_refl, andb_false_r. auto.
  - destruct F2 as (F5 & F6). destruct (F6 idx H0) as (F7 & _). rewrite F7, Z.eqb_refl, andb_false_r. auto.
Qed.
Print Assumptions C23_mismatch_forgets.

Example C23_meets : exists d r, drun exTorrent exStart (exHead ++ [exBlock 7 0 0; exBlock 7 0 1]) = Ok d /\ nth_error (dChecking d) 0 = Some (0, r).
Proof. eexists _, _. (split; [vm_compute; reflexivity|vm_compute; reflexivity]). Qed.

(** Finding: from the last block on, before its hash is compared, a piece counts as received; with a
    wrong hash it stops to. *)
Theorem C23_early_refuted : exists d d', drun exTorrent exStart (exHead ++ [exBlock 7 0 0; exBlock 7 0 1]) = Ok d /\ is_received (dProg d) 0 = true /\
  dstep exTorrent seeds d (MChecked 0 CMismatch) = Ok d' /\ is_received (dProg d') 0 = false.
Proof. eexists _, _. split; [vm_compute; reflexivity|]. split; [vm_compute; reflexivity|]. split; [vm_compute; reflexivity|]. vm_compute. reflexivity. Qed.
Print Assumptions C23_early_refuted.

(** Finding: Files::select changes the flags of the pieces at once but calls refreshSelection only after
    space was allocated (Files.cpp:152-166). A piece deselected there which gets its last block in between
    counts as received without any check. *)
Definition deselected : progress := {| pieces := [8; 0; 0]; selectedPieces := 2; receivedPiecesCount := 0; selectedReceivedPiecesCount := 0 |}.

Theorem C23_deselected_refuted : exists d, drun exTorrent exStart (exHead ++ [exBlock 7 0 0; (seeds, MFlags deselected); exBlock 7 0 1]) = Ok d /\
  possible 3 (MFlags deselected) /\ (forall i, 0 <= i -> is_received deselected i = is_received exPr i) /\
  is_received (dProg d) 0 = true /\ dChecking d = [].
Proof.
  eexists. split; [vm_compute; reflexivity|]. split; [|split; [|split; vm_compute; reflexivity]].
  - split; [reflexivity|]. split; [|repeat split]. split; [|vm_compute; reflexivity]. apply Forall_forall. intros x [<-|[<-|[<-|[]]]]; vm_compute; auto.
  - intros i Hi. unfold is_received, deselected, exPr. cbn [pieces]. change (pieces (init 3 emptyProgress)) with [0; 0; 0]. destruct (Z.to_nat i) as [|[|[|m]]]; cbn [nth]; try reflexivity.
Qed.
Print Assumptions C23_deselected_refuted.

(** ** C66: messages with blocks are handled safely *)
Theorem C66_safe_partial : forall t n pr unf stored es d vs p b, start_ok t n pr unf stored -> n < 4294967296 ->
  history t n (newDl pr unf stored) es d -> 0 <= bbegin b < 4294967296 -> bbegin b < getPieceBlocksCount t (bindex b) * 16384 ->
  exists d', dstep t vs d (MBlock p b) = Ok d'.
Proof.
  intros t n pr unf stored es d vs p b ST Hn HI Hb Hc. destruct (history_step _ _ _ _ _ ST Hn es d vs (MBlock p b) HI Hb Hc) as (d' & new & A & _). eauto.
Qed.
Print Assumptions C66_safe_partial.

(** Finding: a block of a piece which is being downloaded from the peer, beginning behind the end of the
    piece, makes addPeerBlockResponse read request.blocks out of range. *)
Theorem C66_begin_refuted : forall t vs d p info b e, aget p (dPeers d) = Some info -> selectedFinished (dProg d) = false ->
  (exists es1 es2, cur info = es1 ++ e :: es2 /\ ~ In (bindex b) (map rIdx es1)) -> rIdx e = bindex b ->
  zlen (rBlocks e) * 16384 <= bbegin b -> dstep t vs d (MBlock p b) = UB.
Proof.
  intros t vs d p info b e E SF (es1 & es2 & C & N) R L. cbn [dstep]. rewrite SF. unfold pieceBlockReceived, addPeerBlockResponse. rewrite E.
  assert (A : answer (bindex b) (blockIdx (bbegin b)) (cur info) = UB).
  { rewrite C. clear C. induction es1 as [|x es1 IH]; cbn.
    - rewrite R, Z.eqb_refl. unfold blockIdx, BlockMaxSize. destruct (Z.ltb_spec (bbegin b / 16384) (zlen (rBlocks e))); [|reflexivity]. exfalso. clear - L H. lia.
    - destruct (Z.eqb_spec (rIdx x) (bindex b)); [exfalso; apply N; now left|]. rewrite IH; [reflexivity|]. intros K. apply N. now right. }
  rewrite A. reflexivity.
Qed.
Print Assumptions C66_begin_refuted.

Example C66_begin_meets : exists d, drun exTorrent exStart exHead = Ok d /\ dstep exTorrent seeds d (MBlock 7 {| bindex := 0; bbegin := 32768; blength := 1 |}) = UB.
Proof. eexists. (split; [vm_compute; reflexivity|vm_compute; reflexivity]). Qed.

(** Finding: pieces of 65536 blocks (1 GiB) divide by zero when the first block is asked for. *)
Theorem C66_blocks_refuted : forall t e r max, zlen (psBlocks (rPiece r)) mod 65536 = 0 -> sendPieceRequests t e r max = UB.
Proof. intros t e r max H. unfold sendPieceRequests, u16. rewrite H. reflexivity. Qed.
Print Assumptions C66_blocks_refuted.

Lemma initPiece_blocks idx n : 0 <= n -> zlen (psBlocks (initPiece idx n)) = n.
Proof. intros H. unfold zlen. cbn [psBlocks initPiece]. rewrite repeat_length. now apply Z2Nat.id. Qed.

Example C66_blocks_meets : forall idx, zlen (psBlocks (initPiece idx 65536)) mod 65536 = 0 /\ u32 (1073741824 + 16384 - 1) / 16384 = 65536.
Proof. intros idx. rewrite initPiece_blocks by discriminate. split; reflexivity. Qed.

(** Finding: a block which begins one byte before a boundary is stored where it begins but counts as the
    block behind the boundary. *)
Theorem C66_wrong_block_refuted : exists d d', drun exTorrent exStart exHead = Ok d /\
  dstep exTorrent seeds d (MBlock 7 {| bindex := 0; bbegin := 16383; blength := 1 |}) = Ok d' /\
  option_map (fun r => psBlocks (rPiece r)) (aget 0 (dReqs d')) = Some [0; 1].
Proof. eexists _, _. split; [vm_compute; reflexivity|]. (split; [vm_compute; reflexivity|vm_compute; reflexivity]). Qed.
Print Assumptions C66_wrong_block_refuted.
