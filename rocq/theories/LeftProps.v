(** C98: what is left to download, as told to trackers, and the progress of the files *)
From Verif Require Import Base BaseLemmas LayoutModel LayoutSpec LayoutProofs ProgressModel ProgressSpec ProgressProofs ProgressProofs2 Assoc DlModel DlSpec DlProofs DlProofs2 DlProofs5 DlProps LeftModel LeftSpec LeftProofs LeftProofs2.

(** The figure is exactly the bytes of the blocks still missing; when the last piece is there and the size is a multiple of
    the piece size, it is one piece too many *)
Theorem C98_left_partial : forall t n pr unf stored es d, start_ok t n pr unf stored -> n < 4294967296 -> info_ok t -> n = lastPieceIndex t + 1 ->
  fullSize t < 9223372036854775808 -> saved_ok t n pr unf -> history t n (newDl pr unf stored) es d -> Forall (fun ve => right_size t (snd ve)) es ->
  0 <= all_left t n d <= fullSize t /\
  dataLeft t d = all_left t n d + (if is_received (dProg d) (n - 1) && (fullSize t mod pieceSize t =? 0) then pieceSize t else 0) /\
  finishedBytes t d + dataLeft t d = fullSize t.
Proof.
  intros t n pr unf stored es d S Hn IO NL FS SO HI RS. pose proof (history_acc t n pr unf stored S Hn IO NL SO es d HI RS) as A.
  pose proof (history_good t n pr unf stored S Hn es d HI) as G. destruct (left_ok t n _ d IO NL FS G A) as (X & Y & Z). fold (slip t n d).
  split; [exact Y|]. split; [exact X|]. lia.
Qed.
Print Assumptions C98_left_partial.

(** When the size is no multiple of the piece size, 0 is told exactly when every piece is there *)
Theorem C98_nothing_left_partial : forall t n pr unf stored es d, start_ok t n pr unf stored -> n < 4294967296 -> info_ok t -> n = lastPieceIndex t + 1 ->
  fullSize t < 9223372036854775808 -> fullSize t mod pieceSize t <> 0 -> saved_ok t n pr unf -> history t n (newDl pr unf stored) es d -> Forall (fun ve => right_size t (snd ve)) es ->
  (dataLeft t d = 0 <-> forall i, 0 <= i < n -> is_received (dProg d) i = true).
Proof.
  intros t n pr unf stored es d S Hn IO NL FS NM SO HI RS. pose proof (history_acc t n pr unf stored S Hn IO NL SO es d HI RS) as A.
  pose proof (history_good t n pr unf stored S Hn es d HI) as G. destruct (left_ok t n _ d IO NL FS G A) as (X & _). rewrite X.
  unfold slip. destruct (Z.eqb_spec (fullSize t mod pieceSize t) 0); [contradiction|]. rewrite andb_false_r, Z.add_0_r. eapply none_left; eassumption.
Qed.
Print Assumptions C98_nothing_left_partial.

(** For every file: how many of its pieces are there, and the bytes of the blocks of the others *)
Theorem C98_files_partial : forall t n pr unf stored es d fs, start_ok t n pr unf stored -> n < 4294967296 -> info_ok t -> n = lastPieceIndex t + 1 ->
  saved_ok t n pr unf -> history t n (newDl pr unf stored) es d -> Forall (fun ve => right_size t (snd ve)) es ->
  Forall (fun f => 0 <= startPiece f /\ endPiece f < n) fs ->
  getFilesProgress d fs = Ok (map (fun f => (zlen (filter (is_received (dProg d)) (pieces_of f)),
    u32 (sum_of (map (piece_part t d) (filter (fun i => negb (is_received (dProg d) i)) (pieces_of f)))))) fs).
Proof.
  intros t n pr unf stored es d fs S Hn IO NL SO HI RS F. pose proof (history_acc t n pr unf stored S Hn IO NL SO es d HI RS) as A.
  pose proof (history_good t n pr unf stored S Hn es d HI) as G. eapply files_ok; eassumption.
Qed.
Print Assumptions C98_files_partial.

(** ** A case: one block of piece 0, then all of it *)
Definition exOne : list ((Z -> view) * devent) := exHead ++ [exBlock 7 0 0].

Lemma ex_info : info_ok exTorrent.
Proof. vm_compute. repeat split; congruence. Qed.

Lemma ex_one_allowed : allowed exTorrent 3 exStart exOne.
Proof. apply (allowed_app exTorrent 3 exOne [exBlock 7 0 1; (seeds, MChecked 0 CSuccess); (seeds, MPop)]). exact ex_allowed. Qed.

Example C98_meets : exists d, history exTorrent 3 exStart exOne d /\ Forall (fun ve => right_size exTorrent (snd ve)) exOne /\ saved_ok exTorrent 3 exPr [] /\
  3 = lastPieceIndex exTorrent + 1 /\ fullSize exTorrent mod pieceSize exTorrent <> 0 /\
  finishedBytes exTorrent d = 16384 /\ dataLeft exTorrent d = 73616 /\ getFilesProgress d (files exTorrent) = Ok [(0, 16384); (0, 0)].
Proof.
  destruct (allowed_run _ _ _ _ ex_one_allowed) as (d & A & B). exists d. split; [exact A|]. vm_compute in B. injection B as <-.
  split; [repeat constructor|]. split; [split; constructor|]. split; [reflexivity|]. split; [vm_compute; congruence|]. repeat split; vm_compute; reflexivity.
Qed.

Example C98_done : exists d, history exTorrent 3 exStart exEvents d /\ Forall (fun ve => right_size exTorrent (snd ve)) exEvents /\
  finishedBytes exTorrent d = 32768 /\ dataLeft exTorrent d = 57232 /\ getFilesProgress d (files exTorrent) = Ok [(1, 0); (0, 0)].
Proof.
  destruct (allowed_run _ _ _ _ ex_allowed) as (d & A & B). exists d. split; [exact A|]. vm_compute in B. injection B as <-.
  split; [repeat constructor|]. repeat split; vm_compute; reflexivity.
Qed.

(** Finding: the length of a block is not compared with that of the block it is counted for. A peer that answers with a longer
    one makes the torrent tell its tracker that 2^64 less something is left. *)
Definition exLong : list ((Z -> view) * devent) := exHead ++ [(seeds, MBlock 7 {| bindex := 0; bbegin := 0; blength := 200000 |})].
Theorem C98_long_block_refuted : exists d, history exTorrent 3 exStart exLong d /\ all_left exTorrent 3 d = 73616 /\
  finishedBytes exTorrent d = 200000 /\ fullSize exTorrent = 90000 /\ dataLeft exTorrent d = 18446744073709551616 - 110000.
Proof.
  assert (AL : allowed exTorrent 3 exStart exLong).
  { unfold exLong, exHead. cbn [allowed app]. split; [|split; [exact I|split; [now intros|]]].
    { split; [reflexivity|]. split; [exact (proj1 (proj2 ex_start_ok))|]. split; [repeat split|]. repeat constructor; cbn; lia. }
    set (s1 := dstep _ _ exStart _). vm_compute in s1. subst s1. cbv beta iota.
    split; [exact I|split; [exact I|split; [exact I|]]]. set (s1 := dstep _ _ _ _). vm_compute in s1. subst s1. cbv beta iota.
    split; [vm_compute; split; congruence|split; [vm_compute; reflexivity|split; [exact I|]]]. set (s1 := dstep _ _ _ _). vm_compute in s1. subst s1. exact I. }
  destruct (allowed_run _ _ _ _ AL) as (d & A & B). exists d. split; [exact A|]. vm_compute in B. injection B as <-. repeat split; vm_compute; reflexivity.
Qed.
Print Assumptions C98_long_block_refuted.

(** Finding: a complete torrent whose size is a multiple of the piece size tells its tracker that a piece is left: it never
    counts as a seed. *)
Definition exEven : torrentInfo := match parseSingleFile 16384 32768 2 with Ok t => t | UB => makeInfo 0 0 [] end.
Definition exFull : progress := {| pieces := [1; 1]; selectedPieces := 2; receivedPiecesCount := 2; selectedReceivedPiecesCount := 2 |}.
Theorem C98_multiple_refuted : start_ok exEven 2 exFull [] [] /\ info_ok exEven /\ saved_ok exEven 2 exFull [] /\ history exEven 2 (newDl exFull [] []) [] (newDl exFull [] []) /\
  finished exFull = true /\ all_left exEven 2 (newDl exFull [] []) = 0 /\ dataLeft exEven (newDl exFull [] []) = 16384.
Proof.
  split.
  { split; [reflexivity|]. split; [split; [repeat apply Forall_cons; try apply Forall_nil; unfold flag_ok, HasFlag; auto 10|vm_compute; reflexivity]|]. split; [repeat split|]. split; [|constructor].
    intros i Hi. assert (C : i = 0 \/ i = 1) by lia. destruct C as [->| ->]; vm_compute; split; congruence. }
  split; [vm_compute; repeat split; congruence|]. split; [split; constructor|]. split; [constructor|]. repeat split; vm_compute; reflexivity.
Qed.
Print Assumptions C98_multiple_refuted.

(** Finding: an empty file after the end of a whole last piece begins at a piece that does not exist, which is read. *)
Definition exEmpty : torrentInfo := match parseMultiFile 32768 [65536; 0] with Ok t => t | UB => makeInfo 0 0 [] end.
Theorem C98_empty_file_refuted : map startPiece (files exEmpty) = [0; 2] /\ getFilesProgress (newDl (init 2 emptyProgress) [] []) (files exEmpty) = UB.
Proof. split; vm_compute; reflexivity. Qed.
Print Assumptions C98_empty_file_refuted.

(** Finding: a check that finds a piece there leaves what was saved of it (Files.cpp:373-375 forgets it only when no time of
    the files is known): its blocks count twice, and the rest is told to be less than it is. *)
Definition exHalf : pieceState := {| psIndex := 0; psRemaining := 1; psSize := 16384; psBlocks := [1; 0] |}.
Definition exChecked : progress := {| pieces := [1; 0; 0]; selectedPieces := 3; receivedPiecesCount := 1; selectedReceivedPiecesCount := 1 |}.
Theorem C98_check_refuted : start_ok exTorrent 3 exChecked [exHalf] [getPieceBlockInfo exTorrent 0 0] /\
  let d := newDl exChecked [exHalf] [getPieceBlockInfo exTorrent 0 0] in
  all_left exTorrent 3 d = 57232 /\ dataLeft exTorrent d = 40848.
Proof.
  split; [|split; vm_compute; reflexivity].
  destruct ex_start_ok as (_ & _ & _ & P & _). split; [reflexivity|]. split; [split; [repeat apply Forall_cons; try apply Forall_nil; unfold flag_ok, HasFlag; auto 10|vm_compute; reflexivity]|]. split; [repeat split|]. split; [exact P|].
  constructor; [|constructor]. right. split; [vm_compute; repeat split; reflexivity|]. intros k Hk N. unfold zlen in Hk. cbn in Hk. assert (C : k = 0 \/ k = 1) by lia. destruct C as [->| ->]; [|now cbn in N].
  eexists. split; [now left|]. vm_compute. auto.
Qed.
Print Assumptions C98_check_refuted.

(** Finding: the figure for the selected files forgets the pieces under way when the torrent is stopped; the one for all files
    does not. *)
Theorem C98_selected_refuted : exists d, history exTorrent 3 exStart exOne d /\ finishedSelectedBytes exTorrent d = 16384 /\ finishedBytes exTorrent d = 16384 /\
  finishedSelectedBytes exTorrent (stop d) = 0 /\ finishedBytes exTorrent (stop d) = 16384.
Proof.
  destruct (allowed_run _ _ _ _ ex_one_allowed) as (d & A & B). exists d. split; [exact A|]. vm_compute in B. injection B as <-. repeat split; vm_compute; reflexivity.
Qed.
Print Assumptions C98_selected_refuted.
