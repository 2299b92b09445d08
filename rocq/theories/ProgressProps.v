(** C19, C20, C21 and C52: progress, bitfields, received bytes, announced pieces. *)
From Verif Require Import Base BaseLemmas ProgressModel ProgressSpec ProgressProofs ProgressProofs2.

(** After any sequence of operations on a fresh progress of [n] pieces, all three counters
    count the flags. Missing: reading a bitfield (see [C19_bitfield_refuted]) and [init] on a
    progress which has pieces (see [C19_init_refuted]). *)
Theorem C19_counters_partial : forall n os q, 0 <= n < 4294967296 ->
  reaches no_bitfield (init n emptyProgress) os q -> flags_ok q /\ exact q.
Proof. exact (fun n os q H R => reaches_exact _ os q R (proj1 (init_exact n H)) (proj1 (proj2 (init_exact n H)))). Qed.
Print Assumptions C19_counters_partial.

(** With bitfields, two of the three. *)
Theorem C19_received_and_selected : forall n os q, 0 <= n < 4294967296 ->
  reaches (fun _ => True) (init n emptyProgress) os q ->
  receivedPiecesCount q = count received (pieces q) /\ selectedPieces q = count chosen (pieces q).
Proof.
  exact (fun n os q H R => proj2 (reaches_exact2 _ os q R (proj1 (init_exact n H))
    (conj (proj1 (proj1 (proj2 (init_exact n H)))) (proj1 (proj2 (proj1 (proj2 (init_exact n H)))))))).
Qed.
Print Assumptions C19_received_and_selected.

(** No operation used within its bounds has undefined behaviour. *)
Theorem C19_operations_safe : forall n os q o, 0 <= n < 4294967296 ->
  reaches (fun _ => True) (init n emptyProgress) os q -> op_ok q o -> run_op o q <> UB.
Proof.
  intros n os q o H R O.
  destruct (init_exact n H) as (F & (E1 & E2 & _) & _).
  destruct (reaches_exact2 _ os q R F (conj E1 E2)) as [Fq Eq].
  destruct (op_exact2 o q Fq Eq O) as (r & -> & _). discriminate.
Qed.
Print Assumptions C19_operations_safe.

(** A saved list of flags gives exact counters, whatever they were before. *)
Theorem C19_restored : forall p, flags_ok p -> exact (calculatePieces p) /\ pieces (calculatePieces p) = pieces p.
Proof. exact calculate_exact. Qed.
Print Assumptions C19_restored.

(** Finished is reported exactly when every piece is received, selection finished exactly when
    every chosen one is. *)
Theorem C19_finished : forall p, flags_ok p -> exact p ->
  (finished p = true <-> zlen (pieces p) > 0 /\ forall i, 0 <= i < zlen (pieces p) -> is_received p i = true) /\
  (selectedFinished p = true <-> zlen (pieces p) > 0 /\
    forall i, 0 <= i < zlen (pieces p) -> is_chosen p i = true -> is_received p i = true).
Proof. exact (fun p F E => conj (finished_iff p F (proj1 E)) (selectedFinished_iff p F E)). Qed.
Print Assumptions C19_finished.

(** Each operation changes the flags it should and no others. *)
Theorem C19_add : forall p i, flags_ok p -> exact p -> 0 <= i < 4294967295 ->
  exists q, addPiece i p = Ok q /\ zlen (pieces q) = Z.max (zlen (pieces p)) (i + 1) /\
    (forall j, 0 <= j -> is_received q j = is_received p j || (j =? i)) /\
    (forall j, 0 <= j < zlen (pieces p) -> is_chosen q j = is_chosen p j).
Proof.
  intros p i F E H. destruct (addPiece_ok p i F E H) as (q & Q & _ & _ & L & S & R & C). exists q. split; [assumption|]. split; [assumption|].
  unfold is_received, is_chosen. split; intros j Hj; destruct (Z.leb_spec 0 j); try lia; cbn [andb].
  - destruct (Z.eqb_spec j i) as [->|N]; [rewrite R; now rewrite orb_true_r|]. rewrite S by assumption. now rewrite orb_false_r.
  - rewrite L. destruct (Z.ltb_spec j (Z.max (zlen (pieces p)) (i + 1))), (Z.ltb_spec j (zlen (pieces p))); try lia. cbn [andb].
    destruct (Z.eq_dec j i) as [->|N]; [assumption|]. now rewrite S.
Qed.
Print Assumptions C19_add.

Theorem C19_remove : forall p i, flags_ok p -> exact p -> 0 <= i < zlen (pieces p) ->
  exists q, removePiece i p = Ok q /\ zlen (pieces q) = zlen (pieces p) /\
    forall j, 0 <= j -> is_received q j = is_received p j && negb (j =? i) /\ is_chosen q j = is_chosen p j.
Proof.
  intros p i F E H. destruct (removePiece_ok p i F E H) as (q & Q & _ & _ & L & S & R & C). exists q. split; [assumption|]. split; [assumption|].
  intros j Hj. unfold is_received, is_chosen. rewrite L. destruct (Z.leb_spec 0 j); try lia; cbn [andb].
  destruct (Z.eqb_spec j i) as [->|N].
  - rewrite R, C. split; [now rewrite andb_false_r|reflexivity].
  - rewrite S by assumption. split; [now rewrite andb_true_r|reflexivity].
Qed.
Print Assumptions C19_remove.

Theorem C19_select : forall p a b s, flags_ok p -> exact p -> 0 <= a -> b < zlen (pieces p) ->
  exists q, select a b s p = Ok q /\ zlen (pieces q) = zlen (pieces p) /\
    forall j, 0 <= j < zlen (pieces p) -> is_received q j = is_received p j /\
      is_chosen q j = if (a <=? j) && (j <=? b) then s else is_chosen p j.
Proof.
  intros p a b s F E Ha Hb. destruct (select_ok p a b s F E Ha Hb) as (q & Q & _ & _ & L & J). exists q. split; [assumption|]. split; [assumption|].
  intros j Hj. destruct (J j) as [J1 J2]; [lia|]. unfold is_received, is_chosen. rewrite L, J1, J2.
  destruct (Z.leb_spec 0 j); [|lia]. destruct (Z.ltb_spec j (zlen (pieces p))); [|lia]. cbn [andb]. split; reflexivity.
Qed.
Print Assumptions C19_select.

Theorem C19_remove_where : forall p wh, flags_ok p -> exact p -> zlen (pieces p) <= zlen wh ->
  exists q, removeReceived wh p = Ok q /\ zlen (pieces q) = zlen (pieces p) /\
    forall j, 0 <= j < zlen (pieces p) -> is_chosen q j = is_chosen p j /\
      is_received q j = is_received p j && negb (nth (Z.to_nat j) wh false).
Proof.
  intros p wh F E H. destruct (removeReceived_ok p wh F E H) as (q & Q & _ & _ & L & J). exists q. split; [assumption|]. split; [assumption|].
  intros j Hj. destruct (J j) as [J1 J2]; [lia|]. unfold is_received, is_chosen. rewrite L, J1, J2.
  destruct (Z.leb_spec 0 j); [|lia]. split; reflexivity.
Qed.
Print Assumptions C19_remove_where.

Example C19_meets : exists q, reaches no_bitfield (init 5 emptyProgress) [OAdd 3; OSelect 2 4 false; OAdd 7; ORemove 3; OResize 4] q.
Proof.
  eexists. repeat (eapply reach_cons; [vm_compute; intuition congruence|exact I|vm_compute; reflexivity|]). apply reach_nil.
Qed.

(** Finding: a bitfield sets the count of selected received pieces to 0, whatever it contains. *)
Theorem C19_bitfield_refuted : forall b p, zlen b * 8 <= 16777216 -> zlen (pieces p) <= zlen b * 8 ->
  (exists i, 0 <= i < bf_size b p /\ bit b i = true) ->
  exists q, fromBitfieldData b p = Ok q /\ selectedReceivedPiecesCount q = 0 /\
    0 < count (fun x => received x && chosen x) (pieces q).
Proof.
  intros b p H1 H2 (i & Hi & Hb). destruct (fromBitfield_ok b p H1 H2) as (q & Q & L & _ & _ & _ & R & J). exists q. split; [assumption|]. split; [assumption|].
  destruct (J i Hi) as [J1 J2]. enough (1 <= count (fun x => received x && chosen x) (pieces q)) by lia.
  apply (count_pos _ _ (Z.to_nat i)); [unfold zlen in *; lia|]. unfold is_received, is_chosen in *. cbv beta. rewrite Hb in J1.
  apply andb_prop in J1. apply andb_prop in J2. apply andb_true_intro. split; [apply J1|apply J2].
Qed.
Print Assumptions C19_bitfield_refuted.

(** Finding: [init] on a progress with a received piece counts none. *)
Theorem C19_init_refuted : forall p n i, is_received p i = true ->
  receivedPiecesCount (init n p) = 0 /\ is_received (init n p) i = true.
Proof.
  intros p n i H. split; [reflexivity|]. unfold is_received in *. unfold init. cbn [pieces].
  destruct (zlen (pieces p) <? n); [|assumption]. rewrite app_nth1; [assumption|].
  destruct (Nat.lt_ge_cases (Z.to_nat i) (length (pieces p))) as [L|L]; [assumption|]. rewrite nth_overflow in H by assumption. unfold received in H. rewrite andb_false_r in H. discriminate.
Qed.
Print Assumptions C19_init_refuted.

(** The bitfield has the bits of the received pieces, in just enough bytes, and no others.
    Missing: more than 2^24 pieces (see [C20_large_refuted]). *)
Theorem C20_bitfield_partial : forall p, flags_ok p -> exact p -> zlen (pieces p) <= 16777216 ->
  exists data, toBitfieldData p = Ok data /\ bytes_ok data /\ zlen data = (zlen (pieces p) + 7) / 8 /\
    forall j, 0 <= j -> bit data j = is_received p j.
Proof. exact (fun p F E => toBitfield_ok p F (proj1 E)). Qed.
Print Assumptions C20_bitfield_partial.

(** A bitfield which is long enough is read as the set of pieces with a bit, by a receiver which
    knows the number of pieces and by one which does not. *)
Theorem C20_read_partial : forall b p, zlen b * 8 <= 16777216 -> zlen (pieces p) <= zlen b * 8 ->
  exists q, fromBitfieldData b p = Ok q /\
    zlen (pieces q) = (if zlen (pieces p) =? 0 then zlen b * 8 else zlen (pieces p)) /\
    (forall j, 0 <= j < zlen (pieces q) -> is_received q j = bit b j).
Proof.
  intros b p H1 H2. destruct (fromBitfield_ok b p H1 H2) as (q & Q & L & _ & _ & _ & _ & J). exists q. split; [assumption|]. split; [assumption|].
  intros j Hj. rewrite L in Hj. apply J, Hj.
Qed.
Print Assumptions C20_read_partial.

(** Sent and read: the same set. *)
Theorem C20_round_trip_partial : forall p r, flags_ok p -> exact p -> 0 < zlen (pieces p) <= 16777216 ->
  zlen (pieces r) = zlen (pieces p) ->
  exists data q, toBitfieldData p = Ok data /\ fromBitfieldData data r = Ok q /\
    zlen (pieces q) = zlen (pieces p) /\ forall j, 0 <= j -> is_received q j = is_received p j.
Proof.
  intros p r F E H L. destruct (toBitfield_ok p F (proj1 E)) as (d & D & B & Ld & J); [lia|].
  destruct (fromBitfield_ok d r) as (q & Q & Lq & _ & _ & _ & _ & Jq); [lia|lia|].
  unfold bf_size in *. destruct (Z.eqb_spec (zlen (pieces r)) 0) as [Z0|Z0]; [lia|].
  exists d, q. split; [assumption|]. split; [assumption|]. split; [lia|]. intros j Hj.
  destruct (Z.ltb_spec j (zlen (pieces r))) as [Lj|Lj].
  - rewrite <- J by assumption. apply Jq. lia.
  - rewrite !is_received_oob by lia. reflexivity.
Qed.
Print Assumptions C20_round_trip_partial.

Example C20_meets : exists q, reaches no_bitfield (init 11 emptyProgress) [OAdd 3; OAdd 10; OAdd 0] q /\
  toBitfieldData q = Ok [144; 32] /\ flags_ok q /\ exact q.
Proof.
  assert (R : exists q, reaches no_bitfield (init 11 emptyProgress) [OAdd 3; OAdd 10; OAdd 0] q /\ toBitfieldData q = Ok [144; 32]).
  { eexists. split.
    - repeat (eapply reach_cons; [vm_compute; intuition congruence|exact I|vm_compute; reflexivity|]). apply reach_nil.
    - vm_compute. reflexivity. }
  destruct R as (q & R & D). exists q. split; [exact R|]. split; [exact D|]. apply (reaches_exact _ _ _ R); apply init_exact; lia.
Qed.

(** Finding: with 16777224 pieces the float computation puts the last piece outside the
    bitfield. *)
Theorem C20_large_refuted : bitfieldPut 16777223 (bitfieldInit 16777224) = UB.
Proof.
  unfold bitfieldPut, bitfieldInit. rewrite (proj2 (nth_error_None _ _)); [reflexivity|].
  rewrite repeat_length. apply Z2Nat.inj_le; vm_compute; discriminate.
Qed.
Print Assumptions C20_large_refuted.

(** The received bytes are the sizes of the received pieces. Missing: a last piece of full
    size which is received (see [C21_multiple_refuted]). *)
Theorem C21_received_bytes_partial : forall p ps fs, flags_ok p -> exact p -> sizes_ok ps fs (zlen (pieces p)) -> pieces p <> [] ->
  is_received p (zlen (pieces p) - 1) = false \/ fs mod ps <> 0 ->
  getReceivedBytes p ps fs = sum_sizes received ps fs (zlen (pieces p)) 0 (pieces p).
Proof.
  intros p ps fs F E S H C. rewrite receivedBytes_ok by assumption. rewrite last_nth by assumption. unfold is_received in C.
  replace (Z.to_nat (zlen (pieces p) - 1)) with (length (pieces p) - 1)%nat in C by (unfold zlen; lia).
  destruct (Z.eqb_spec (fs mod ps) 0) as [Q|Q]; [|rewrite andb_false_r; lia]. destruct C as [C|C]; [|contradiction].
  destruct (pieces p) as [|x l]; [congruence|]. rewrite zlen_cons in C. pose proof (zlen_nonneg l). destruct (Z.leb_spec 0 (1 + zlen l - 1)); [|lia].
  cbn [andb] in C. rewrite C. cbn [andb]. lia.
Qed.
Print Assumptions C21_received_bytes_partial.

Theorem C21_selected_bytes_partial : forall p ps fs, flags_ok p -> exact p -> sizes_ok ps fs (zlen (pieces p)) -> pieces p <> [] ->
  is_received p (zlen (pieces p) - 1) = false \/ fs mod ps <> 0 ->
  getReceivedSelectedBytes p ps fs = sum_sizes (fun x => received x && chosen x) ps fs (zlen (pieces p)) 0 (pieces p).
Proof.
  intros p ps fs F E S H C. rewrite selectedBytes_ok by assumption. rewrite last_nth by assumption. unfold is_received in C.
  replace (Z.to_nat (zlen (pieces p) - 1)) with (length (pieces p) - 1)%nat in C by (unfold zlen; lia).
  destruct (Z.eqb_spec (fs mod ps) 0) as [Q|Q]; [|rewrite andb_false_r; lia]. destruct C as [C|C]; [|contradiction].
  destruct (pieces p) as [|x l]; [congruence|]. rewrite zlen_cons in C. pose proof (zlen_nonneg l). destruct (Z.leb_spec 0 (1 + zlen l - 1)); [|lia].
  cbn [andb] in C. rewrite C. cbn [andb]. lia.
Qed.
Print Assumptions C21_selected_bytes_partial.

(** Finding: when the total is a multiple of the piece size and the last piece is received,
    one piece is missing in the count: a finished torrent still has a piece to go. *)
Theorem C21_multiple_refuted : forall p ps fs, flags_ok p -> exact p -> sizes_ok ps fs (zlen (pieces p)) -> pieces p <> [] ->
  received (last (pieces p) 0) = true -> fs mod ps = 0 ->
  getReceivedBytes p ps fs = sum_sizes received ps fs (zlen (pieces p)) 0 (pieces p) - ps.
Proof. intros p ps fs F E S H L M. rewrite receivedBytes_ok by assumption. now rewrite L, M. Qed.
Print Assumptions C21_multiple_refuted.

Example C21_meets :
  let p := {| pieces := [1; 8; 9; 1]; selectedPieces := 2; receivedPiecesCount := 3; selectedReceivedPiecesCount := 2 |} in
  flags_ok p /\ exact p /\ sizes_ok 100 350 (zlen (pieces p)) /\ sizes_ok 100 400 (zlen (pieces p)).
Proof.
  split; [split; [repeat constructor; unfold flag_ok; lia|reflexivity]|].
  split; [repeat split; reflexivity|]. split; vm_compute; intuition congruence.
Qed.

(** A peer's 'have' is handled as long as the index is below 2^32 - 1 ([C19_add]). Finding: with
    the index 2^32 - 1 memory far outside is read, whatever the peer had before (unless all). *)
Theorem C52_have_refuted : forall p, flags_ok p -> addPiece 4294967295 p = UB.
Proof.
  intros p F. unfold addPiece. destruct (Z.leb_spec (zlen (pieces p)) 4294967295) as [L|L]; [|destruct F; lia].
  change (u32 (4294967295 + 1)) with 0. set (q := resize 0 p).
  assert (Q : pieces q = []).
  { unfold q, resize. destruct (Z.eqb_spec (zlen (pieces p)) 0) as [Z0|Z0].
    - destruct (pieces p); [reflexivity|]. rewrite zlen_cons in Z0. pose proof (zlen_nonneg l). lia.
    - unfold calculatePieces. cbn [pieces]. destruct (fold_left _ _ _) as [[a b] c]. reflexivity. }
  unfold hasPiece, finished, piece. rewrite Q. reflexivity.
Qed.
Print Assumptions C52_have_refuted.

(** Finding: a bitfield shorter than the torrent's is read past its end. *)
Theorem C52_short_bitfield_refuted : forall b p, 0 < zlen (pieces p) <= 16777216 -> zlen b * 8 < zlen (pieces p) ->
  fromBitfieldData b p = UB.
Proof. exact short_bitfield. Qed.
Print Assumptions C52_short_bitfield_refuted.

Example C52_meets : let p := init 9 emptyProgress in 0 < zlen (pieces p) <= 16777216 /\ zlen [255] * 8 < zlen (pieces p).
Proof. vm_compute. intuition congruence. Qed.

(** A peer's bitfield which is long enough is handled ([C20_read_partial]); one received before
    the number of pieces is known always is. *)
Theorem C52_early_bitfield_partial : forall b, zlen b * 8 <= 16777216 ->
  exists q, fromBitfieldData b emptyProgress = Ok q /\ zlen (pieces q) = zlen b * 8.
Proof.
  intros b H. destruct (fromBitfield_ok b emptyProgress H) as (q & Q & L & _); [cbn; pose proof (zlen_nonneg b); unfold zlen at 1; simpl; lia|].
  exists q. split; [exact Q|exact L].
Qed.
Print Assumptions C52_early_bitfield_partial.
