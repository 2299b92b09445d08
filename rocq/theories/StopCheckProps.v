(** C108: a check which is stopped is taken up again *)
From Verif Require Import Base BaseLemmas LayoutModel LayoutSpec LayoutProofs LayoutProps ProgressModel ProgressSpec ProgressProofs ProgressProps
  StorageModel StorageSpec StorageProofs StorageProps CheckModel CheckSpec CheckProofs CheckProps RoomModel RoomSpec RoomProofs RoomProps
  StartModel StartSpec StartProofs StartProps StopCheckModel StopCheckSpec.
From Coq Require Import Lia List.
Import ListNotations.

Lemma stoppedCheck_ok t n sel s wanted order : ready t n sel s -> zlen wanted = n -> (forall p, In p order -> 0 <= p < n) ->
  exists s', stoppedCheck wanted order s = Ok s' /\ ready t n sel s' /\ lastTime s' = lastTime s /\ times s' = times s /\ disk s' = disk s /\
    forall p, 0 <= p < n -> (is_received (prog s') p = true <-> (is_received (prog s) p = true /\ nth (Z.to_nat p) wanted false = false) \/ In p order) /\ is_chosen (prog s') p = is_chosen (prog s) p.
Proof.
  intros (A1 & A2 & A3 & A4 & A5 & A6 & F & E & L) W O. unfold stoppedCheck. destruct (removeReceived_ok (prog s) wanted F E ltac:(lia)) as (q & RQ & Q1 & Q2 & Q3 & _).
  destruct (C19_remove_where (prog s) wanted F E ltac:(lia)) as (q' & RQ' & _ & RW). rewrite RQ in RQ'. injection RQ' as <-. rewrite RQ. cbn [bind].
  destruct (addPieces_ok n order A5 q) as (r & RA & (V1 & V2 & V3) & RB); [split; [assumption|split; [assumption|lia]]|exact O|]. rewrite RA. cbn [bind].
  eexists. split; [reflexivity|]. unfold ready. cbn [lastTime times disk prog]. split; [tauto|]. split; [reflexivity|]. split; [reflexivity|]. split; [reflexivity|]. intros p P.
  destruct (RB p P) as [B1 B2]. destruct (RW p ltac:(lia)) as [C1 C2]. split; [|congruence]. rewrite B1, C2, andb_true_iff, negb_true_iff. reflexivity.
Qed.

Lemma newest_in ts : forall x, In x ts -> x <= getLastModifiedTime ts.
Proof. apply newest_spec. Qed.

(** What the check had found when it was stopped counts, as does what was not to be checked and is not missing *)
Theorem C108_found : forall t n sel available now order s, ready t n sel s -> changed_since s -> (forall p, In p order -> 0 <= p < n) ->
  exists s', startThenStop t n sel available now order s = Ok (Some s') /\ ready t n sel s' /\ times s' = times s /\ disk s' = disk s /\
    (forall x, In x (times s') -> x <= lastTime s') /\
    forall p, 0 <= p < n -> is_chosen (prog s') p = is_chosen (prog s) p /\ (is_received (prog s') p = true <->
      (is_received (prog s) p = true /\ ~ file_reaches (fun x => x = 0) (files t) (times s) p /\ ~ file_reaches (fun x => lastTime s < x) (files t) (times s) p) \/ In p order).
Proof.
  intros t n sel available now order s R CH O. pose proof R as (A1 & A2 & A3 & A4 & A5 & A6 & F & E & L).
  destruct (C92_start_partial t n sel available now s A1 A2 A3 A4 A6 F E L) as (o & s1 & ST & F1 & E1 & L1 & RC & BC & _). destruct (BC CH) as (wanted & -> & WL & LT & DK & TS & WW).
  unfold startThenStop. rewrite ST. cbn [bind]. assert (R1 : ready t n sel s1) by (unfold ready; rewrite TS; tauto).
  destruct (stoppedCheck_ok t n sel s1 wanted order R1 WL O) as (s2 & -> & R2 & LT2 & TS2 & DK2 & RC2). cbn [bind saveFiles]. eexists. split; [reflexivity|].
  split; [exact R2|]. cbn [saveTime times disk lastTime prog]. split; [congruence|]. split; [congruence|]. split; [apply newest_in|]. intros p P. destruct (RC2 p P) as [X1 X2], (RC p ltac:(lia)) as [Y1 Y2].
  split; [congruence|]. rewrite X1, Y1.
  assert (N : nth (Z.to_nat p) wanted false = false <-> ~ file_reaches (fun x => lastTime s < x) (files t) (times s) p).
  { rewrite <- WW by lia. destruct (nth_error wanted (Z.to_nat p)) as [x|] eqn:EX; [rewrite (nth_error_nth _ _ false EX); destruct x; split; congruence|]. apply nth_error_None in EX. rewrite nth_overflow by assumption. split; [discriminate|reflexivity]. }
  rewrite N. tauto.
Qed.
Print Assumptions C108_found.

(** ... also after the next start, unless a file of the piece is missing. Missing: what the check had not come to (C108_lost_refuted) *)
Theorem C108_kept_partial : forall t n sel available now available' now' order s, ready t n sel s -> changed_since s -> (forall p, In p order -> 0 <= p < n) ->
  exists s1 o s2, startThenStop t n sel available now order s = Ok (Some s1) /\ startFiles t n sel available' now' s1 = Ok (o, s2) /\
    forall p, 0 <= p < n -> ~ file_reaches (fun x => x = 0) (files t) (times s) p ->
      In p order \/ (is_received (prog s) p = true /\ ~ file_reaches (fun x => lastTime s < x) (files t) (times s) p) -> is_received (prog s2) p = true.
Proof.
  intros t n sel available now available' now' order s R CH O. destruct (C108_found t n sel available now order s R CH O) as (s1 & E1 & R1 & TS & DK & OLD & RC).
  pose proof R1 as (A1 & A2 & A3 & A4 & A5 & A6 & F & E & L). destruct (C92_start_partial t n sel available' now' s1 A1 A2 A3 A4 A6 F E L) as (o & s2 & ST & _ & _ & _ & RC2 & _ & _).
  exists s1, o, s2. split; [exact E1|]. split; [exact ST|]. intros p P G H. apply RC2; [lia|]. rewrite TS. split; [|exact G]. apply RC; [exact P|]. tauto.
Qed.
Print Assumptions C108_kept_partial.

(** Violated: the stop saves the time of the newest file as that of the last state. So the next start begins no check, and whatever is stored of a piece that the
    stopped check had not come to, it counts as missing *)
Theorem C108_lost_refuted : forall t n sel available now available' now' order s, ready t n sel s -> changed_since s -> (forall p, In p order -> 0 <= p < n) ->
  exists s1 o s2, startThenStop t n sel available now order s = Ok (Some s1) /\ startFiles t n sel available' now' s1 = Ok (o, s2) /\ (forall wanted, o <> BeginCheck wanted) /\
    forall p, 0 <= p < n -> file_reaches (fun x => lastTime s < x) (files t) (times s) p -> ~ In p order -> is_received (prog s2) p = false.
Proof.
  intros t n sel available now available' now' order s R CH O. destruct (C108_found t n sel available now order s R CH O) as (s1 & E1 & R1 & TS & DK & OLD & RC).
  pose proof R1 as (A1 & A2 & A3 & A4 & A5 & A6 & F & E & L). destruct (C92_start_partial t n sel available' now' s1 A1 A2 A3 A4 A6 F E L) as (o & s2 & ST & _ & _ & _ & RC2 & _ & NB).
  exists s1, o, s2. split; [exact E1|]. split; [exact ST|]. split; [now apply NB|]. intros p P G H. destruct (is_received (prog s2) p) eqn:X; [|reflexivity]. exfalso.
  apply RC2 in X as (X & _); [|lia]. apply RC in X; [|exact P]. tauto.
Qed.
Print Assumptions C108_lost_refuted.

(** Violated: a check the user asked for forgets all pieces when it begins; once it is stopped the next start checks nothing, so of a torrent that was complete only
    what the check had found is left *)
Theorem C108_asked_refuted : forall t n sel changed available now order s, ready t n sel s -> (forall x, In x (times s) -> x <= lastTime s) -> (forall p, In p order -> 0 <= p < n) ->
  exists s1 o s2, askThenStop changed order s = Ok s1 /\ startFiles t n sel available now s1 = Ok (o, s2) /\ (forall wanted, o <> BeginCheck wanted) /\
    forall p, 0 <= p < n -> (is_received (prog s2) p = true <-> In p order /\ ~ file_reaches (fun x => x = 0) (files t) (times s) p).
Proof.
  intros t n sel changed available now order s R OLD O. unfold askThenStop. pose proof R as (_ & _ & _ & _ & _ & _ & _ & _ & L0).
  destruct (stoppedCheck_ok t n sel s (repeat true (length (pieces (prog s)))) order R) as (s1 & -> & R1 & LT & TS & DK & RC); [unfold zlen in *; rewrite repeat_length; exact L0|exact O|]. cbn [bind].
  assert (G : exists s1', saveFiles changed s1 = s1' /\ prog s1' = prog s1 /\ times s1' = times s /\ (forall x, In x (times s1') -> x <= lastTime s1') /\ ready t n sel s1').
  { destruct changed; cbn [saveFiles]; eexists; (split; [reflexivity|]); (split; [reflexivity|]); (split; [exact TS|]); (split; [|exact R1]); [apply newest_in|]. rewrite TS, LT. exact OLD. }
  destruct G as (s1' & -> & G1 & G2 & G3 & R1'). pose proof R1' as (A1 & A2 & A3 & A4 & A5 & A6 & F & E & L).
  destruct (C92_start_partial t n sel available now s1' A1 A2 A3 A4 A6 F E L) as (o & s2 & ST & _ & _ & _ & RC2 & _ & NB).
  exists s1', o, s2. split; [reflexivity|]. split; [exact ST|]. split; [now apply NB|]. intros p P. destruct (RC2 p ltac:(lia)) as [X _]. rewrite X, G1, G2. destruct (RC p P) as [Y _]. rewrite Y.
  assert (nth (Z.to_nat p) (repeat true (length (pieces (prog s)))) false = true) as ->; [|intuition discriminate].
  unfold zlen in L0. rewrite (nth_indep _ false true) by (rewrite repeat_length; lia). apply nth_repeat.
Qed.
Print Assumptions C108_asked_refuted.

(** The torrent of C92_checked_meets: the first worker found piece 0, then the user stopped. Piece 3, which is stored, is not looked for by the next start. *)
Example C108_lost_ex : match startThenStop sampleT 4 [true; true; true] 100 20 [0] startState with
  | Ok (Some s1) => lastTime s1 = 9 /\ pieces (prog s1) = [1; 0; 0; 8] /\ match startFiles sampleT 4 [true; true; true] 100 30 s1 with
      | Ok (Allocated, s2) => pieces (prog s2) = [1; 0; 0; 8]
      | _ => False end
  | _ => False end.
Proof. vm_compute. auto. Qed.

(** A complete torrent, whose files did not change, after a check that was stopped at once *)
Definition complete : filesState := {| lastTime := 9; allocTime := 0; prog := {| pieces := [1; 1; 1; 9]; selectedPieces := 3; receivedPiecesCount := 4; selectedReceivedPiecesCount := 3 |}; disk := sampleDisk; times := [5; 9; 7] |}.
Example C108_asked_ex : ready sampleT 4 [true; true; true] complete /\ (forall x, In x (times complete) -> x <= lastTime complete) /\ match askThenStop true [] complete with
  | Ok s1 => match startFiles sampleT 4 [true; true; true] 100 30 s1 with Ok (Allocated, s2) => pieces (prog s2) = [0; 0; 0; 8] | _ => False end
  | _ => False end.
Proof.
  split; [|split; [cbn; intuition lia|vm_compute; reflexivity]]. unfold ready. split; [exact (proj1 C90_example)|]. split; [repeat constructor|]. split; [reflexivity|]. split; [vm_compute; discriminate|]. split; [reflexivity|]. split; [reflexivity|].
  split; [split; [repeat constructor; unfold flag_ok; lia|reflexivity]|]. split; [repeat split|reflexivity].
Qed.
