From Coq Require Import Sorted Permutation.
From Verif Require Import Base BaseLemmas UtpModel UtpSpec UtpProofs UtpProofs2 UtpProofs3 UtpProofs4 UtpProofs5 UtpProofs6.

(** * Selective acks: the sender *)

Definition ids_ok (base : Z) (l : list sentPacket) (ids : list Z) : Prop :=
  map sequenceOf l = map (fun i => i mod 65536) ids /\ StronglySorted Z.lt ids /\ Forall (fun i => base <= i < base + 30000) ids.

Lemma near_lower i j : -32768 < i - j < 32768 -> idLowerThan (i mod 65536) (j mod 65536) = (i <? j) /\ (i mod 65536 =? j mod 65536) = (i =? j).
Proof.
  intros H. split; [|lia]. rewrite lower_higher. replace j with (i + (j - i)) at 1 by lia. destruct (Z.ltb_spec i j); [apply higher_spec; lia|].
  destruct (idHigherThan ((i + (j - i)) mod 65536) (i mod 65536)) eqn:E; [|reflexivity]. apply higher_spec in E. lia.
Qed.

Lemma ackOne_exact base ia bs s : base <= ia < base + 3000 -> forall l ids, ids_ok base l ids -> let '(bs', s', l') := ackOne bs s (ia mod 65536) l in l' = filter (fun p => negb (sequenceOf p =? ia mod 65536)) l.
Proof.
  intros Hi. induction l as [|p l IH]; intros ids (E & S & F); [reflexivity|]. destruct ids as [|i ids]; [discriminate|]. cbn [map] in E. injection E as E1 E2. inversion S as [|? ? S1 S2]; subst. inversion F as [|? ? F1 F2]; subst.
  cbn [ackOne filter]. rewrite E1. destruct (near_lower i ia ltac:(lia)) as (N1 & N2). rewrite N1, N2.
  assert (High : forall v ids', map sequenceOf v = map (fun i => i mod 65536) ids' -> Forall (fun j => ia < j < base + 30000) ids' -> filter (fun p => negb (sequenceOf p =? ia mod 65536)) v = v).
  { clear - Hi. induction v as [|q v IHv]; intros ids' Ev Fv; [reflexivity|]. destruct ids' as [|j ids']; [discriminate|]. cbn [map] in Ev. injection Ev as Ev1 Ev2. inversion Fv; subst. cbn [filter]. rewrite Ev1. destruct (near_lower j ia ltac:(lia)) as (_ & N2). rewrite N2. replace (j =? ia) with false by lia. cbn [negb]. f_equal. now apply (IHv ids'). }
  assert (F2' := F2). rewrite Forall_forall in S2, F2. destruct (Z.ltb_spec i ia).
  - specialize (IH ids (conj E2 (conj S1 F2'))). destruct (ackOne bs s (ia mod 65536) l) as [[bs' s'] l']. replace (i =? ia) with false by lia. cbn [negb]. now rewrite IH.
  - destruct (Z.eqb_spec i ia) as [->|N]; cbn [negb].
    + destruct (ackSentPacket bs s p). symmetry. apply (High l ids E2). apply Forall_forall. intros j Hj. specialize (S2 j Hj). specialize (F2 j Hj). lia.
    + f_equal. symmetry. apply (High l ids E2). apply Forall_forall. intros j Hj. specialize (S2 j Hj). specialize (F2 j Hj). lia.
Qed.

Lemma ids_filter base f l : forall ids, ids_ok base l ids -> exists ids', ids_ok base (filter f l) ids' /\ incl ids' ids.
Proof.
  induction l as [|p l IH]; intros ids (E & S & F); cbn [filter]; [exists ids; split; [exact (conj E (conj S F))|apply incl_refl]|]. destruct ids as [|i ids]; [discriminate|]. cbn [map] in E. injection E as E1 E2. inversion S as [|? ? S1 S2]; subst. inversion F as [|? ? F1 F2]; subst.
  destruct (IH ids (conj E2 (conj S1 F2))) as (ids' & (A1 & A2 & A3) & B). destruct (f p).
  - exists (i :: ids'). split; [refine (conj _ (conj _ _)); [cbn [map]; now rewrite E1, A1| |constructor; assumption]|intros x [<-|Hx]; [now left|right; now apply B]]. constructor; [assumption|]. rewrite Forall_forall in *. intros x Hx. apply S2. now apply B.
  - exists ids'. split; [exact (conj A1 (conj A2 A3))|intros x Hx; right; now apply B].
Qed.

Lemma filter_filter {A} (f g : A -> bool) l : filter f (filter g l) = filter (fun x => g x && f x) l.
Proof. induction l as [|x l IH]; [reflexivity|]. cbn [filter]. destruct (g x); cbn [andb filter]; [destruct (f x); now rewrite IH|assumption]. Qed.

Lemma map_filter_comm {A B} (h : A -> B) (f : B -> bool) l : map h (filter (fun x => f (h x)) l) = filter f (map h l).
Proof. induction l as [|x l IH]; [reflexivity|]. cbn [filter map]. destruct (f (h x)); cbn [map]; now rewrite IH. Qed.

Lemma filter_id {A} (f : A -> bool) l : (forall x, In x l -> f x = true) -> filter f l = l.
Proof. induction l as [|x l IH]; intros H; [reflexivity|]. cbn [filter]. rewrite (H x) by now left. f_equal. apply IH. intros y Hy. apply H. now right. Qed.

Lemma ackEach_exact base R log acks : Forall (fun a => exists ia, base <= ia < base + 3000 /\ a = ia mod 65536) acks -> forall l ids bs s, list_ok R bs l log -> ids_ok base l ids ->
  let '(bs', s', l') := ackEach bs s l acks in map (ent bs') l' = filter (fun x => negb (existsb (Z.eqb (fst x)) acks)) (map (ent bs) l).
Proof.
  induction 1 as [|a acks (ia & Hi & ->) _ IH]; intros l ids bs s L D; cbn [ackEach]; [symmetry; apply filter_id; auto|].
  pose proof (ackOne_ok R log l [] bs s (ia mod 65536) L) as A. pose proof (ackOne_kept R log l [] bs s (ia mod 65536) L) as B. pose proof (ackOne_exact base ia bs s Hi l ids D) as C. destruct (ackOne bs s (ia mod 65536) l) as [[bs1 s1] l1]. cbn [app] in *. destruct A as (A1 & _).
  destruct (ids_filter base (fun p => negb (sequenceOf p =? ia mod 65536)) l ids D) as (ids' & D' & _). rewrite <- C in D'. specialize (IH l1 ids' bs1 s1 A1 D'). destruct (ackEach bs1 s1 l1 acks) as [[bs' s'] l']. rewrite IH.
  assert (E : map (ent bs1) l1 = filter (fun x => negb (fst x =? ia mod 65536)) (map (ent bs) l)).
  { destruct B as [B|(u & p & v & B1 & B2 & B3 & B4)].
    - rewrite <- B. symmetry. apply filter_id. intros x Hx. apply in_map_iff in Hx. destruct Hx as (p & <- & Hp). rewrite C in Hp. apply filter_In in Hp. exact (proj2 Hp).
    - rewrite B4, C. apply (map_filter_comm (ent bs) (fun x => negb (fst x =? ia mod 65536))). }
  rewrite E, filter_filter. apply filter_ext. intros x. cbn [existsb]. now rewrite negb_orb.
Qed.

Lemma selective_exact q0 W base st m mask : SI q0 W st -> in_flight base st -> ack_nr m = (base - 1) mod 65536 -> (length mask <= 255)%nat ->
  kept (ackSelective st m mask) = filter (fun x => negb (existsb (Z.eqb (fst x)) (ackedNumbers (ack_nr m) mask))) (kept st).
Proof.
  intros H (ids & D1 & D2 & D3) E L. unfold ackSelective. set (acks := ackedNumbers (ack_nr m) mask).
  assert (Fa : Forall (fun a => exists ia, base <= ia < base + 3000 /\ a = ia mod 65536) acks).
  { apply Forall_forall. intros a Ha. apply acked_in in Ha. destruct Ha as (i & j & Hi & Hj & _ & ->). exists (base + 1 + 8 * Z.of_nat i + Z.of_nat j). split; [lia|]. rewrite E. rewrite <- !Z.add_assoc, Zplus_mod_idemp_l. f_equal. lia. }
  assert (Di : ids_ok base (sentData (snd_ st)) ids) by (refine (conj _ (conj D2 D3)); rewrite <- D1, kept_ent, map_map; reflexivity).
  pose proof (ackEach_exact base (ridx st) (firsts (outs st)) acks Fa (sentData (snd_ st)) ids (bufs st) (snd_ st) (proj1 H) Di) as A. destruct (ackEach (bufs st) (snd_ st) (sentData (snd_ st)) acks) as [[bs s] l].
  destruct (2 <? length acks)%nat; [|exact A]. rewrite resend_kept. exact A.
Qed.

(** * Duplicates fill the buffers *)

Definition dup (s a : Z) (data : list Z) : message := {| mtype := 0; seq_nr := s; ack_nr := 0; wnd := a; exts := []; payload := data |}.

(** A stream that sent nothing, stores one packet, and has [j] copies of it. *)
Definition filled (a s : Z) (data : list Z) (j : nat) (st : stream) : Prop :=
  step st = CONNECTED /\ bufs st = repeat data j /\ ack (rcv st) = a /\ received (rcv st) = [(0%nat, s)] /\ sentData (snd_ st) = [] /\ prepared (snd_ st) = [] /\ duplicateAckCounter (snd_ st) = 0.

Lemma findEmpty_full (data : list Z) n : data <> [] -> forall i, findEmpty (repeat data n) i = None.
Proof. intros N i. apply findEmpty_none. apply Forall_forall. intros b Hb. apply repeat_spec in Hb. congruence. Qed.

Lemma firstn_repeat {A} (x : A) n m : (n <= m)%nat -> firstn n (repeat x m) = repeat x n.
Proof. revert m. induction n as [|n IH]; intros m H; [reflexivity|]. destruct m; [lia|]. cbn. f_equal. apply IH. lia. Qed.

Lemma create_full data j : data <> [] -> createDataBuffer (repeat data j) data = if 65536 <=? Z.of_nat j then None else Some (repeat data (S j), j).
Proof.
  intros N. unfold createDataBuffer. assert (E : findEmpty (repeat data j) 0 = None) by now apply findEmpty_full.
  rewrite E. unfold zlen. rewrite repeat_length. destruct (_ <=? _); [reflexivity|]. f_equal. f_equal. rewrite <- repeat_cons. reflexivity.
Qed.

Lemma dup_step a s data j st : filled a s data j st -> data <> [] -> s <> u16 (a + 1) -> idHigherThan s a = true -> idLowerThan s a = false ->
  (65536 <=? Z.of_nat j = true -> do_event st (Packet (dup s 1000 data)) = None) /\
  (65536 <=? Z.of_nat j = false -> exists st', do_event st (Packet (dup s 1000 data)) = Some st' /\ filled a s data (S j) st').
Proof.
  intros (F1 & F2 & F3 & F4 & F5 & F6 & F7) N E Hi Lo. cbn [do_event]. unfold readUdpPacket. cbn [mtype dup payload]. destruct data as [|x data]; [congruence|]. cbn [Z.eqb].
  unfold updateState. cbn [mtype dup seq_nr ack_nr wnd exts]. rewrite F3, Lo. cbn [Z.eqb andb]. unfold ackSentDataBuffer. rewrite F5. cbn [ackLoop length Nat.ltb Nat.leb mtype dup Z.eqb negb andb]. rewrite F1. cbn [fold_left].
  unfold flushSendData. cbn [setWnd withSending snd_ setSent duplicateAckCounter sentData prepared bufferPos resendCount]. rewrite F7, F6. change (2 <? 0) with false. cbv iota. change (u16 0 =? 0) with true. cbv iota zeta. rewrite skipn_nil. cbn [flushPrepared length Nat.eqb].
  cbn [step setWnd withSending]. unfold receiveData. cbn [rcv bufs ack received setWnd withSending]. rewrite F2, F3, F4. replace (s =? u16 (a + 1)) with false by lia. rewrite Hi. rewrite create_full by discriminate.
  split; intros Q; rewrite Q; [reflexivity|]. cbn [insertReceived snd]. rewrite Z.eqb_refl. eexists. split; [reflexivity|]. unfold filled, setRecv. cbn. repeat split; try assumption. 
Qed.

Lemma dup_run a s data st : data <> [] -> s <> u16 (a + 1) -> idHigherThan s a = true -> idLowerThan s a = false -> forall k j, Z.of_nat j + Z.of_nat k = 65537 -> filled a s data j st -> run st (repeat (Packet (dup s 1000 data)) k) = None \/ 65536 < Z.of_nat j.
Proof.
  intros N E Hi Lo k. revert st. induction k as [|k IH]; intros st j Hj F; [right; lia|]. cbn [repeat run]. destruct (dup_step a s data j st F N E Hi Lo) as (A & B). destruct (65536 <=? Z.of_nat j) eqn:Q; [left; now rewrite (A eq_refl)|].
  destruct (B eq_refl) as (st' & -> & F'). destruct (IH st' (S j) ltac:(lia) F') as [G|G]; [now left|]. assert (k = 0%nat) by lia. subst k. lia.
Qed.
