From Coq Require Import Sorted Permutation.
From Verif Require Import Base BaseLemmas UtpModel UtpSpec.

(** * Sequence numbers *)

Lemma higher_spec d r : idHigherThan (u16 (r + d)) (u16 r) = true <-> 0 < d mod 65536 < 32768.
Proof.
  unfold idHigherThan, u16. assert (A : ((r + d) mod 65536 - r mod 65536) mod 65536 = d mod 65536) by (rewrite <- Zminus_mod; f_equal; lia).
  assert (B : (r mod 65536 - (r + d) mod 65536) mod 65536 = (- d) mod 65536) by (rewrite <- Zminus_mod; f_equal; lia). rewrite A, B. lia.
Qed.

Lemma lower_higher a b : idLowerThan a b = idHigherThan b a.
Proof. reflexivity. Qed.

Lemma number_u16 s0 k : number s0 k = u16 (s0 + Z.of_nat k). Proof. reflexivity. Qed.

Lemma number_higher s0 a b : -32768 <= Z.of_nat a - Z.of_nat b < 32768 -> idHigherThan (number s0 a) (number s0 b) = (Z.of_nat b <? Z.of_nat a).
Proof.
  intros H. rewrite !number_u16. replace (s0 + Z.of_nat a) with (s0 + Z.of_nat b + (Z.of_nat a - Z.of_nat b)) by lia.
  destruct (Z.ltb_spec (Z.of_nat b) (Z.of_nat a)).
  - apply higher_spec. lia.
  - destruct (idHigherThan _ _) eqn:E; [|reflexivity]. apply higher_spec in E. lia.
Qed.

Lemma number_eq s0 a b : -65536 < Z.of_nat a - Z.of_nat b < 65536 -> (number s0 a =? number s0 b) = (Z.of_nat a =? Z.of_nat b).
Proof. intros H. unfold number. destruct (Z.eqb_spec (Z.of_nat a) (Z.of_nat b)) as [E|E]; [rewrite E; apply Z.eqb_refl|]. lia. Qed.

(** * Subsequences *)

Lemma sub_refl {A} (l : list A) : sub l l.
Proof. induction l; [apply sub_nil|now apply sub_take]. Qed.
Lemma sub_none {A} (l : list A) : sub [] l.
Proof. induction l; [apply sub_nil|now apply sub_skip]. Qed.
Lemma sub_app {A} (a b c d : list A) : sub a b -> sub c d -> sub (a ++ c) (b ++ d).
Proof. induction 1; intros P; cbn; [assumption|apply sub_skip; auto|apply sub_take; auto]. Qed.
Lemma sub_in {A} (a b : list A) x : sub a b -> In x a -> In x b.
Proof. induction 1; cbn; intuition. Qed.
Lemma sub_trans {A} (a b c : list A) : sub a b -> sub b c -> sub a c.
Proof.
  intros H G. revert a H. induction G as [|x b c G IH|x b c G IH]; intros a H; [assumption|apply sub_skip; auto|].
  inversion H; subst; [apply sub_skip; auto|apply sub_take; auto].
Qed.

(** * Buffers *)

Definition free (bs : list (list Z)) (i : nat) : Prop := nth i bs [] = [].

Lemma findEmpty_some l : forall i j, findEmpty l i = Some j -> (i <= j < i + length l)%nat /\ nth (j - i) l [] = [].
Proof.
  induction l as [|b l IH]; intros i j H; [discriminate|]. cbn in H. destruct b as [|x b].
  - injection H as <-. cbn [length]. split; [lia|]. replace (i - i)%nat with 0%nat by lia. reflexivity.
  - apply IH in H. cbn [length]. destruct H as [H1 H2]. split; [lia|]. replace (j - i)%nat with (S (j - S i)) by lia. exact H2.
Qed.

Lemma findEmpty_none l : forall i, findEmpty l i = None <-> Forall (fun b => b <> []) l.
Proof.
  induction l as [|b l IH]; intros i; cbn; [split; auto|]. destruct b as [|x b]; [split; [discriminate|intros F; inversion F; congruence]|].
  rewrite IH. split; [intros F; constructor; [discriminate|assumption]|intros F; now inversion F].
Qed.

Lemma create_ok bs c bs' i : createDataBuffer bs c = Some (bs', i) -> free bs i /\ (i < length bs')%nat /\ (length bs <= length bs')%nat /\ nth i bs' [] = c /\ (forall j, j <> i -> nth j bs' [] = nth j bs []).
Proof.
  unfold createDataBuffer. destruct (findEmpty _ 0) as [j|] eqn:E.
  - destruct (Z.of_nat j <? 65536); [|discriminate]. intros H. injection H as <- <-. apply findEmpty_some in E. destruct E as [E1 N]. replace (j - 0)%nat with j in N by lia.
    unfold free. rewrite upd_length. refine (conj N (conj _ (conj _ (conj _ _)))); [lia|lia|apply nth_upd_same; lia|]. intros k Hk. now apply nth_upd_other.
  - destruct (65536 <=? zlen bs); [discriminate|]. intros H. injection H as <- <-. rewrite app_length. cbn [length]. unfold free. refine (conj _ (conj _ (conj _ (conj _ _)))); [now apply nth_overflow|lia|lia|rewrite app_nth2 by lia; replace (length bs - length bs)%nat with 0%nat by lia; reflexivity|].
    intros k Hk. destruct (Nat.ltb_spec k (length bs)); [now apply app_nth1|]. rewrite !nth_overflow; [reflexivity|lia|rewrite app_length; cbn; lia].
Qed.

(** Indices in use are distinct and their buffers hold something. *)
Definition used_ok (bs : list (list Z)) (is : list nat) : Prop := NoDup is /\ Forall (fun i => nth i bs [] <> []) is.

Lemma used_part bs is js : sub is js -> used_ok bs js -> used_ok bs is.
Proof.
  intros S [N F]. split.
  - induction S as [|x a b S IH|x a b S IH]; [constructor|inversion N; subst; inversion F; subst; auto|]. inversion N as [|? ? N1 N2]; subst. inversion F; subst. constructor; [|auto]. intros Q. apply N1. now apply (sub_in a).
  - rewrite Forall_forall in *. intros i Hi. apply F. now apply (sub_in is).
Qed.

Lemma used_new bs c bs' i is : createDataBuffer bs c = Some (bs', i) -> c <> [] -> used_ok bs is -> ~ In i is /\ used_ok bs' (is ++ [i]) /\ (forall j, In j is -> nth j bs' [] = nth j bs []).
Proof.
  intros H C [N F]. destruct (create_ok _ _ _ _ H) as (A & _ & _ & B & D). rewrite Forall_forall in F.
  assert (X : ~ In i is) by (intros Q; exact (F i Q A)). assert (Y : forall j, In j is -> nth j bs' [] = nth j bs []) by (intros j Hj; apply D; intros ->; contradiction).
  refine (conj X (conj (conj _ _) Y)).
  - apply NoDup_Add with (a := i) (l := is); [rewrite <- (app_nil_r is) at 1; apply Add_app|auto].
  - apply Forall_app. split; [apply Forall_forall; intros j Hj; rewrite Y by assumption; now apply F|constructor; [rewrite B; assumption|constructor]].
Qed.

Lemma used_perm bs a b c d : used_ok bs (a ++ b ++ c ++ d) -> used_ok bs (a ++ c ++ b ++ d).
Proof.
  intros [N F]. assert (P : Permutation (a ++ b ++ c ++ d) (a ++ c ++ b ++ d)). { apply Permutation_app_head. rewrite !app_assoc. apply Permutation_app_tail. apply Permutation_app_comm. }
  split; [now apply (Permutation_NoDup P)|]. rewrite Forall_forall in *. intros i Hi. apply F. now apply (Permutation_in _ (Permutation_sym P)).
Qed.

Lemma used_clear bs i is : ~ In i is -> used_ok bs is -> used_ok (upd i [] bs) is /\ (forall j, In j is -> nth j (upd i [] bs) [] = nth j bs []).
Proof.
  intros N [D F]. assert (Y : forall j, In j is -> nth j (upd i [] bs) [] = nth j bs []) by (intros j Hj; apply nth_upd_other; intros ->; contradiction).
  refine (conj (conj D _) Y). rewrite Forall_forall in *. intros j Hj. rewrite Y by assumption. now apply F.
Qed.

(** * The send side *)

Definition ent (bs : list (list Z)) (p : sentPacket) : Z * list Z := (sequenceOf p, skipn 20 (nth (bufferIdx p) bs [])).
Definition size_of (bs : list (list Z)) (l : list sentPacket) : Z := fold_right Z.add 0 (map (fun p => zlen (nth (bufferIdx p) bs [])) l).
Definition long (bs : list (list Z)) (l : list sentPacket) : Prop := Forall (fun p => (20 <= length (nth (bufferIdx p) bs []))%nat) l.

(** [R]: buffers of the receive side.  [log]: packets sent so far. *)
Definition list_ok (R : list nat) (bs : list (list Z)) (l : list sentPacket) (log : list (Z * list Z)) : Prop :=
  used_ok bs (R ++ map bufferIdx l) /\ sub (map (ent bs) l) log /\ long bs l.

Definition same_on (R : list nat) (bs bs' : list (list Z)) : Prop := forall j, In j R -> nth j bs' [] = nth j bs [].

Lemma same_trans R a b c : same_on R a b -> same_on R b c -> same_on R a c.
Proof. intros H G j Hj. rewrite G, H by assumption. reflexivity. Qed.

(** What acknowledging changes besides the list. *)
Definition frame (s s' : sending) : Prop :=
  sequence s' = sequence s /\ prepared s' = prepared s /\ bufferPos s' = bufferPos s /\ sentData s' = sentData s /\
  duplicateAckCounter s' = duplicateAckCounter s /\ last_ack s' = last_ack s /\ peer_wnd_size s' = peer_wnd_size s.

Lemma frame_refl s : frame s s. Proof. repeat split. Qed.
Lemma frame_trans a b c : frame a b -> frame b c -> frame a c.
Proof. unfold frame. intros (?&?&?&?&?&?&?) (?&?&?&?&?&?&?). repeat split; congruence. Qed.

Lemma same_ent bs bs' l : same_on (map bufferIdx l) bs bs' -> map (ent bs') l = map (ent bs) l /\ size_of bs' l = size_of bs l /\ (long bs l -> long bs' l).
Proof.
  intros H. refine (conj _ (conj _ _)).
  - apply map_ext_in. intros p Hp. unfold ent. rewrite H by (now apply in_map). reflexivity.
  - unfold size_of. f_equal. apply map_ext_in. intros p Hp. rewrite H by (now apply in_map). reflexivity.
  - unfold long. rewrite !Forall_forall. intros F p Hp. rewrite H by (now apply in_map). now apply F.
Qed.

(** Removing the packet [p] from the middle of the list. *)
Lemma ack_one_ok R bs s l1 p l2 log : list_ok R bs (l1 ++ p :: l2) log -> let '(bs', s') := ackSentPacket bs s p in
  list_ok R bs' (l1 ++ l2) log /\ same_on R bs bs' /\ frame s s' /\
  u64 (sentDataWithoutAckSize s' - size_of bs' (l1 ++ l2)) = u64 (sentDataWithoutAckSize s - size_of bs (l1 ++ p :: l2)).
Proof.
  intros (U & S & L). unfold ackSentPacket. set (i := bufferIdx p).
  rewrite map_app in U. cbn [map] in U. fold i in U.
  assert (Ni : ~ In i (R ++ map bufferIdx (l1 ++ l2))).
  { destruct U as [N _]. rewrite app_assoc in N. apply NoDup_remove_2 in N. rewrite map_app, app_assoc. exact N. }
  assert (U' : used_ok bs (R ++ map bufferIdx (l1 ++ l2))).
  { eapply used_part; [|exact U]. rewrite map_app. apply sub_app; [apply sub_refl|]. apply sub_app; [apply sub_refl|]. apply sub_skip, sub_refl. }
  destruct (used_clear bs i _ Ni U') as [C1 C2].
  assert (E : same_on (map bufferIdx (l1 ++ l2)) bs (upd i [] bs)) by (intros j Hj; apply C2; apply in_or_app; now right).
  destruct (same_ent _ _ _ E) as (E1 & E2 & E3).
  refine (conj (conj C1 (conj _ _)) (conj _ (conj _ _))).
  - rewrite E1. eapply sub_trans; [|exact S]. rewrite !map_app. cbn [map]. apply sub_app; [apply sub_refl|]. apply sub_skip, sub_refl.
  - apply E3. unfold long in *. apply Forall_app in L. destruct L as [L1 L2]. inversion L2; subst. apply Forall_app. auto.
  - intros j Hj. apply C2. apply in_or_app. now left.
  - repeat split.
  - cbn [sentDataWithoutAckSize]. rewrite E2. assert (Z : size_of bs (l1 ++ p :: l2) = zlen (nth i bs []) + size_of bs (l1 ++ l2)).
    { unfold size_of. rewrite !map_app. cbn [map]. fold i. generalize (map (fun p0 => zlen (nth (bufferIdx p0) bs [])) l1). intros a. induction a; cbn in *; lia. }
    rewrite Z. unfold u64. rewrite Zminus_mod_idemp_l. f_equal. lia.
Qed.

Lemma ackLoop_ok R log l : forall bs s a, list_ok R bs l log -> let '(bs', s', l') := ackLoop bs s a l in
  list_ok R bs' l' log /\ same_on R bs bs' /\ frame s s' /\ u64 (sentDataWithoutAckSize s' - size_of bs' l') = u64 (sentDataWithoutAckSize s - size_of bs l) /\
  exists l0, l = l0 ++ l' /\ Forall (fun p => idHigherThan (sequenceOf p) a = false) l0.
Proof.
  induction l as [|p l IH]; intros bs s a H; cbn [ackLoop].
  - refine (conj H (conj _ (conj (frame_refl s) (conj eq_refl _)))); [intros j Hj; reflexivity|exists []; auto].
  - destruct (idHigherThan (sequenceOf p) a) eqn:E.
    + refine (conj H (conj _ (conj (frame_refl s) (conj eq_refl _)))); [intros j Hj; reflexivity|exists []; auto].
    + pose proof (ack_one_ok R bs s [] p l log H) as A. destruct (ackSentPacket bs s p) as [bs1 s1]. cbn [app] in A. destruct A as (A1 & A2 & A3 & A4). specialize (IH bs1 s1 a A1). destruct (ackLoop bs1 s1 a l) as [[bs' s'] l']. destruct IH as (I1 & I2 & I3 & I4 & l0 & I5 & I6).
      refine (conj I1 (conj (same_trans _ _ _ _ A2 I2) (conj (frame_trans _ _ _ A3 I3) (conj _ _)))); [congruence|]. exists (p :: l0). split; [cbn; now rewrite I5|now constructor].
Qed.

Lemma ackOne_ok R log l2 : forall l1 bs s a, list_ok R bs (l1 ++ l2) log -> let '(bs', s', l') := ackOne bs s a l2 in
  list_ok R bs' (l1 ++ l') log /\ same_on R bs bs' /\ frame s s' /\ u64 (sentDataWithoutAckSize s' - size_of bs' (l1 ++ l')) = u64 (sentDataWithoutAckSize s - size_of bs (l1 ++ l2)) /\
  (forall p, In p l2 -> In p l' \/ sequenceOf p = a).
Proof.
  induction l2 as [|p l2 IH]; intros l1 bs s a H; cbn [ackOne].
  - refine (conj H (conj _ (conj (frame_refl s) (conj eq_refl _)))); [intros j Hj; reflexivity|intros p []].
  - destruct (idLowerThan (sequenceOf p) a).
    + specialize (IH (l1 ++ [p]) bs s a). rewrite <- app_assoc in IH. cbn [app] in IH. specialize (IH H). destruct (ackOne bs s a l2) as [[bs' s'] l']. rewrite <- app_assoc in IH. cbn [app] in IH. destruct IH as (I1 & I2 & I3 & I4 & I5).
      refine (conj I1 (conj I2 (conj I3 (conj I4 _)))). intros q [->|Hq]; [left; now left|]. destruct (I5 q Hq); [left; now right|now right].
    + destruct (Z.eqb_spec (sequenceOf p) a).
      * pose proof (ack_one_ok R bs s l1 p l2 log H) as A. destruct (ackSentPacket bs s p) as [bs1 s1]. destruct A as (A1 & A2 & A3 & A4). refine (conj A1 (conj A2 (conj A3 (conj A4 _)))). intros q [->|Hq]; [now right|now left].
      * refine (conj H (conj _ (conj (frame_refl s) (conj eq_refl _)))); [intros j Hj; reflexivity|auto].
Qed.

Lemma ackEach_ok R log acks : forall l bs s, list_ok R bs l log -> let '(bs', s', l') := ackEach bs s l acks in
  list_ok R bs' l' log /\ same_on R bs bs' /\ frame s s' /\ u64 (sentDataWithoutAckSize s' - size_of bs' l') = u64 (sentDataWithoutAckSize s - size_of bs l) /\
  (forall p, In p l -> In p l' \/ In (sequenceOf p) acks).
Proof.
  induction acks as [|a acks IH]; intros l bs s H; cbn [ackEach].
  - refine (conj H (conj _ (conj (frame_refl s) (conj eq_refl _)))); [intros j Hj; reflexivity|auto].
  - pose proof (ackOne_ok R log l [] bs s a H) as A. destruct (ackOne bs s a l) as [[bs1 s1] l1]. cbn [app] in A. destruct A as (A1 & A2 & A3 & A4 & A5). specialize (IH l1 bs1 s1 A1). destruct (ackEach bs1 s1 l1 acks) as [[bs' s'] l']. destruct IH as (I1 & I2 & I3 & I4 & I5).
    refine (conj I1 (conj (same_trans _ _ _ _ A2 I2) (conj (frame_trans _ _ _ A3 I3) (conj _ _)))); [congruence|]. intros p Hp. destruct (A5 p Hp) as [Q|Q]; [destruct (I5 p Q); [now left|right; now right]|right; now left].
Qed.

(** Resending changes only the flags. *)
Lemma resendLoop_ok bs a l : let '(l', o) := resendLoop bs a l in
  map bufferIdx l' = map bufferIdx l /\ map sequenceOf l' = map sequenceOf l /\ map (ent bs) l' = map (ent bs) l /\ firsts o = [] /\ incl (repeats o) (map (ent bs) l).
Proof.
  induction l as [|p l IH]; cbn [resendLoop]; [refine (conj eq_refl (conj eq_refl (conj eq_refl (conj eq_refl _)))); intros x []|]. destruct (idHigherThan (sequenceOf p) a); [refine (conj eq_refl (conj eq_refl (conj eq_refl (conj eq_refl _)))); intros x []|].
  destruct (resendLoop bs a l) as [l' o]. destruct IH as (I1 & I2 & I3 & I4 & I5). destruct (resent p && negb (needResend p)).
  - cbn [map]. rewrite I1, I2, I3. refine (conj eq_refl (conj eq_refl (conj eq_refl (conj I4 _)))). intros x Hx. right. now apply I5.
  - cbn [map bufferIdx sequenceOf]. rewrite I1, I2, I3. refine (conj eq_refl (conj eq_refl (conj eq_refl (conj I4 _)))). intros x [<-|Hx]; [now left|right; now apply I5].
Qed.

Lemma long_ext bs l l' : map bufferIdx l' = map bufferIdx l -> long bs l -> long bs l'.
Proof.
  revert l'. induction l as [|p l IH]; intros [|q l'] E H; try discriminate; [constructor|]. cbn in E. injection E as E1 E2. inversion H; subst. constructor; [now rewrite E1|now apply IH].
Qed.
Lemma size_ext bs l l' : map bufferIdx l' = map bufferIdx l -> size_of bs l' = size_of bs l.
Proof.
  intros E. unfold size_of. f_equal. rewrite <- (map_map bufferIdx (fun i => zlen (nth i bs []))). rewrite E. now rewrite map_map.
Qed.

Lemma skipn_plus {A} (a b : nat) : forall l : list A, skipn (a + b) l = skipn a (skipn b l).
Proof. revert a. induction b as [|b IH]; intros a l; [now rewrite Nat.add_0_r|]. destruct l; [now rewrite !skipn_nil|]. rewrite Nat.add_succ_r. cbn [skipn]. apply IH. Qed.

(** * The whole stream *)

Definition ridx (st : stream) : list nat := map fst (received (rcv st)).

Definition SI (q0 : Z) (W : list Z) (st : stream) : Prop :=
  let s := snd_ st in let log := firsts (outs st) in
  list_ok (ridx st) (bufs st) (sentData s) log /\
  u64 (sentDataWithoutAckSize s - size_of (bufs st) (sentData s)) = 0 /\
  concat (map snd log) ++ held_back st = W /\ 0 <= bufferPos s <= zlen (prepared s) /\
  map fst log = map (fun k => (q0 + Z.of_nat k) mod 65536) (seq 0 (length log)) /\ sequence s = (q0 + zlen log) mod 65536 /\
  incl (repeats (outs st)) log.

(** What operations of the send side leave alone. *)
Definition rsame (st st' : stream) : Prop := rcv st' = rcv st /\ same_on (ridx st) (bufs st) (bufs st').

Lemma rsame_refl st : rsame st st. Proof. split; [reflexivity|intros j Hj; reflexivity]. Qed.
Lemma rsame_trans a b c : rsame a b -> rsame b c -> rsame a c.
Proof. intros [A1 A2] [B1 B2]. split; [congruence|]. unfold ridx in *. rewrite A1 in B2. now apply (same_trans _ _ (bufs b)). Qed.

Lemma firsts_app a b : firsts (a ++ b) = firsts a ++ firsts b. Proof. apply flat_map_app. Qed.
Lemma repeats_app a b : repeats (a ++ b) = repeats a ++ repeats b. Proof. apply flat_map_app. Qed.

Lemma resend_ok q0 W st a : SI q0 W st -> SI q0 W (resendPackets st a) /\ rsame st (resendPackets st a) /\ step (resendPackets st a) = step st /\
  prepared (snd_ (resendPackets st a)) = prepared (snd_ st) /\ bufferPos (snd_ (resendPackets st a)) = bufferPos (snd_ st).
Proof.
  intros ((U & S & L) & H2 & H3 & H4 & H5 & H6 & H7). unfold resendPackets. pose proof (resendLoop_ok (bufs st) a (sentData (snd_ st))) as R. destruct (resendLoop (bufs st) a (sentData (snd_ st))) as [l o]. destruct R as (R1 & R2 & R3 & R4 & R5).
  split; [|split; [apply (rsame_refl st)|repeat split]]. unfold SI, list_ok, held_back, ridx in *. cbn [snd_ outs bufs rcv sentData sentDataWithoutAckSize setSent prepared bufferPos sequence] in *.
  rewrite firsts_app, R4, app_nil_r, repeats_app. rewrite (size_ext _ _ _ R1), R1, R3. refine (conj (conj U (conj S (long_ext _ _ _ R1 L))) (conj H2 (conj H3 (conj H4 (conj H5 (conj H6 _)))))).
  apply incl_app; [assumption|]. intros x Hx. apply R5 in Hx. now apply (sub_in _ _ _ S).
Qed.

Lemma repeat_20 (c : list Z) : (repeat 0 20 ++ c <> []) /\ skipn 20 (repeat 0 20 ++ c) = c /\ (20 <= length (repeat 0%Z 20 ++ c))%nat.
Proof. split; [discriminate|]. split; [reflexivity|]. rewrite app_length. cbn. lia. Qed.

(** The first bytes of [d] go into a packet: [W] then is what was handed out before. *)
Definition SI_mid (q0 : Z) (W0 : list Z) (st : stream) : Prop :=
  let s := snd_ st in let log := firsts (outs st) in
  list_ok (ridx st) (bufs st) (sentData s) log /\
  u64 (sentDataWithoutAckSize s - size_of (bufs st) (sentData s)) = 0 /\
  concat (map snd log) = W0 /\
  map fst log = map (fun k => (q0 + Z.of_nat k) mod 65536) (seq 0 (length log)) /\ sequence s = (q0 + zlen log) mod 65536 /\
  incl (repeats (outs st)) log.

Definition sframe (st st' : stream) : Prop :=
  step st' = step st /\ prepared (snd_ st') = prepared (snd_ st) /\ bufferPos (snd_ st') = bufferPos (snd_ st) /\ rsame st st'.
Lemma sframe_refl st : sframe st st. Proof. refine (conj eq_refl (conj eq_refl (conj eq_refl (rsame_refl st)))). Qed.
Lemma sframe_trans a b c : sframe a b -> sframe b c -> sframe a c.
Proof. intros (A1 & A2 & A3 & A4) (B1 & B2 & B3 & B4). unfold sframe. refine (conj _ (conj _ (conj _ (rsame_trans _ _ _ A4 B4)))); congruence. Qed.

Lemma sendData_ok q0 W0 st d st' rest : SI_mid q0 W0 st -> sendData st d = Some (st', rest) ->
  exists c, d = c ++ rest /\ SI_mid q0 (W0 ++ c) st' /\ sframe st st'.
Proof.
  intros ((U & S & L) & H2 & H3 & H5 & H6 & H7) H. unfold sendData in H. destruct (packetSize (snd_ st) (zlen d)) as [n probe]. set (c := firstn (Z.to_nat n) d) in *. destruct (createDataBuffer (bufs st) (repeat 0 20 ++ c)) as [[bs i]|] eqn:C; [|discriminate]. injection H as <- <-.
  destruct (repeat_20 c) as (N20 & S20 & L20). destruct (used_new _ _ _ _ _ C N20 U) as (X1 & X2 & X3). destruct (create_ok _ _ _ _ C) as (_ & _ & _ & Y1 & Y2).
  exists c. split; [unfold c; now rewrite firstn_skipn|].
  assert (E : same_on (map bufferIdx (sentData (snd_ st))) (bufs st) bs) by (intros j Hj; apply X3; apply in_or_app; now right). destruct (same_ent _ _ _ E) as (E1 & E2 & E3).
  assert (Sz : size_of bs (sentData (snd_ st) ++ [{| bufferIdx := i; sequenceOf := sequence (snd_ st); resent := false; needResend := false |}]) = size_of (bufs st) (sentData (snd_ st)) + zlen (nth i bs [])).
  { rewrite <- E2. unfold size_of. rewrite map_app. cbn [map bufferIdx]. generalize (map (fun p => zlen (nth (bufferIdx p) bs [])) (sentData (snd_ st))). intros a. induction a; cbn in *; lia. }
  split; [|split; [reflexivity|split; [reflexivity|split; [reflexivity|split; [reflexivity|]]]]].
  - unfold SI_mid, list_ok, ridx in *. cbn [snd_ outs bufs rcv sentData sentDataWithoutAckSize prepared bufferPos sequence] in *. rewrite firsts_app, repeats_app. cbn [firsts repeats flat_map app]. rewrite !app_nil_r.
    refine (conj (conj _ (conj _ _)) (conj _ (conj _ (conj _ (conj _ _))))).
    + rewrite map_app, app_assoc. exact X2.
    + rewrite map_app, E1. apply sub_app; [exact S|]. cbn [map ent bufferIdx sequenceOf]. unfold ent. cbn [bufferIdx sequenceOf]. rewrite Y1, S20. apply sub_refl.
    + unfold long. apply Forall_app. split; [now apply E3|]. constructor; [cbn [bufferIdx]; rewrite Y1; exact L20|constructor].
    + rewrite Sz. unfold u64 in *. rewrite Zminus_mod_idemp_l. rewrite <- H2. f_equal. lia.
    + rewrite map_app, concat_app. cbn [map concat]. rewrite app_nil_r. now rewrite H3.
    + rewrite map_app, app_length. cbn [map length fst]. rewrite Nat.add_1_r, seq_S, map_app. cbn [map Nat.add]. rewrite H5. f_equal. rewrite H6. reflexivity.
    + rewrite zlen_app. change (zlen [(sequence (snd_ st), c)]) with 1. unfold u16. rewrite H6. rewrite Zplus_mod_idemp_l. f_equal. lia.
    + intros x Hx. apply in_or_app. left. now apply H7.
  - intros j Hj. apply X3. apply in_or_app. now left.
Qed.

Lemma SI_split q0 W st : SI q0 W st <-> exists W0, SI_mid q0 W0 st /\ W = W0 ++ held_back st /\ 0 <= bufferPos (snd_ st) <= zlen (prepared (snd_ st)).
Proof.
  unfold SI, SI_mid. split.
  - intros (A & B & C & D & E & F & G). eexists. split; [refine (conj A (conj B (conj eq_refl (conj E (conj F G)))))|]. split; [now symmetry|assumption].
  - intros (W0 & (A & B & C & E & F & G) & H & D). subst. refine (conj A (conj B (conj eq_refl (conj D (conj E (conj F G)))))).
Qed.

Lemma setPrepared_mid q0 W0 st p pos : SI_mid q0 W0 st -> SI_mid q0 W0 (setPrepared st p pos).
Proof. exact (fun H => H). Qed.

Lemma writeLoop_ok q0 fuel : forall st d grow st' W0, SI_mid q0 W0 st -> 0 <= bufferPos (snd_ st) <= zlen (prepared (snd_ st)) -> prepared (snd_ st) = [] \/ W0 = W0 -> writeLoop fuel st d grow = Some st' ->
  (SI q0 (W0 ++ held_back st ++ d) st') /\ rsame st st' /\ step st' = step st.
Proof.
  induction fuel as [|fuel IH]; intros st d grow st' W0 H P _ E.
  - destruct d as [|x d]; cbn [writeLoop] in E.
    + injection E as <-. split; [|split; [apply rsame_refl|reflexivity]]. apply SI_split. exists W0. rewrite app_nil_r. auto.
    + destruct (_ || _); [|discriminate]. injection E as <-. split; [|split; [destruct grow; apply (rsame_refl st)|destruct grow; reflexivity]].
      apply SI_split. exists W0. unfold prepare. destruct grow; (split; [exact H|]); unfold held_back; cbn [setPrepared snd_ prepared bufferPos]; rewrite ?zlen_app.
      * split; [reflexivity|]. pose proof (zlen_nonneg (skipn (Z.to_nat (bufferPos (snd_ st))) (prepared (snd_ st)))). pose proof (zlen_nonneg (x :: d)). lia.
      * split; [|pose proof (zlen_nonneg (x :: d)); lia]. rewrite skipn_app. replace (Z.to_nat (bufferPos (snd_ st)) - length (prepared (snd_ st)))%nat with 0%nat by (unfold zlen in P; lia). reflexivity.
  - destruct d as [|x d]; cbn [writeLoop] in E.
    + injection E as <-. split; [|split; [apply rsame_refl|reflexivity]]. apply SI_split. exists W0. rewrite app_nil_r. auto.
    + destruct ((1048576 <? sentDataWithoutAckSize (snd_ st)) || negb match prepared (snd_ st) with [] => true | _ => false end) eqn:B.
      * injection E as <-. split; [|split; [destruct grow; apply (rsame_refl st)|destruct grow; reflexivity]].
        apply SI_split. exists W0. unfold prepare. destruct grow; (split; [exact H|]); unfold held_back; cbn [setPrepared snd_ prepared bufferPos]; rewrite ?zlen_app.
        -- split; [reflexivity|]. pose proof (zlen_nonneg (skipn (Z.to_nat (bufferPos (snd_ st))) (prepared (snd_ st)))). pose proof (zlen_nonneg (x :: d)). lia.
        -- split; [|pose proof (zlen_nonneg (x :: d)); lia]. rewrite skipn_app. replace (Z.to_nat (bufferPos (snd_ st)) - length (prepared (snd_ st)))%nat with 0%nat by (unfold zlen in P; lia). reflexivity.
      * assert (Pn : prepared (snd_ st) = []) by (destruct (prepared (snd_ st)); [reflexivity|rewrite orb_true_r in B; discriminate]).
        destruct (sendData st (x :: d)) as [[st1 rest]|] eqn:S; [|discriminate]. destruct (sendData_ok q0 W0 st _ st1 rest H S) as (c & C1 & C2 & (F1 & F2 & F3 & F4)).
        destruct (IH st1 rest grow st' (W0 ++ c) C2) as (I1 & I2 & I3); [rewrite F2, F3; exact P|now right|exact E|].
        split; [|split; [now apply (rsame_trans _ st1)|congruence]].
        unfold held_back in *. rewrite F2, F3, Pn in I1. rewrite Pn, C1. rewrite skipn_nil in *. cbn [app] in *. rewrite <- app_assoc in I1. exact I1.
Qed.

Lemma write_ok q0 W st d grow st' : SI q0 W st -> step st <> CLOSED -> write st d grow = Some st' -> SI q0 (W ++ d) st' /\ rsame st st' /\ step st' = step st.
Proof.
  intros H N E. apply SI_split in H. destruct H as (W0 & H & -> & P). unfold write in E. rewrite <- app_assoc.
  destruct (step st) eqn:T; try congruence; rewrite <- T; apply (writeLoop_ok q0 (length d) st d grow st' W0); auto.
Qed.

Lemma flushPrepared_ok q0 fuel : forall st d mx st' rest W0, SI_mid q0 W0 st -> flushPrepared fuel st d mx = Some (st', rest) ->
  exists c, d = c ++ rest /\ SI_mid q0 (W0 ++ c) st' /\ sframe st st'.
Proof.
  induction fuel as [|fuel IH]; intros st d mx st' rest W0 H E; (destruct d as [|x d]; cbn [flushPrepared] in E; [injection E as <- <-; exists []; rewrite (app_nil_r W0); split; [reflexivity|split; [assumption|apply sframe_refl]]|]).
  - destruct (_ <? _); [discriminate|]. injection E as <- <-. exists []. rewrite (app_nil_r W0). split; [reflexivity|split; [assumption|apply sframe_refl]].
  - destruct (_ <? _); [|injection E as <- <-; exists []; rewrite (app_nil_r W0); split; [reflexivity|split; [assumption|apply sframe_refl]]].
    destruct (sendData st (x :: d)) as [[st1 r1]|] eqn:S; [|discriminate]. destruct (sendData_ok q0 W0 st _ st1 r1 H S) as (c & C1 & C2 & C3). destruct (IH st1 r1 mx st' rest (W0 ++ c) C2 E) as (c2 & D1 & D2 & D3).
    exists (c ++ c2). split; [rewrite C1, D1; now rewrite app_assoc|]. split; [now rewrite app_assoc|now apply (sframe_trans _ st1)].
Qed.

Lemma flushSend_ok q0 W st st' : SI q0 W st -> flushSendData st = Some st' -> SI q0 W st' /\ rsame st st' /\ step st' = step st.
Proof.
  intros H E. unfold flushSendData in E.
  set (st1 := if 2 <? duplicateAckCounter (snd_ st) then resendPackets st (u16 (last_ack (snd_ st) + 1)) else let c := u16 (resendCount (sentData (snd_ st))) in if c =? 0 then st else resendPackets st (u16 (last_ack (snd_ st) + Z.min c 100))) in *.
  assert (A : SI q0 W st1 /\ rsame st st1 /\ step st1 = step st /\ prepared (snd_ st1) = prepared (snd_ st) /\ bufferPos (snd_ st1) = bufferPos (snd_ st)).
  { subst st1. destruct (2 <? _); [now apply resend_ok|]. cbv zeta. destruct (_ =? 0); [refine (conj H (conj (rsame_refl st) (conj eq_refl (conj eq_refl eq_refl))))|now apply resend_ok]. }
  clearbody st1. destruct A as (A1 & A2 & A3 & A4 & A5). apply SI_split in A1. destruct A1 as (W0 & M & -> & P). unfold held_back in *. rewrite A4, A5 in *. set (pending := skipn (Z.to_nat (bufferPos (snd_ st))) (prepared (snd_ st))) in *.
  destruct (flushPrepared (length pending) st1 pending _) as [[st2 rest]|] eqn:F; [|discriminate]. destruct (flushPrepared_ok q0 _ _ _ _ _ _ W0 M F) as (c & C1 & C2 & (F1 & F2 & F3 & F4)).
  assert (R : rsame st st2) by now apply (rsame_trans _ st1). assert (T : step st2 = step st) by congruence.
  assert (C1' : W0 ++ pending = (W0 ++ c) ++ rest) by (rewrite C1; apply app_assoc). rewrite C1'.
  destruct (Nat.eqb_spec (length rest) (length pending)) as [Q|Q].
  - injection E as <-. split; [|auto]. assert (c = []). { assert (Lc : (length pending = length c + length rest)%nat) by (rewrite C1 at 1; apply app_length). destruct c; [reflexivity|exfalso; cbn in Lc; lia]. } subst c. cbn [app] in C1. apply SI_split. exists (W0 ++ []). split; [assumption|]. unfold held_back. rewrite F2, F3, A4, A5. fold pending. split; [now rewrite C1|exact P].
  - destruct rest as [|y rest].
    + injection E as <-. split; [|split; [exact R|exact T]]. apply SI_split. exists (W0 ++ c). split; [exact C2|]. split; [reflexivity|cbn; unfold zlen; cbn; lia].
    + assert (Lp : (length pending = length (prepared (snd_ st)) - Z.to_nat (bufferPos (snd_ st)))%nat) by (unfold pending; now rewrite skipn_length).
      assert (Lc : (length pending = length c + length (y :: rest))%nat) by (rewrite C1 at 1; apply app_length).
      destruct (100000 <? _); injection E as <-; (split; [|split; [exact R|exact T]]); apply SI_split; exists (W0 ++ c); (split; [exact C2|]); unfold held_back; cbn [setPrepared snd_ prepared bufferPos].
      * split; [reflexivity|]. pose proof (zlen_nonneg (y :: rest)). lia.
      * split; [|unfold zlen in *; lia]. f_equal. replace (Z.to_nat (zlen (prepared (snd_ st)) - zlen (y :: rest))) with (length c + Z.to_nat (bufferPos (snd_ st)))%nat by (unfold zlen in *; lia).
        rewrite skipn_plus. fold pending. rewrite C1. now rewrite skipn_app_exact.
Qed.

Lemma withSending_ok q0 W st bs s l d la : SI q0 W st -> list_ok (ridx st) bs l (firsts (outs st)) -> u64 (sentDataWithoutAckSize s - size_of bs l) = u64 (sentDataWithoutAckSize (snd_ st) - size_of (bufs st) (sentData (snd_ st))) -> frame (snd_ st) s -> same_on (ridx st) (bufs st) bs ->
  SI q0 W (withSending st bs (setSent s l d la)) /\ rsame st (withSending st bs (setSent s l d la)) /\ step (withSending st bs (setSent s l d la)) = step st.
Proof.
  intros (A & B & C & D & E & F & G) L U (F1 & F2 & F3 & F4 & F5 & F6 & F7) S. split; [|split; [split; [reflexivity|exact S]|reflexivity]].
  unfold SI, held_back, withSending, setSent in *. cbn [snd_ outs bufs rcv sentData sentDataWithoutAckSize prepared bufferPos sequence ridx] in *. rewrite F1, F2, F3, U. exact (conj L (conj B (conj C (conj D (conj E (conj F G)))))).
Qed.

Lemma ackDataBuffer_ok q0 W st m bs s : SI q0 W st -> ackSentDataBuffer (bufs st) (snd_ st) m = (bs, s) ->
  SI q0 W (withSending st bs s) /\ rsame st (withSending st bs s).
Proof.
  intros H E. unfold ackSentDataBuffer in E. pose proof (ackLoop_ok (ridx st) (firsts (outs st)) (sentData (snd_ st)) (bufs st) (snd_ st) (ack_nr m) (proj1 H)) as A.
  destruct (ackLoop (bufs st) (snd_ st) (ack_nr m) (sentData (snd_ st))) as [[bs1 s1] l1]. destruct A as (A1 & A2 & A3 & A4 & _).
  assert (G : forall d la, SI q0 W (withSending st bs1 (setSent s1 l1 d la)) /\ rsame st (withSending st bs1 (setSent s1 l1 d la))) by (intros d la; destruct (withSending_ok q0 W st bs1 s1 l1 d la H A1 A4 A3 A2) as (X & Y & _); auto).
  destruct (_ <? _)%nat; [injection E as <- <-; apply G|]. destruct (_ && _); injection E as <- <-; apply G.
Qed.

Lemma ackSelective_ok q0 W st m mask : SI q0 W st -> SI q0 W (ackSelective st m mask) /\ rsame st (ackSelective st m mask) /\ step (ackSelective st m mask) = step st.
Proof.
  intros H. unfold ackSelective. set (acks := ackedNumbers (ack_nr m) mask).
  pose proof (ackEach_ok (ridx st) (firsts (outs st)) acks (sentData (snd_ st)) (bufs st) (snd_ st) (proj1 H)) as A. destruct (ackEach (bufs st) (snd_ st) (sentData (snd_ st)) acks) as [[bs s] l]. destruct A as (A1 & A2 & A3 & A4 & _).
  destruct (withSending_ok q0 W st bs s l (duplicateAckCounter s) (last_ack s) H A1 A4 A3 A2) as (B1 & B2 & B3).
  destruct (2 <? length acks)%nat; [|auto]. destruct (resend_ok q0 W _ (u16 (nth (length acks - 3) acks 0 - 1)) B1) as (C1 & C2 & C3 & _). split; [assumption|]. split; [now apply (rsame_trans _ _ _ B2)|]. now rewrite C3, B3.
Qed.

Lemma exts_ok q0 W m es : forall st, SI q0 W st -> let st' := fold_left (fun st '(t, c) => if t =? 1 then ackSelective st m c else st) es st in SI q0 W st' /\ rsame st st' /\ step st' = step st.
Proof.
  induction es as [|[t c] es IH]; intros st H; cbn [fold_left]; [refine (conj H (conj (rsame_refl st) eq_refl))|]. destruct (t =? 1).
  - destruct (ackSelective_ok q0 W st m c H) as (A & B & C). destruct (IH _ A) as (D & E & F). split; [assumption|]. split; [now apply (rsame_trans _ _ _ B)|]. now rewrite F.
  - now apply IH.
Qed.

Lemma setWnd_ok q0 W st w sp a la : SI q0 W st -> SI q0 W (setWnd st w sp a la).
Proof. exact (fun H => H). Qed.

(** The receive side after [updateState]: only the acknowledged number of a connecting stream. *)
Lemma updateState_ok q0 W st m st' b : SI q0 W st -> updateState st m = Some (st', b) ->
  SI q0 W st' /\ received (rcv st') = received (rcv st) /\ receiveBuffer (rcv st') = receiveBuffer (rcv st) /\ consumed (rcv st') = consumed (rcv st) /\ appended (rcv st') = appended (rcv st) /\
  same_on (ridx st) (bufs st) (bufs st') /\
  (b = false -> st' = st /\ mtype m = 0 /\ idLowerThan (seq_nr m) (ack (rcv st)) = true) /\
  (step st <> SYN_SEND -> ack (rcv st') = ack (rcv st)) /\ (step st = SYN_SEND -> b = true -> ack (rcv st') = u16 (seq_nr m - 1)) /\
  (b = true -> step st' = match step st with SYN_SEND | SYN_RECV => CONNECTED | sp => sp end) /\
  (b = true -> mtype m = 0 -> idLowerThan (seq_nr m) (ack (rcv st)) = false).
Proof.
  intros H E. unfold updateState in E. destruct ((mtype m =? 0) && idLowerThan (seq_nr m) (ack (rcv st))) eqn:O.
  - injection E as <- <-. apply andb_true_iff in O. destruct O as [O1 O2]. apply Z.eqb_eq in O1. refine (conj H (conj eq_refl (conj eq_refl (conj eq_refl (conj eq_refl (conj _ (conj _ (conj _ (conj _ (conj _ _)))))))))).
    + intros j Hj. reflexivity.
    + auto.
    + reflexivity.
    + discriminate.
    + discriminate.
    + discriminate.
  - destruct (ackSentDataBuffer (bufs st) (snd_ st) m) as [bs s] eqn:A. destruct (ackDataBuffer_ok q0 W st m bs s H A) as (A1 & A2 & A3). set (st1 := withSending st bs s) in *.
    set (st2 := match step st with SYN_SEND => setWnd st1 (wnd m) CONNECTED (u16 (seq_nr m - 1)) (ack_nr m) | SYN_RECV => setWnd st1 (wnd m) CONNECTED (ack (rcv st1)) (ack_nr m) | sp => setWnd st1 (wnd m) sp (ack (rcv st1)) (last_ack s) end) in *.
    assert (B : SI q0 W st2) by (subst st2; destruct (step st); exact A1).
    destruct (exts_ok q0 W m (exts m) st2 B) as (C1 & (C2 & C2') & C3). set (st3 := fold_left _ (exts m) st2) in *. destruct (flushSendData st3) as [st4|] eqn:Fl; [|discriminate]. injection E as <- <-.
    destruct (flushSend_ok q0 W st3 st4 C1 Fl) as (D1 & (D2 & D2') & D3).
    assert (Rr : rcv st4 = rcv st2) by congruence.
    assert (Ri : ridx st2 = ridx st /\ ridx st3 = ridx st) by (unfold ridx; rewrite C2; subst st2 st1; destruct (step st); split; reflexivity).
    refine (conj D1 (conj _ (conj _ (conj _ (conj _ (conj _ (conj _ (conj _ (conj _ (conj _ _)))))))))).
    + rewrite Rr. subst st2 st1. destruct (step st); reflexivity.
    + rewrite Rr. subst st2 st1. destruct (step st); reflexivity.
    + rewrite Rr. subst st2 st1. destruct (step st); reflexivity.
    + rewrite Rr. subst st2 st1. destruct (step st); reflexivity.
    + destruct Ri as [R2 R3]. rewrite R2 in C2'. rewrite R3 in D2'. apply (same_trans _ _ (bufs st1)); [exact A3|]. apply (same_trans _ _ (bufs st3)); [|exact D2']. intros j Hj. rewrite C2' by assumption. subst st2. destruct (step st); reflexivity.
    + discriminate.
    + intros N. rewrite Rr. subst st2 st1. destruct (step st); try reflexivity. contradiction.
    + intros N _. rewrite Rr. subst st2 st1. rewrite N. reflexivity.
    + intros _. rewrite D3, C3. subst st2 st1. destruct (step st); reflexivity.
    + intros _ Tm. rewrite Tm in O. exact O.
Qed.
