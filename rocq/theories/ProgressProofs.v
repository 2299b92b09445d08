From Verif Require Import Base BaseLemmas ProgressModel ProgressSpec.

Lemma count_nil f : count f [] = 0. Proof. reflexivity. Qed.
Lemma count_cons f x l : count f (x :: l) = Z.b2z (f x) + count f l.
Proof. unfold count. cbn [filter]. destruct (f x); rewrite ?zlen_cons; cbn [Z.b2z]; lia. Qed.
Lemma count_app f a b : count f (a ++ b) = count f a + count f b.
Proof. unfold count. now rewrite filter_app, zlen_app. Qed.
Lemma count_range f l : 0 <= count f l <= zlen l.
Proof. induction l as [|x l IH]; [cbv; split; discriminate|]. rewrite count_cons, zlen_cons. destruct (f x); cbn [Z.b2z]; lia. Qed.
Lemma count_upd f i x l : (i < length l)%nat -> count f (upd i x l) = count f l - Z.b2z (f (nth i l 0)) + Z.b2z (f x).
Proof.
  revert i. induction l as [|y l IH]; intros i H; [simpl in H; lia|].
  destruct i as [|i]; cbn [upd nth]; rewrite !count_cons; [lia|]. rewrite IH by (simpl in H; lia). lia.
Qed.
Lemma count_full f l i : count f l = zlen l -> (i < length l)%nat -> f (nth i l 0) = true.
Proof.
  revert i. induction l as [|y l IH]; intros i H Hi; [simpl in Hi; lia|].
  rewrite count_cons, zlen_cons in H. pose proof (count_range f l). destruct i as [|i]; cbn [nth].
  - destruct (f y); [reflexivity|cbn in H; lia].
  - apply IH; [destruct (f y); cbn [Z.b2z] in H; lia|simpl in Hi; lia].
Qed.
Lemma count_full_conv f l : (forall i, (i < length l)%nat -> f (nth i l 0) = true) -> count f l = zlen l.
Proof.
  induction l as [|y l IH]; intros H; [reflexivity|]. rewrite count_cons, zlen_cons.
  specialize (H 0%nat) as H0. cbn [nth] in H0. rewrite H0 by (simpl; lia). rewrite IH; [cbn; lia|].
  intros i Hi. apply (H (S i)). simpl. lia.
Qed.
Lemma count_same_nth f g l : count f l = count (fun x => f x && g x) l <-> forall i, (i < length l)%nat -> f (nth i l 0) = true -> g (nth i l 0) = true.
Proof.
  induction l as [|y l IH]; [split; [intros _ i H; simpl in H; lia|reflexivity]|].
  rewrite !count_cons.
  assert (L : count (fun x => f x && g x) l <= count f l).
  { clear. induction l as [|y l IH]; [rewrite !count_nil; lia|]. rewrite !count_cons. destruct (f y), (g y); cbn [andb Z.b2z]; lia. }
  split.
  - intros H i Hi. destruct i as [|i]; cbn [nth].
    + intros F. rewrite F in H. destruct (g y); [reflexivity|cbn [andb Z.b2z] in H; lia].
    + apply IH; [destruct (f y), (g y); cbn [andb Z.b2z] in H; lia|simpl in Hi; lia].
  - intros H. rewrite (proj2 IH).
    + specialize (H 0%nat). cbn [nth] in H. destruct (f y); [rewrite H by (simpl; lia || reflexivity); reflexivity|reflexivity].
    + intros i Hi. apply (H (S i)). simpl. lia.
Qed.

Lemma flag_has x : flag_ok x -> hasBit x HasFlag = received x.
Proof. intros [->|[->|[->| ->]]]; reflexivity. Qed.
Lemma flag_sel x : flag_ok x -> negb (hasBit x UnselectedFlag) = chosen x.
Proof. intros [->|[->|[->| ->]]]; reflexivity. Qed.
Lemma flag_wanted x : flag_ok x -> (x =? 0) = negb (received x) && chosen x.
Proof. intros [->|[->|[->| ->]]]; reflexivity. Qed.
Lemma flag_set x : flag_ok x -> flag_ok (Z.lor x HasFlag) /\ received (Z.lor x HasFlag) = true /\ chosen (Z.lor x HasFlag) = chosen x.
Proof. intros [->|[->|[->| ->]]]; cbv; intuition. Qed.
Lemma flag_clear x : flag_ok x -> flag_ok (Z.land x (Z.lxor 255 HasFlag)) /\ received (Z.land x (Z.lxor 255 HasFlag)) = false /\ chosen (Z.land x (Z.lxor 255 HasFlag)) = chosen x.
Proof. intros [->|[->|[->| ->]]]; cbv; intuition. Qed.
Lemma flag_choose x : flag_ok x -> flag_ok (Z.land x (Z.lxor 255 UnselectedFlag)) /\ chosen (Z.land x (Z.lxor 255 UnselectedFlag)) = true /\ received (Z.land x (Z.lxor 255 UnselectedFlag)) = received x.
Proof. intros [->|[->|[->| ->]]]; cbv; intuition. Qed.
Lemma flag_drop x : flag_ok x -> flag_ok (Z.lor x UnselectedFlag) /\ chosen (Z.lor x UnselectedFlag) = false /\ received (Z.lor x UnselectedFlag) = received x.
Proof. intros [->|[->|[->| ->]]]; cbv; intuition. Qed.

Lemma nth_flag l i : Forall flag_ok l -> flag_ok (nth i l 0).
Proof.
  intros H. destruct (Nat.lt_ge_cases i (length l)) as [L|L].
  - rewrite Forall_forall in H. apply H, nth_In, L.
  - rewrite nth_overflow by assumption. left. reflexivity.
Qed.

Lemma piece_in p i : 0 <= i < zlen (pieces p) -> piece p i = Ok (nth (Z.to_nat i) (pieces p) 0).
Proof. intros H. unfold piece. destruct (Z.leb_spec 0 i); [|lia]. destruct (Z.ltb_spec i (zlen (pieces p))); [reflexivity|lia]. Qed.

Lemma u64_id x : 0 <= x < 18446744073709551616 -> u64 x = x.
Proof. intros. unfold u64. now apply Z.mod_small. Qed.

(** The counters: [calculatePieces] makes them exact. *)
Lemma countPiece_fold l : forall r s rs, Forall flag_ok l -> 0 <= r -> 0 <= s -> 0 <= rs ->
  r + zlen l < 18446744073709551616 -> s + zlen l < 18446744073709551616 -> rs + zlen l < 18446744073709551616 ->
  fold_left countPiece l (r, s, rs) =
    (r + count received l, s + count chosen l, rs + count (fun x => received x && chosen x) l).
Proof.
  induction l as [|x l IH]; intros r s rs F Hr Hs Hrs Br Bs Brs; cbn [fold_left].
  - rewrite !count_nil, !Z.add_0_r. reflexivity.
  - inversion F; subst. rewrite zlen_cons in *. pose proof (zlen_nonneg l). unfold countPiece at 2.
    rewrite flag_has, flag_sel by assumption. rewrite !count_cons.
    destruct (received x), (chosen x); cbn [andb Z.b2z]; rewrite ?u64_id by lia; rewrite IH by (assumption || lia); teq; lia.
Qed.

Lemma calculate_exact p : flags_ok p -> exact (calculatePieces p) /\ pieces (calculatePieces p) = pieces p.
Proof.
  intros [F L]. unfold calculatePieces. rewrite countPiece_fold by (assumption || lia).
  unfold exact. cbn. repeat split; reflexivity.
Qed.

Lemma Forall_repeat {A} (P : A -> Prop) x n : P x -> Forall P (repeat x n).
Proof. intros H. induction n; constructor; auto. Qed.

Lemma resize_ok p n : flags_ok p -> exact p -> 0 <= n < 4294967296 -> exact (resize n p) /\ flags_ok (resize n p) /\
  zlen (pieces (resize n p)) = n /\
  forall i, (i < Z.to_nat n)%nat -> nth i (pieces (resize n p)) 0 = nth i (pieces p) 0.
Proof.
  intros F E Hn. unfold resize. destruct (Z.eqb_spec (zlen (pieces p)) n) as [Q|Q]; [auto|].
  set (q := Build_progress _ _ _ _).
  assert (ZL : zlen (pieces q) = n).
  { unfold q. cbn [pieces]. rewrite zlen_app. unfold zlen. rewrite firstn_length, repeat_length. lia. }
  assert (Fq : flags_ok q).
  { split; [|lia]. unfold q. cbn [pieces]. destruct F as [F _]. apply Forall_app. split.
    - rewrite <- (firstn_skipn (Z.to_nat n)) in F. now apply Forall_app in F.
    - apply Forall_repeat. left. reflexivity. }
  destruct (calculate_exact q Fq) as [H1 H2]. split; [assumption|]. unfold flags_ok. rewrite H2. split; [exact Fq|]. split; [exact ZL|].
  intros i Hi. unfold q. cbn [pieces].
  destruct (Nat.lt_ge_cases i (length (pieces p))) as [L|L].
  - rewrite app_nth1 by (rewrite firstn_length; lia).
    rewrite <- (firstn_skipn (Z.to_nat n) (pieces p)) at 2. rewrite app_nth1; [reflexivity|]. rewrite firstn_length. lia.
  - rewrite (nth_overflow (pieces p)) by assumption. rewrite app_nth2 by (rewrite firstn_length; lia).
    apply nth_repeat.
Qed.

Lemma has_ok p i : flags_ok p -> receivedPiecesCount p = count received (pieces p) -> 0 <= i < zlen (pieces p) ->
  hasPiece p i = Ok (received (nth (Z.to_nat i) (pieces p) 0)).
Proof.
  intros [F _] E Hi. unfold hasPiece, finished. rewrite E.
  destruct (Z.eqb_spec (zlen (pieces p)) 0); [lia|]. cbn [negb andb].
  destruct (Z.eqb_spec (count received (pieces p)) (zlen (pieces p))) as [Q|Q].
  - rewrite (count_full _ _ (Z.to_nat i) Q) by (unfold zlen in *; lia). reflexivity.
  - rewrite piece_in by assumption. cbn [bind]. now rewrite flag_has by (apply nth_flag; assumption).
Qed.

(** [received] and [chosen] are all an operation may change. *)
Definition same_but (p q : progress) (i : Z) : Prop :=
  forall j, 0 <= j -> j <> i -> nth (Z.to_nat j) (pieces q) 0 = nth (Z.to_nat j) (pieces p) 0.

Lemma exact_upd p q i x : flags_ok p -> exact p -> 0 <= i < zlen (pieces p) -> flag_ok x ->
  pieces q = upd (Z.to_nat i) x (pieces p) ->
  receivedPiecesCount q = receivedPiecesCount p - Z.b2z (received (nth (Z.to_nat i) (pieces p) 0)) + Z.b2z (received x) ->
  selectedPieces q = selectedPieces p - Z.b2z (chosen (nth (Z.to_nat i) (pieces p) 0)) + Z.b2z (chosen x) ->
  selectedReceivedPiecesCount q = selectedReceivedPiecesCount p
     - Z.b2z (received (nth (Z.to_nat i) (pieces p) 0) && chosen (nth (Z.to_nat i) (pieces p) 0)) + Z.b2z (received x && chosen x) ->
  flags_ok q /\ exact q /\ zlen (pieces q) = zlen (pieces p) /\ same_but p q i /\ nth (Z.to_nat i) (pieces q) 0 = x.
Proof.
  intros [F L] (E1 & E2 & E3) Hi Hx P R S RS. unfold zlen in Hi.
  assert (ZL : zlen (pieces q) = zlen (pieces p)) by (rewrite P; unfold zlen; now rewrite upd_length).
  split; [|split; [|split; [|split]]].
  - split; [rewrite P; now apply Forall_upd|lia].
  - unfold exact. rewrite P, !count_upd by lia. split; [lia|]. split; [lia|]. cbv beta. lia.
  - exact ZL.
  - intros j Hj Hne. rewrite P. apply nth_upd_other. lia.
  - rewrite P. apply nth_upd_same. lia.
Qed.

Lemma exact_range p : exact p -> 0 <= receivedPiecesCount p <= zlen (pieces p) /\ 0 <= selectedPieces p <= zlen (pieces p) /\
  0 <= selectedReceivedPiecesCount p <= zlen (pieces p).
Proof. intros (-> & -> & ->). repeat split; apply count_range. Qed.

Lemma count_pos f l i : (i < length l)%nat -> f (nth i l 0) = true -> 1 <= count f l.
Proof.
  revert i. induction l as [|y l IH]; intros i Hi H; [simpl in Hi; lia|]. rewrite count_cons. pose proof (count_range f l).
  destruct i as [|i]; cbn [nth] in H; [rewrite H; cbn; lia|]. specialize (IH i). simpl in Hi. destruct (f y); cbn [Z.b2z]; [lia|].
  rewrite Z.add_0_l. apply IH; [lia|assumption].
Qed.

Ltac prog := cbn [pieces selectedPieces receivedPiecesCount selectedReceivedPiecesCount setPiece addSelected addReceived addSelectedReceived andb negb Z.b2z].

Lemma removePiece_ok p i : flags_ok p -> exact p -> 0 <= i < zlen (pieces p) ->
  exists q, removePiece i p = Ok q /\ flags_ok q /\ exact q /\ zlen (pieces q) = zlen (pieces p) /\ same_but p q i /\
    received (nth (Z.to_nat i) (pieces q) 0) = false /\ chosen (nth (Z.to_nat i) (pieces q) 0) = chosen (nth (Z.to_nat i) (pieces p) 0).
Proof.
  intros F E Hi. unfold removePiece. rewrite has_ok by (assumption || apply E). cbn [bind].
  pose proof (nth_flag (pieces p) (Z.to_nat i) (proj1 F)) as Fi. set (x := nth (Z.to_nat i) (pieces p) 0) in *.
  destruct (received x) eqn:Rx.
  2:{ exists p. split; [reflexivity|]. split; [assumption|]. split; [assumption|]. split; [reflexivity|]. split; [intros j _ _; reflexivity|]. split; [exact Rx|reflexivity]. }
  unfold selectedPiece. rewrite piece_in by assumption. cbn [bind]. fold x. rewrite flag_sel by assumption.
  destruct (flag_clear x Fi) as (F1 & F2 & F3).
  assert (B : 1 <= receivedPiecesCount p /\ (chosen x = true -> 1 <= selectedReceivedPiecesCount p)).
  { destruct E as (E1 & _ & E3). rewrite E1, E3. unfold zlen in Hi. split.
    - apply (count_pos _ _ (Z.to_nat i)); [lia|exact Rx].
    - intros C. apply (count_pos _ _ (Z.to_nat i)); [lia|]. fold x. rewrite Rx, C. reflexivity. }
  destruct (exact_range p E) as (B1 & B2 & B3). pose proof (proj2 F) as B4.
  eexists. split; [reflexivity|].
  destruct (exact_upd p (addReceived (-1) (setPiece (if chosen x then addSelectedReceived (-1) p else p) i (Z.land x (Z.lxor 255 HasFlag)))) i (Z.land x (Z.lxor 255 HasFlag))) as (G1 & G2 & G3 & G4 & G5); try assumption.
  - destruct (chosen x); reflexivity.
  - fold x. rewrite F2, Rx. destruct (chosen x); prog; rewrite u64_id; lia.
  - fold x. rewrite F3. destruct (chosen x); prog; lia.
  - fold x. rewrite F2, F3, Rx. destruct (chosen x) eqn:C; prog; rewrite ?u64_id; lia.
  - rewrite G5. rewrite F2, F3. auto 10.
Qed.

Lemma addPiece_in p i : flags_ok p -> exact p -> 0 <= i < zlen (pieces p) ->
  exists q, addPiece i p = Ok q /\ flags_ok q /\ exact q /\ zlen (pieces q) = zlen (pieces p) /\ same_but p q i /\
    received (nth (Z.to_nat i) (pieces q) 0) = true /\ chosen (nth (Z.to_nat i) (pieces q) 0) = chosen (nth (Z.to_nat i) (pieces p) 0).
Proof.
  intros F E Hi. unfold addPiece. destruct (Z.leb_spec (zlen (pieces p)) i); [lia|].
  rewrite has_ok by (assumption || apply E). cbn [bind].
  pose proof (nth_flag (pieces p) (Z.to_nat i) (proj1 F)) as Fi. set (x := nth (Z.to_nat i) (pieces p) 0) in *.
  destruct (received x) eqn:Rx.
  { exists p. split; [reflexivity|]. split; [assumption|]. split; [assumption|]. split; [reflexivity|]. split; [intros j _ _; reflexivity|]. split; [exact Rx|reflexivity]. }
  unfold wantedPiece. rewrite piece_in by assumption. cbn [bind]. fold x. rewrite flag_wanted, Rx by assumption. cbn [negb andb].
  destruct (flag_set x Fi) as (F1 & F2 & F3).
  destruct (exact_range p E) as (B1 & B2 & B3). pose proof (proj2 F) as B4.
  eexists. split; [reflexivity|].
  destruct (exact_upd p (addReceived 1 (setPiece (if chosen x then addSelectedReceived 1 p else p) i (Z.lor x HasFlag))) i (Z.lor x HasFlag)) as (G1 & G2 & G3 & G4 & G5); try assumption.
  - destruct (chosen x); reflexivity.
  - fold x. rewrite F2, Rx. destruct (chosen x); prog; rewrite u64_id; lia.
  - fold x. rewrite F3. destruct (chosen x); prog; lia.
  - fold x. rewrite F2, F3, Rx. destruct (chosen x) eqn:C; prog; rewrite ?u64_id; lia.
  - rewrite G5. rewrite F2, F3. auto 10.
Qed.

Lemma addPiece_ok p i : flags_ok p -> exact p -> 0 <= i < 4294967295 ->
  exists q, addPiece i p = Ok q /\ flags_ok q /\ exact q /\ zlen (pieces q) = Z.max (zlen (pieces p)) (i + 1) /\ same_but p q i /\
    received (nth (Z.to_nat i) (pieces q) 0) = true /\ chosen (nth (Z.to_nat i) (pieces q) 0) = chosen (nth (Z.to_nat i) (pieces p) 0).
Proof.
  intros F E Hi. destruct (Z.ltb_spec i (zlen (pieces p))) as [L|L].
  { destruct (addPiece_in p i F E) as (q & H1 & H2 & H3 & H4 & H5); [lia|]. exists q. rewrite H4. rewrite Z.max_l by lia. auto. }
  assert (W : u32 (i + 1) = i + 1) by (unfold u32; apply Z.mod_small; lia).
  destruct (resize_ok p (i + 1) F E) as (R1 & R2 & R3 & R4); [lia|].
  assert (Q : addPiece i p = addPiece i (resize (i + 1) p)).
  { unfold addPiece. rewrite R3. destruct (Z.leb_spec (zlen (pieces p)) i); [|lia]. destruct (Z.leb_spec (i + 1) i); [lia|]. now rewrite W. }
  rewrite Q. destruct (addPiece_in _ i R2 R1) as (q & H1 & H2 & H3 & H4 & H5 & H6 & H7); [lia|].
  exists q. rewrite H4, R3. rewrite Z.max_r by lia. split; [assumption|]. split; [assumption|]. split; [assumption|]. split; [reflexivity|]. split; [|split].
  - intros j Hj Hne. rewrite H5 by assumption. destruct (Z.ltb_spec j (i + 1)) as [J|J]; [apply R4; lia|].
    rewrite !nth_overflow; [reflexivity| |]; unfold zlen in *; lia.
  - assumption.
  - rewrite H7. now rewrite R4 by lia.
Qed.

Lemma selectOne_ok p i s : flags_ok p -> exact p -> 0 <= i < zlen (pieces p) ->
  exists q, selectOne i s p = Ok q /\ flags_ok q /\ exact q /\ zlen (pieces q) = zlen (pieces p) /\ same_but p q i /\
    chosen (nth (Z.to_nat i) (pieces q) 0) = s /\ received (nth (Z.to_nat i) (pieces q) 0) = received (nth (Z.to_nat i) (pieces p) 0).
Proof.
  intros F E Hi. unfold selectOne, selectedPiece. rewrite piece_in by assumption. cbn [bind].
  pose proof (nth_flag (pieces p) (Z.to_nat i) (proj1 F)) as Fi. set (x := nth (Z.to_nat i) (pieces p) 0) in *.
  rewrite flag_sel by assumption. destruct (Bool.eqb (chosen x) s) eqn:Q.
  { apply Bool.eqb_prop in Q. exists p. split; [reflexivity|]. split; [assumption|]. split; [assumption|]. split; [reflexivity|].
    split; [intros j _ _; reflexivity|]. split; [exact Q|reflexivity]. }
  apply Bool.eqb_false_iff in Q. rewrite flag_has by assumption.
  destruct (exact_range p E) as (B1 & B2 & B3). pose proof (proj2 F) as B4.
  destruct (flag_choose x Fi) as (F1 & F2 & F3). destruct (flag_drop x Fi) as (D1 & D2 & D3).
  destruct s.
  - destruct (chosen x) eqn:C; [congruence|]. eexists. split; [reflexivity|].
    destruct (exact_upd p (setPiece (addSelected 1 (if received x then addSelectedReceived 1 p else p)) i (Z.land x (Z.lxor 255 UnselectedFlag))) i (Z.land x (Z.lxor 255 UnselectedFlag))) as (G1 & G2 & G3 & G4 & G5); try assumption.
    + destruct (received x); reflexivity.
    + fold x. rewrite F3. destruct (received x); prog; lia.
    + fold x. rewrite F2, C. destruct (received x); prog; rewrite u64_id; lia.
    + fold x. rewrite F2, F3, C. destruct (received x); prog; rewrite ?u64_id; lia.
    + rewrite G5, F2, F3. auto 10.
  - destruct (chosen x) eqn:C; [|congruence]. eexists. split; [reflexivity|].
    assert (B : 1 <= selectedPieces p /\ (received x = true -> 1 <= selectedReceivedPiecesCount p)).
    { destruct E as (_ & E2 & E3). rewrite E2, E3. unfold zlen in Hi. split.
      - apply (count_pos _ _ (Z.to_nat i)); [lia|exact C].
      - intros R. apply (count_pos _ _ (Z.to_nat i)); [lia|]. fold x. rewrite R, C. reflexivity. }
    destruct (exact_upd p (setPiece (addSelected (-1) (if received x then addSelectedReceived (-1) p else p)) i (Z.lor x UnselectedFlag)) i (Z.lor x UnselectedFlag)) as (G1 & G2 & G3 & G4 & G5); try assumption.
    + destruct (received x); reflexivity.
    + fold x. rewrite D3. destruct (received x); prog; lia.
    + fold x. rewrite D2, C. destruct (received x); prog; rewrite u64_id; lia.
    + fold x. rewrite D2, D3, C. destruct (received x) eqn:R; prog; rewrite ?u64_id; lia.
    + rewrite G5, D2, D3. auto 10.
Qed.

Lemma selectFrom_ok n : forall p i s, flags_ok p -> exact p -> 0 <= i -> i + Z.of_nat n <= zlen (pieces p) ->
  exists q, selectFrom n i s p = Ok q /\ flags_ok q /\ exact q /\ zlen (pieces q) = zlen (pieces p) /\
    forall j, 0 <= j -> received (nth (Z.to_nat j) (pieces q) 0) = received (nth (Z.to_nat j) (pieces p) 0) /\
      chosen (nth (Z.to_nat j) (pieces q) 0) = if (i <=? j) && (j <? i + Z.of_nat n) then s else chosen (nth (Z.to_nat j) (pieces p) 0).
Proof.
  induction n as [|n IH]; intros p i s F E Hi Hn; cbn [selectFrom].
  - exists p. split; [reflexivity|]. split; [assumption|]. split; [assumption|]. split; [reflexivity|]. intros j Hj. split; [reflexivity|].
    destruct (Z.leb_spec i j), (Z.ltb_spec j (i + Z.of_nat 0)); cbn [andb]; try reflexivity; lia.
  - destruct (selectOne_ok p i s F E) as (q & -> & F1 & E1 & L1 & S1 & C1 & R1); [lia|]. cbn [bind].
    destruct (IH q (i + 1) s F1 E1) as (r & -> & F2 & E2 & L2 & J); [lia|lia|].
    exists r. split; [reflexivity|]. split; [assumption|]. split; [assumption|]. split; [lia|]. intros j Hj.
    destruct (J j Hj) as [J1 J2]. destruct (Z.eq_dec j i) as [->|N].
    + rewrite J1, J2, R1. split; [reflexivity|].
      destruct (Z.leb_spec (i + 1) i), (Z.leb_spec i i), (Z.ltb_spec i (i + Z.of_nat (S n))); cbn [andb]; try lia. exact C1.
    + rewrite J1, J2, (S1 j Hj N). split; [reflexivity|].
      destruct (Z.leb_spec (i + 1) j), (Z.leb_spec i j), (Z.ltb_spec j (i + Z.of_nat (S n))), (Z.ltb_spec j (i + 1 + Z.of_nat n)); cbn [andb]; try lia; reflexivity.
Qed.

Lemma select_ok p a b s : flags_ok p -> exact p -> 0 <= a -> b < zlen (pieces p) ->
  exists q, select a b s p = Ok q /\ flags_ok q /\ exact q /\ zlen (pieces q) = zlen (pieces p) /\
    forall j, 0 <= j -> received (nth (Z.to_nat j) (pieces q) 0) = received (nth (Z.to_nat j) (pieces p) 0) /\
      chosen (nth (Z.to_nat j) (pieces q) 0) = if (a <=? j) && (j <=? b) then s else chosen (nth (Z.to_nat j) (pieces p) 0).
Proof.
  intros F E Ha Hb. unfold select. destruct (Z.leb_spec a b) as [L|L].
  - destruct (selectFrom_ok (Z.to_nat (b + 1 - a)) p a s F E Ha) as (q & H1 & H2 & H3 & H4 & J); [lia|].
    exists q. do 4 (split; [assumption|]). intros j Hj. destruct (J j Hj) as [J1 J2]. split; [assumption|]. rewrite J2.
    destruct (Z.leb_spec a j), (Z.leb_spec j b), (Z.ltb_spec j (a + Z.of_nat (Z.to_nat (b + 1 - a)))); cbn [andb]; try lia; reflexivity.
  - replace (Z.to_nat (b + 1 - a)) with 0%nat by lia. exists p. split; [reflexivity|]. do 2 (split; [assumption|]). split; [reflexivity|].
    intros j Hj. split; [reflexivity|]. destruct (Z.leb_spec a j), (Z.leb_spec j b); cbn [andb]; try lia; reflexivity.
Qed.

Lemma removeFrom_ok n : forall p i wh, flags_ok p -> exact p -> 0 <= i -> i + Z.of_nat n <= zlen (pieces p) -> i + Z.of_nat n <= zlen wh ->
  exists q, removeReceivedFrom n i wh p = Ok q /\ flags_ok q /\ exact q /\ zlen (pieces q) = zlen (pieces p) /\
    forall j, 0 <= j -> chosen (nth (Z.to_nat j) (pieces q) 0) = chosen (nth (Z.to_nat j) (pieces p) 0) /\
      received (nth (Z.to_nat j) (pieces q) 0) = received (nth (Z.to_nat j) (pieces p) 0) &&
        negb ((i <=? j) && (j <? i + Z.of_nat n) && nth (Z.to_nat j) wh false).
Proof.
  induction n as [|n IH]; intros p i wh F E Hi Hn Hw; cbn [removeReceivedFrom].
  - exists p. split; [reflexivity|]. split; [assumption|]. split; [assumption|]. split; [reflexivity|]. intros j Hj. split; [reflexivity|].
    destruct (Z.leb_spec i j), (Z.ltb_spec j (i + Z.of_nat 0)); cbn [andb negb]; rewrite ?andb_true_r; try reflexivity; lia.
  - destruct (nth_error wh (Z.to_nat i)) as [w|] eqn:W.
    2:{ apply nth_error_None in W. unfold zlen in *. lia. }
    assert (Wi : nth (Z.to_nat i) wh false = w) by (now apply nth_error_nth).
    assert (X : exists q, (if w then removePiece i p else Ok p) = Ok q /\ flags_ok q /\ exact q /\ zlen (pieces q) = zlen (pieces p) /\
      same_but p q i /\ chosen (nth (Z.to_nat i) (pieces q) 0) = chosen (nth (Z.to_nat i) (pieces p) 0) /\
      received (nth (Z.to_nat i) (pieces q) 0) = received (nth (Z.to_nat i) (pieces p) 0) && negb w).
    { destruct w.
      - destruct (removePiece_ok p i F E) as (q & H1 & H2 & H3 & H4 & H5 & H6 & H7); [lia|]. exists q. rewrite H6, andb_false_r. auto 10.
      - exists p. cbn [negb]. rewrite andb_true_r. do 3 (split; [reflexivity||assumption|]). split; [reflexivity|]. split; [intros j _ _; reflexivity|auto]. }
    destruct X as (q & -> & F1 & E1 & L1 & S1 & C1 & R1). cbn [bind].
    destruct (IH q (i + 1) wh F1 E1) as (r & -> & F2 & E2 & L2 & J); [lia|lia|lia|].
    exists r. split; [reflexivity|]. split; [assumption|]. split; [assumption|]. split; [lia|]. intros j Hj.
    destruct (J j Hj) as [J1 J2]. destruct (Z.eq_dec j i) as [->|N].
    + rewrite J1, J2, R1, C1, Wi. split; [reflexivity|].
      destruct (Z.leb_spec (i + 1) i), (Z.leb_spec i i), (Z.ltb_spec i (i + Z.of_nat (S n))); cbn [andb negb]; try lia. now rewrite andb_true_r.
    + rewrite J1, J2, (S1 j Hj N). split; [reflexivity|].
      destruct (Z.leb_spec (i + 1) j), (Z.leb_spec i j), (Z.ltb_spec j (i + Z.of_nat (S n))), (Z.ltb_spec j (i + 1 + Z.of_nat n)); cbn [andb]; try lia; reflexivity.
Qed.

Lemma removeReceived_ok p wh : flags_ok p -> exact p -> zlen (pieces p) <= zlen wh ->
  exists q, removeReceived wh p = Ok q /\ flags_ok q /\ exact q /\ zlen (pieces q) = zlen (pieces p) /\
    forall j, 0 <= j < zlen (pieces p) -> chosen (nth (Z.to_nat j) (pieces q) 0) = chosen (nth (Z.to_nat j) (pieces p) 0) /\
      received (nth (Z.to_nat j) (pieces q) 0) = received (nth (Z.to_nat j) (pieces p) 0) && negb (nth (Z.to_nat j) wh false).
Proof.
  intros F E Hw. unfold removeReceived.
  destruct (removeFrom_ok (length (pieces p)) p 0 wh F E) as (q & H1 & H2 & H3 & H4 & J); [lia|unfold zlen; lia|unfold zlen in *; lia|].
  exists q. do 4 (split; [assumption|]). intros j Hj. destruct (J j) as [J1 J2]; [lia|]. split; [assumption|]. rewrite J2.
  destruct (Z.leb_spec 0 j); [|lia]. destruct (Z.ltb_spec j (0 + Z.of_nat (length (pieces p)))); [reflexivity|unfold zlen in *; lia].
Qed.
