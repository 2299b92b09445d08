From Coq Require Import Sorted Permutation.
From Verif Require Import Base BaseLemmas UtpModel UtpSpec UtpProofs UtpProofs2.

(** * The receive side *)

Lemma insert_perm e rs : forall rs', insertReceived e rs = Some rs' -> Permutation rs' (e :: rs).
Proof.
  induction rs as [|r rs IH]; intros rs' H; cbn [insertReceived] in H; [injection H as <-; apply Permutation_refl|]. destruct (snd r =? snd e); [discriminate|]. destruct (idHigherThan (snd r) (snd e)); [injection H as <-; apply Permutation_refl|].
  destruct (insertReceived e rs) as [l|]; [|discriminate]. injection H as <-. eapply Permutation_trans; [apply perm_skip, IH; reflexivity|apply perm_swap].
Qed.

Section Receive.
Variable P : list (list Z).
Variable s0 : Z.
Hypothesis Pne : Forall (fun p => p <> []) P.
Let num := number s0.
Let pk k := nth k P [].

Definition tag (x : nat * nat) : nat * Z := (fst x, number s0 (snd x)).
Definition stale (rest : list (nat * Z)) : Prop := match rest with [] => True | (_, s) :: _ => s = 0 end.
Definition stored_ok (n : nat) (bs : list (list Z)) (ks : list (nat * nat)) : Prop :=
  Forall (fun x => (n <= snd x)%nat /\ Z.of_nat (snd x) < Z.of_nat n + 32767 /\ (snd x < length P)%nat /\ nth (fst x) bs [] = pk (snd x)) ks /\ StronglySorted (fun a b => (snd a < snd b)%nat) ks.

Lemma concat_S n : (n < length P)%nat -> concat (firstn n P) ++ pk n = concat (firstn (S n) P).
Proof.
  intros H. subst pk. cbn beta. revert n H. clear. induction P as [|p l IH]; intros n H; [cbn in H; lia|]. destruct n as [|n]; cbn [firstn concat nth]; [now rewrite app_nil_r|]. cbn [length] in H. rewrite <- app_assoc. f_equal. apply IH. lia.
Qed.

Lemma concat_inj a : forall b, (a <= length P)%nat -> (b <= length P)%nat -> concat (firstn a P) = concat (firstn b P) -> a = b.
Proof using Pne.
  clear num pk. revert Pne. induction P as [|p l IH] in a |- *; intros N b A B E; [cbn in A, B; lia|]. inversion N; subst. destruct a as [|a], b as [|b]; cbn [firstn concat] in E.
  - reflexivity.
  - destruct p; [congruence|discriminate].
  - destruct p; [congruence|discriminate].
  - f_equal. cbn [length] in A, B. apply IH; [assumption|lia|lia|]. now apply app_inv_head in E.
Qed.

Lemma flush_ok bs : forall ks rest n out, (1 <= n <= length P)%nat -> stored_ok n bs ks -> stale rest -> let '(a', rs', out') := flushLoop bs (u16 (s0 + Z.of_nat n - 1)) (map tag ks ++ rest) out in
  exists n' ks' rest', (n <= n' <= length P)%nat /\ a' = u16 (s0 + Z.of_nat n' - 1) /\ rs' = map tag ks' ++ rest' /\ stale rest' /\ stored_ok (S n') bs ks' /\
    (out = concat (firstn n P) -> out' = concat (firstn n' P)) /\ (forall o1, out = o1 -> exists more, out' = o1 ++ more /\ concat (firstn n P) ++ more = concat (firstn n' P)) /\ sub rs' (map tag ks ++ rest) /\
    (rest = [] -> (forall x, In x ks -> num (snd x) <> 0) -> rest' = [] /\ forall x, In x ks -> (snd x < n')%nat \/ In x ks').
Proof.
  assert (Z0 : forall n bs0 rest out, (1 <= n <= length P)%nat -> stale rest -> flushLoop bs0 (u16 (s0 + Z.of_nat n - 1)) rest out = (u16 (s0 + Z.of_nat n - 1), rest, out)).
  { intros n bs0 rest out Hn St. destruct rest as [|[i s] l]; [reflexivity|]. cbn in St. subst s. cbn [flushLoop]. replace (0 =? u16 (s0 + Z.of_nat n - 1) + 1) with false by (unfold u16; lia). reflexivity. }
  induction ks as [|[i k] ks IH]; intros rest n out Hn [F S] St.
  - cbn [map app]. rewrite Z0 by assumption. exists n, [], rest. refine (conj _ (conj eq_refl (conj eq_refl (conj St (conj _ (conj _ (conj _ (conj (sub_refl _) _)))))))).
    + lia.
    + split; constructor.
    + auto.
    + intros o1 ->. exists []. now rewrite !app_nil_r.
    + auto.
  - inversion F as [|? ? (F1 & F2 & F3 & F4) F5]; subst. cbn [fst snd] in *. inversion S as [|? ? S1 S2]; subst.
    assert (Hd : forall y, In y ks -> (k < snd y)%nat) by (intros y Hy; rewrite Forall_forall in S2; exact (S2 y Hy)).
    cbn [map app]. change (tag (i, k)) with (i, number s0 k). cbn [flushLoop]. destruct (Z.eqb_spec (number s0 k) (u16 (s0 + Z.of_nat n - 1) + 1)) as [E|E].
    + assert (k = n) by (unfold number, u16 in E; lia). subst k.
      replace (u16 (u16 (s0 + Z.of_nat n - 1) + 1)) with (u16 (s0 + Z.of_nat (Datatypes.S n) - 1)) by (unfold u16; lia).
      assert (St1 : stored_ok (Datatypes.S n) bs ks). { split; [|exact S1]. rewrite Forall_forall in *. intros y Hy. destruct (F5 y Hy) as (A & B & C & D). specialize (Hd y Hy). repeat split; try lia; assumption. }
      specialize (IH rest (Datatypes.S n) (out ++ nth i bs []) ltac:(lia) St1 St). destruct (flushLoop bs (u16 (s0 + Z.of_nat (Datatypes.S n) - 1)) (map tag ks ++ rest) (out ++ nth i bs [])) as [[a' rs'] out'].
      destruct IH as (n' & ks' & rest' & I1 & I2 & I3 & I4 & I5 & I6 & I7 & I8 & I9). exists n', ks', rest'. refine (conj _ (conj I2 (conj I3 (conj I4 (conj I5 (conj _ (conj _ (conj _ _)))))))).
      * lia.
      * intros Ho. apply I6. rewrite Ho, F4. now apply concat_S.
      * intros o1 Ho. destruct (I7 (o1 ++ nth i bs []) ltac:(now rewrite Ho)) as (more & M1 & M2). exists (nth i bs [] ++ more). split; [now rewrite M1, app_assoc|]. rewrite app_assoc, F4, concat_S by assumption. exact M2.
      * apply sub_skip. exact I8.
      * intros R Z. destruct (I9 R) as (J1 & J2); [intros x Hx; apply Z; now right|]. split; [assumption|]. intros x [<-|Hx]; [left; cbn; lia|now apply J2].
    + destruct (Nat.eq_dec k n) as [->|Nk].
      * assert (Zk : number s0 n = 0) by (unfold number, u16 in *; lia). exists n, [], ((i, number s0 n) :: map tag ks ++ rest). refine (conj _ (conj eq_refl (conj eq_refl (conj _ (conj _ (conj _ (conj _ (conj _ _)))))))).
        -- lia.
        -- exact Zk.
        -- split; constructor.
        -- auto.
        -- intros o1 ->. exists []. now rewrite !app_nil_r.
        -- apply sub_refl.
        -- intros R Z. exfalso. apply (Z (i, n)); [now left|exact Zk].
      * exists n, ((i, k) :: ks), rest. refine (conj _ (conj eq_refl (conj eq_refl (conj St (conj _ (conj _ (conj _ (conj _ _)))))))).
        -- lia.
        -- split; [|exact S]. constructor; [cbn [fst snd]; repeat split; try lia; assumption|]. rewrite Forall_forall in *. intros y Hy. destruct (F5 y Hy) as (A & B & C & D). specialize (Hd y Hy). repeat split; try lia; assumption.
        -- auto.
        -- intros o1 ->. exists []. now rewrite !app_nil_r.
        -- apply sub_refl.
        -- auto.
Qed.

Lemma insert_ok i k n bs : forall ks rest, stored_ok (S n) bs ks -> stale rest -> (n < k)%nat -> Z.of_nat k < Z.of_nat n + 32767 ->
  match insertReceived (i, number s0 k) (map tag ks ++ rest) with
  | None => rest = [] -> exists j, In (j, k) ks
  | Some rs' => exists ks' rest', rs' = map tag ks' ++ rest' /\ stale rest' /\ StronglySorted (fun a b => (snd a < snd b)%nat) ks' /\ (forall x, In x ks' -> In x ks \/ x = (i, k)) /\ (rest = [] -> rest' = [] /\ In (i, k) ks' /\ incl ks ks')
  end.
Proof.
  induction ks as [|[j kr] ks IH]; intros rest [F S] St Hk Wk.
  - cbn [map app]. destruct rest as [|[j s] l]; cbn [insertReceived].
    + exists [(i, k)], []. refine (conj eq_refl (conj I (conj _ (conj _ _)))); [repeat constructor|intros x [<-|[]]; now right|]. intros _. split; [reflexivity|]. split; [now left|intros x []].
    + cbn in St. subst s. cbn [snd]. destruct (0 =? number s0 k); [discriminate|]. destruct (idHigherThan 0 (number s0 k)).
      * exists [(i, k)], ((j, 0) :: l). refine (conj eq_refl (conj eq_refl (conj _ (conj _ _)))); [repeat constructor|intros x [<-|[]]; now right|discriminate].
      * destruct (insertReceived (i, number s0 k) l) as [l'|]; cbn [option_map]; [|discriminate]. exists [], ((j, 0) :: l'). refine (conj eq_refl (conj eq_refl (conj _ (conj _ _)))); [constructor|intros x []|discriminate].
  - inversion F as [|? ? (F1 & F2 & F3 & F4) F5]; subst. cbn [fst snd] in *. inversion S as [|? ? S1 S2]; subst.
    cbn [map app]. change (tag (j, kr)) with (j, number s0 kr). cbn [insertReceived snd]. rewrite number_eq by lia. rewrite number_higher by lia.
    destruct (Z.eqb_spec (Z.of_nat kr) (Z.of_nat k)) as [E|E]; [intros _; exists j; left; f_equal; lia|]. destruct (Z.ltb_spec (Z.of_nat k) (Z.of_nat kr)).
    + exists ((i, k) :: (j, kr) :: ks), rest. refine (conj eq_refl (conj St (conj _ (conj _ _)))).
      * constructor; [assumption|]. constructor; [cbn; lia|]. rewrite Forall_forall in *. intros y Hy. specialize (S2 y Hy). cbn in *. lia.
      * intros x [<-|Hx]; [now right|now left].
      * intros R. split; [assumption|]. split; [now left|intros x Hx; now right].
    + specialize (IH rest (conj F5 S1) St Hk Wk). destruct (insertReceived (i, number s0 k) (map tag ks ++ rest)) as [l|]; cbn [option_map].
      * destruct IH as (ks' & rest' & I1 & I2 & I3 & I4 & I5). exists ((j, kr) :: ks'), rest'. refine (conj _ (conj I2 (conj _ (conj _ _)))).
        -- cbn [map app]. now rewrite I1.
        -- constructor; [assumption|]. rewrite Forall_forall in *. intros y Hy. destruct (I4 y Hy) as [Q| ->]; [now apply S2|cbn; lia].
        -- intros x [<-|Hx]; [left; now left|]. destruct (I4 x Hx); [left; now right|now right].
        -- intros R. destruct (I5 R) as (J1 & J2 & J3). split; [assumption|]. split; [now right|]. intros x [<-|Hx]; [now left|right; now apply J3].
      * intros R. destruct (IH R) as (j' & Hj). exists j'. now right.
Qed.

(** The invariant. *)
Definition RI (n : nat) (ks : list (nat * nat)) (rest : list (nat * Z)) (st : stream) : Prop :=
  (n <= length P)%nat /\ delivered st = concat (firstn n P) /\ stale rest /\ received (rcv st) = map tag ks ++ rest /\ stored_ok (S n) (bufs st) ks /\
  (step st <> SYN_SEND -> step st <> CLOSED -> ack (rcv st) = u16 (s0 + Z.of_nat n - 1)) /\ (step st = SYN_SEND -> n = 0%nat /\ ks = [] /\ rest = []).
Definition SJ (st : stream) : Prop := exists q0 W, SI q0 W st.

Lemma stored_same n bs bs' ks : (forall x, In x ks -> nth (fst x) bs' [] = nth (fst x) bs []) -> stored_ok n bs ks -> stored_ok n bs' ks.
Proof. intros H [F S]. split; [|exact S]. rewrite Forall_forall in *. intros x Hx. rewrite H by assumption. now apply F. Qed.

Lemma ridx_tag st ks rest : received (rcv st) = map tag ks ++ rest -> ridx st = map fst ks ++ map fst rest.
Proof. intros H. unfold ridx. rewrite H, map_app, map_map. reflexivity. Qed.

Lemma SJ_recv st bs r R : SJ st -> map fst (received r) = R -> used_ok bs (R ++ map bufferIdx (sentData (snd_ st))) -> (forall j, In j (map bufferIdx (sentData (snd_ st))) -> nth j bs [] = nth j (bufs st) []) -> SJ (setRecv st bs r).
Proof.
  intros (q0 & W & (U & S & L) & B & C & D) E N Sm. exists q0, W. destruct (same_ent _ _ _ Sm) as (E1 & E2 & E3). unfold SI, list_ok, ridx, held_back, setRecv in *. cbn [bufs rcv snd_ outs] in *. rewrite E, E1, E2. exact (conj (conj N (conj S (E3 L))) (conj B (conj C D))).
Qed.

Lemma perm_used bs a b : Permutation a b -> used_ok bs a -> used_ok bs b.
Proof. intros Pm [N F]. split; [now apply (Permutation_NoDup Pm)|]. rewrite Forall_forall in *. intros i Hi. apply F. now apply (Permutation_in _ (Permutation_sym Pm)). Qed.

(** One data packet that passed [updateState]. *)
Lemma receive_ok n ks rest st k data bs r : RI n ks rest st -> SJ st -> step st <> SYN_SEND -> step st <> CLOSED -> (k < length P)%nat -> data = pk k -> Z.of_nat n - 32768 <= Z.of_nat k < Z.of_nat n + 32767 ->
  receiveData (bufs st) (rcv st) (number s0 k) data = Some (bs, r) ->
  exists n' ks' rest', (n <= n')%nat /\ RI n' ks' rest' (setRecv st bs r) /\ SJ (setRecv st bs r) /\
    (rest = [] -> (forall x, In x ks -> num (snd x) <> 0) -> rest' = [] /\ (forall x, In x ks -> (snd x < n')%nat \/ In x ks') /\ ((k < n')%nat \/ exists j, In (j, k) ks') /\ ((k = n \/ num k <> 0) -> forall x, In x ks' -> num (snd x) <> 0)).
Proof using Pne.
  intros (R1 & R2 & R3 & R4 & R5 & R6 & R7) J Ns Nc Kp -> Wk H. unfold receiveData in H. rewrite (R6 Ns Nc) in H.
  replace (u16 (u16 (s0 + Z.of_nat n - 1) + 1)) with (number s0 n) in H by (unfold u16, number; lia). rewrite number_eq in H by lia. rewrite R4 in H.
  assert (Uk : used_ok (bufs st) (map fst (received (rcv st)) ++ map bufferIdx (sentData (snd_ st)))) by (destruct J as (q0 & W & (U & _) & _); exact U).
  destruct (Z.eqb_spec (Z.of_nat k) (Z.of_nat n)) as [E|E].
  - assert (k = n) by lia. subst k. replace (number s0 n) with (u16 (s0 + Z.of_nat (S n) - 1)) in H by (unfold u16, number; f_equal; lia).
    pose proof (flush_ok (bufs st) ks rest (S n) (receiveBuffer (rcv st) ++ pk n) ltac:(lia) R5 R3) as Fl.
    destruct (flushLoop (bufs st) (u16 (s0 + Z.of_nat (S n) - 1)) (map tag ks ++ rest) (receiveBuffer (rcv st) ++ pk n)) as [[a' rs'] out']. injection H as <- <-.
    destruct Fl as (n' & ks' & rest' & I1 & I2 & I3 & I4 & I5 & _ & I7 & I8 & I9). exists n', ks', rest'. split; [lia|]. split; [|split].
    + unfold RI, setRecv, delivered. cbn [bufs rcv snd_ step ack received receiveBuffer consumed]. refine (conj _ (conj _ (conj I4 (conj I3 (conj I5 (conj (fun _ _ => I2) _)))))); [lia| |intros Q; contradiction].
      destruct (I7 _ eq_refl) as (more & M1 & M2). rewrite M1. unfold delivered in R2. rewrite !app_assoc, R2. rewrite concat_S by lia. exact M2.
    + apply (SJ_recv st (bufs st) _ (map fst rs') J); [reflexivity| |auto]. eapply used_part; [|exact Uk]. apply sub_app; [|apply sub_refl]. rewrite R4. clear - I8. induction I8; cbn [map]; [constructor|now apply sub_skip|now apply sub_take].
    + intros Rr Z. destruct (I9 Rr Z) as (J1 & J2). refine (conj J1 (conj J2 (conj (or_introl _) _))); [lia|]. intros _ x Hx. assert (Q : In (tag x) (map tag ks ++ rest)) by (apply (sub_in _ _ _ I8); rewrite I3; apply in_or_app; left; now apply in_map).
      rewrite Rr, app_nil_r in Q. apply in_map_iff in Q. destruct Q as (y & Q1 & Q2). assert (Q3 : num (snd x) = num (snd y)) by (apply (f_equal snd) in Q1; exact (eq_sym Q1)). rewrite Q3. now apply Z.
  - replace (u16 (s0 + Z.of_nat n - 1)) with (u16 (s0 - 1 + Z.of_nat n)) in H by (f_equal; lia). destruct (idHigherThan (number s0 k) (u16 (s0 - 1 + Z.of_nat n))) eqn:Hi.
    + assert (Hk : (n < k)%nat). { rewrite number_u16 in Hi. replace (s0 + Z.of_nat k) with (s0 - 1 + Z.of_nat n + (Z.of_nat k - Z.of_nat n + 1)) in Hi by lia. apply higher_spec in Hi. lia. }
      assert (Dk : pk k <> []) by (rewrite Forall_forall in Pne; apply Pne; now apply nth_In).
      destruct (createDataBuffer (bufs st) (pk k)) as [[bs' i]|] eqn:C; [|discriminate]. injection H as <- <-.
      destruct (used_new _ _ _ _ _ C Dk Uk) as (X1 & X2 & X3). destruct (create_ok _ _ _ _ C) as (_ & _ & _ & Y1 & Y2). pose proof (ridx_tag _ _ _ R4) as Ri. unfold ridx in Ri.
      assert (Sb : stored_ok (S n) bs' ks) by (apply (stored_same _ (bufs st)); [|exact R5]; intros x Hx; apply X3; apply in_or_app; left; rewrite Ri; apply in_or_app; left; now apply in_map).
      pose proof (insert_ok i k n bs' ks rest Sb R3 Hk (proj2 Wk)) as In_.
      destruct (insertReceived (i, number s0 k) (map tag ks ++ rest)) as [rs'|] eqn:Ei.
      * destruct In_ as (ks' & rest' & I1 & I2 & I3 & I4 & I5). exists n, ks', rest'. split; [lia|]. split; [|split].
        -- unfold RI, setRecv, delivered. cbn [bufs rcv snd_ step ack received receiveBuffer consumed]. refine (conj R1 (conj R2 (conj I2 (conj I1 (conj (conj _ I3) (conj (fun _ _ => _) (fun Q => False_ind _ (Ns Q)))))))); [|f_equal; lia].
           apply Forall_forall. intros x Hx. destruct (I4 x Hx) as [Q| ->]; [destruct Sb as [Sb _]; rewrite Forall_forall in Sb; now apply Sb|cbn [fst snd]; repeat split; try lia; exact Y1].
        -- apply insert_perm in Ei. apply (SJ_recv st bs' _ (map fst rs') J); [reflexivity| |intros j Hj; apply X3; apply in_or_app; now right].
           eapply perm_used; [|exact X2]. rewrite <- app_assoc. rewrite R4. eapply Permutation_trans; [apply Permutation_app_head, Permutation_app_comm|]. rewrite app_assoc. apply Permutation_app_tail. apply Permutation_sym. eapply Permutation_trans; [apply (Permutation_map fst Ei)|]. cbn [map fst]. apply Permutation_cons_append.
        -- intros Rr Z. destruct (I5 Rr) as (J1 & J2 & J3). refine (conj J1 (conj _ (conj _ _))); [intros x Hx; right; now apply J3|right; exists i; assumption|]. intros [Q|Q]; [lia|]. intros x Hx. destruct (I4 x Hx) as [Q'| ->]; [now apply Z|exact Q].
      * exists n, ks, rest. split; [lia|]. split; [|split].
        -- unfold RI, setRecv, delivered. cbn [bufs rcv snd_ step ack received receiveBuffer consumed]. refine (conj R1 (conj R2 (conj R3 (conj eq_refl (conj Sb (conj (fun _ _ => _) (fun Q => False_ind _ (Ns Q)))))))). f_equal. lia.
        -- apply (SJ_recv st bs' _ (map fst (map tag ks ++ rest)) J); [reflexivity| |intros j Hj; apply X3; apply in_or_app; now right]. rewrite <- R4. eapply used_part; [|exact X2]. rewrite <- (app_nil_r (_ ++ _)) at 1. apply sub_app; [apply sub_refl|apply sub_none].
        -- intros Rr Z. refine (conj Rr (conj _ (conj _ _))); [auto|right; now apply In_|auto].
    + injection H as <- <-. exists n, ks, rest. split; [lia|]. split; [|split].
      * unfold RI, setRecv, delivered. cbn [bufs rcv snd_ step ack received receiveBuffer consumed]. exact (conj R1 (conj R2 (conj R3 (conj R4 (conj R5 (conj R6 R7)))))).
      * destruct J as (q0 & W & J). exists q0, W. exact J.
      * intros Rr Z. refine (conj Rr (conj _ (conj _ _))); [auto| |auto]. left. rewrite number_u16 in Hi.
        destruct (Nat.ltb_spec k n) as [Q|Q]; [assumption|exfalso]. assert (G : idHigherThan (u16 (s0 - 1 + Z.of_nat n + (Z.of_nat k - Z.of_nat n + 1))) (u16 (s0 - 1 + Z.of_nat n)) = true) by (apply higher_spec; lia).
        replace (s0 - 1 + Z.of_nat n + (Z.of_nat k - Z.of_nat n + 1)) with (s0 + Z.of_nat k) in G by lia. congruence.
Qed.

End Receive.
