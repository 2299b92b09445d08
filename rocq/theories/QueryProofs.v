(** Proofs about DHT lookups. *)
From Coq Require Import Permutation.
From Verif Require Import Base BaseLemmas NodeModel NodeSpec NodeProofs TableModel QueryModel QuerySpec.

Lemma hasNode_spec l n : hasNode l n = true <-> In (key n) (map key l).
Proof.
  unfold hasNode. rewrite existsb_exists, in_map_iff. split.
  - intros (x & H1 & H2). unfold idEq in H2. apply list_eqb_spec in H2. exists x. auto.
  - intros (x & H1 & H2). exists x. split; [exact H2|]. unfold idEq. apply list_eqb_spec. exact H1.
Qed.

Lemma hasNode_not l n : hasNode l n = false <-> ~ In (key n) (map key l).
Proof. rewrite <- hasNode_spec. destruct (hasNode l n); split; congruence. Qed.

Lemma map_upd {A B} (f : A -> B) i x l : map f (upd i x l) = upd i (f x) (map f l).
Proof. revert i. induction l as [|a l IH]; intros [|i]; cbn; [reflexivity..|]. f_equal. apply IH. Qed.

Lemma In_upd {A} i (x y : A) l : In y (upd i x l) -> y = x \/ In y l.
Proof.
  revert i. induction l as [|a l IH]; intros [|i] H; cbn in *.
  - destruct H.
  - destruct H.
  - destruct H; [left; auto|right; right; assumption].
  - destruct H as [H|H]; [right; left; exact H|]. destruct (IH _ H); [left; assumption|right; right; assumption].
Qed.

Lemma NoDup_upd {A} i (x : A) l : NoDup l -> ~ In x l -> NoDup (upd i x l).
Proof.
  revert i. induction l as [|a l IH]; intros [|i] N H; cbn; [constructor..| |].
  - inversion N; subst. constructor; [|assumption]. intros X. apply H. right. exact X.
  - inversion N; subst. constructor.
    + intros X. apply In_upd in X. destruct X as [->|X]; [apply H; left; reflexivity|contradiction].
    + apply IH; [assumption|]. intros X. apply H. right. exact X.
Qed.

Lemma NoDup_app_intro {A} (a b : list A) : NoDup a -> NoDup b -> (forall x, In x a -> ~ In x b) -> NoDup (a ++ b).
Proof.
  induction 1 as [|x a Hx N IH]; intros Nb D; cbn; [exact Nb|]. constructor.
  - rewrite in_app_iff. intros [H|H]; [contradiction|]. apply (D x); [left; reflexivity|exact H].
  - apply IH; [exact Nb|]. intros y Hy. apply D. right. exact Hy.
Qed.

Lemma NoDup_app_elim {A} (a b : list A) : NoDup (a ++ b) -> NoDup a /\ NoDup b /\ (forall x, In x a -> ~ In x b).
Proof.
  induction a as [|x a IH]; cbn; intros N.
  - refine (conj (NoDup_nil _) (conj N _)). intros ? [].
  - inversion N; subst. destruct (IH H2) as (I1 & I2 & I3).
    refine (conj _ (conj I2 _)).
    + constructor; [|exact I1]. intros X. apply H1. apply in_or_app. left. exact X.
    + intros y [->|Hy]; [|apply I3; exact Hy]. intros X. apply H1. apply in_or_app. right. exact X.
Qed.

Lemma mergeOne_ok own used mn target to n : NoDup (map key (used ++ to)) -> zlen to <= 32 ->
  let to' := mergeOne own used MaxCachedNodes mn target to n in
  NoDup (map key (used ++ to')) /\ zlen to' <= 32 /\ zlen to <= zlen to'.
Proof.
  intros N L. unfold mergeOne, MaxCachedNodes.
  destruct (hasNode to n) eqn:E1; [cbv zeta; repeat split; try assumption; lia|].
  destruct (hasNode used n) eqn:E2; [cbv zeta; repeat split; try assumption; lia|].
  destruct (negb (isValidNode own (id n))); [cbv zeta; repeat split; try assumption; lia|].
  destruct (_ || _); [|cbv zeta; repeat split; try assumption; lia].
  apply hasNode_not in E1. apply hasNode_not in E2.
  rewrite map_app in N. destruct (NoDup_app_elim _ _ N) as (N1 & N2 & N3).
  destruct (zlen to <? 32) eqn:E3.
  - cbv zeta. rewrite map_app, map_app. cbn [map]. refine (conj _ (conj _ _)).
    + apply NoDup_app_intro; [exact N1| |].
      * apply NoDup_app_intro; [exact N2|constructor; [intros []|constructor]|].
        intros x Hx [<-|[]]. contradiction.
      * intros x Hx Hy. apply in_app_or in Hy. destruct Hy as [Hy|[<-|[]]]; [apply (N3 x); assumption|contradiction].
    + unfold zlen in *. rewrite app_length. cbn. lia.
    + unfold zlen in *. rewrite app_length. cbn. lia.
  - destruct (worst _ _ _ _ _ _) as [i|]; [|cbv zeta; rewrite map_app; repeat split; try assumption; lia].
    cbv zeta. rewrite map_app, map_upd. refine (conj _ (conj _ _)).
    + apply NoDup_app_intro; [exact N1|apply NoDup_upd; assumption|].
      intros x Hx Hy. apply In_upd in Hy. destruct Hy as [->|Hy]; [contradiction|apply (N3 x); assumption].
    + unfold zlen in *. rewrite upd_length. exact L.
    + unfold zlen in *. rewrite upd_length. lia.
Qed.

Lemma merge_ok own used mn target from : forall to, NoDup (map key (used ++ to)) -> zlen to <= 32 ->
  let to' := mergeClosestNodes own to from used MaxCachedNodes mn target in
  NoDup (map key (used ++ to')) /\ zlen to' <= 32.
Proof.
  induction from as [|n from IH]; intros to N L; [split; assumption|].
  cbn [mergeClosestNodes fold_left].
  destruct (mergeOne_ok own used mn target to n N L) as (A & B & _). apply IH; assumption.
Qed.

(** What the replaced node was. *)
Lemma worst_ok target nd l : forall i best dist j, 0 <= dist ->
  worst target nd l i best dist = Some j ->
  (best = Some j) \/
  exists k m, nth_error l k = Some m /\ j = (i + k)%nat /\
    closerToNodeThan (id m) nd target = false /\ dist < idLength (distance (id m) target).
Proof.
  induction l as [|m l IH]; intros i best dist j D H; cbn [worst] in H; [left; exact H|].
  destruct (negb (closerToNodeThan (id m) nd target)) eqn:E.
  - destruct (dist <? idLength (distance (id m) target)) eqn:E2.
    + apply IH in H; [|lia]. destruct H as [H|(k & m' & H1 & H2 & H3 & H4)].
      * inversion H; subst. right. exists 0%nat, m. apply negb_true_iff in E. apply Z.ltb_lt in E2. refine (conj eq_refl (conj _ (conj E E2))); lia.
      * right. exists (S k), m'. refine (conj H1 (conj _ (conj H3 _))); lia.
    + apply IH in H; [|lia]. destruct H as [H|(k & m' & H1 & H2 & H3 & H4)]; [left; exact H|].
      right. exists (S k), m'. refine (conj H1 (conj _ (conj H3 _))); lia.
  - apply IH in H; [|lia]. destruct H as [H|(k & m' & H1 & H2 & H3 & H4)]; [left; exact H|].
    right. exists (S k), m'. refine (conj H1 (conj _ (conj H3 _))); lia.
Qed.

(** The sending loop moves nodes from the front of the candidates to the used ones. *)
Lemma sendLoop_ok fuel : forall q q' out, sendLoop fuel q = (q', out) ->
  q_used q' = q_used q ++ out /\ q_received q = out ++ q_received q' /\
  q_peers q' = q_peers q /\ q_target q' = q_target q /\ q_max q' = q_max q /\ q_found q' = q_found q /\
  zlen (q_requests q') <= Z.max (zlen (q_requests q)) (q_max q) /\
  exists new, q_requests q' = q_requests q ++ new /\ q_pending q' = q_pending q ++ new /\
    (q_next q <= q_next q')%nat /\ NoDup (map p_handle new) /\
    Forall (fun p => (q_next q <= p_handle p < q_next q')%nat) new.
Proof.
  induction fuel as [|fuel IH]; intros q q' out H; cbn [sendLoop] in H.
  - inversion H; subst. rewrite app_nil_r. repeat split; try lia.
    exists []. rewrite !app_nil_r. repeat split; try lia; constructor.
  - destruct (q_received q) as [|next rest] eqn:R.
    + inversion H; subst. rewrite app_nil_r. repeat split; try lia; [rewrite R; reflexivity|].
      exists []. rewrite !app_nil_r. repeat split; try lia; constructor.
    + destruct (zlen (q_requests q) <? q_max q) eqn:Z0.
      * match type of H with context [sendLoop fuel ?x] => destruct (sendLoop fuel x) as [q3 o3] eqn:L end.
        inversion H; subst. clear H. apply IH in L. unfold sendRequest in L. cbn in L.
        destruct L as (A1 & A2 & A3 & A4 & A5 & A6 & A7 & (new & B1 & B2 & B3 & B4 & B5)).
        refine (conj _ (conj _ (conj A3 (conj A4 (conj A5 (conj A6 (conj _ _))))))).
        -- rewrite A1, <- app_assoc. reflexivity.
        -- cbn [app]. f_equal. exact A2.
        -- unfold zlen in *. rewrite app_length in A7. cbn in A7. lia.
        -- eexists. rewrite B1, B2, <- !app_assoc. refine (conj eq_refl (conj eq_refl (conj _ (conj _ _)))).
           ++ lia.
           ++ cbn [map app p_handle]. constructor; [|exact B4]. intros X. apply in_map_iff in X.
              destruct X as (x & X1 & X2). rewrite Forall_forall in B5. specialize (B5 x X2). lia.
           ++ cbn [app]. constructor; [cbn; lia|].
              eapply Forall_impl; [|exact B5]. cbn. intros; lia.
      * inversion H; subst. rewrite app_nil_r. repeat split; try lia; [rewrite R; reflexivity|].
        exists []. rewrite !app_nil_r. repeat split; try lia; constructor.
Qed.

Definition q_inv (b : Z) (q : query) : Prop :=
  NoDup (map key (q_used q ++ q_received q)) /\ zlen (q_received q) <= 32 /\
  zlen (q_requests q) <= b /\ q_max q <= 5 /\
  NoDup (map p_handle (q_pending q)) /\ Forall (fun p => (p_handle p < q_next q)%nat) (q_pending q).

Lemma eraseFirst_le f l : (length (eraseFirst f l) <= length l)%nat.
Proof. induction l as [|x l IH]; cbn; [lia|]. destruct (f x); cbn; lia. Qed.

Lemma onResponse_ok own q p body q' ok out fin b : 5 <= b -> q_inv b q ->
  onResponse own q p body = (q', ok, out, fin) ->
  q_inv b q' /\ q_used q' = q_used q ++ out /\ q_peers q' = q_peers q /\
  ok = match body with Some r => r_trans r =? p_trans p | None => false end /\
  fin = (q_peers q && match q_requests q' with [] => true | _ => false end) /\
  exists new, q_requests q' = eraseFirst (fun x => if q_peers q then sameEndpoint x p else Nat.eqb (p_handle x) (p_handle p))
                (q_requests q) ++ new /\ q_pending q' = q_pending q ++ new /\
     Forall (fun p => (q_next q <= p_handle p)%nat) new /\ (q_next q <= q_next q')%nat.
Proof.
  intros Hb (I1 & I2 & I3 & I4 & I5 & I6) H. unfold onResponse in H.
  set (isR := match body with Some r => r_trans r =? p_trans p | None => false end) in *.
  match type of H with context [setRequests ?x _] => set (q1 := x) in * end.
  assert (Q1 : NoDup (map key (q_used q1 ++ q_received q1)) /\ zlen (q_received q1) <= 32 /\
     q_used q1 = q_used q /\ q_requests q1 = q_requests q /\ q_pending q1 = q_pending q /\
     q_max q1 = q_max q /\ q_next q1 = q_next q /\ q_peers q1 = q_peers q).
  { subst q1. destruct body as [r|]; [|repeat split; assumption].
    destruct (isR && idEq (id (p_node p)) (r_id r)); [|repeat split; assumption].
    cbn [setReceived q_used q_received q_requests q_pending q_max q_next q_peers].
    destruct (r_nodes r); [repeat split; assumption|].
    destruct (merge_ok own (q_used q) (p_min p) (q_target q) (n :: l) (q_received q) I1 I2) as (M1 & M2).
    repeat split; assumption. }
  clearbody q1. destruct Q1 as (A1 & A2 & A3 & A4 & A5 & A6 & A7 & A8).
  set (er := eraseFirst _ (q_requests q1)) in *.
  assert (Her : zlen er <= b).
  { unfold er. unfold zlen in *. rewrite A4.
    pose proof (eraseFirst_le (fun x => if q_peers q then sameEndpoint x p else Nat.eqb (p_handle x) (p_handle p)) (q_requests q)). lia. }
  set (q2 := setRequests q1 er) in *.
  assert (Q2 : q_inv b q2).
  { unfold q_inv, q2, setRequests. cbn. rewrite A5, A6, A7. refine (conj A1 (conj A2 (conj Her (conj I4 (conj I5 I6))))). }
  destruct (if negb (q_peers q) || (q_found q2 <? MaxReturnedValues)
            then sendLoop (length (q_received q2)) q2 else (q2, [])) as [q3 o3] eqn:L.
  inversion H; subst q' ok out fin. clear H.
  assert (ER : er = eraseFirst (fun x => if q_peers q then sameEndpoint x p else Nat.eqb (p_handle x) (p_handle p))
                (q_requests q)) by (unfold er; rewrite A4; reflexivity).
  destruct (negb (q_peers q) || (q_found q2 <? MaxReturnedValues)).
  - apply sendLoop_ok in L. destruct L as (B1 & B2 & B3 & B4 & B5 & B6 & B7 & (new & C1 & C2 & C3 & C4 & C5)).
    change (q_used q2) with (q_used q1) in *. change (q_received q2) with (q_received q1) in *.
    change (q_requests q2) with er in *. change (q_pending q2) with (q_pending q1) in *.
    change (q_max q2) with (q_max q1) in *. change (q_next q2) with (q_next q1) in *.
    change (q_peers q2) with (q_peers q1) in *.
    refine (conj _ (conj _ (conj _ (conj eq_refl (conj eq_refl _))))).
    + unfold q_inv. refine (conj _ (conj _ (conj _ (conj _ (conj _ _))))).
      * rewrite B1, <- app_assoc, <- B2. exact A1.
      * unfold zlen in *. rewrite B2, app_length in A2. lia.
      * lia.
      * lia.
      * rewrite C2, map_app, A5. apply NoDup_app_intro; [exact I5|exact C4|].
        intros x Hx Hy. apply in_map_iff in Hx. apply in_map_iff in Hy.
        destruct Hx as (p1 & X1 & X2). destruct Hy as (p2 & Y1 & Y2).
        rewrite Forall_forall in I6, C5. specialize (I6 p1 X2). specialize (C5 p2 Y2). lia.
      * rewrite C2, A5. apply Forall_app. split; eapply Forall_impl; try exact I6; try exact C5; cbn; intros; lia.
    + rewrite B1, A3. reflexivity.
    + congruence.
    + exists new. rewrite C1, C2, ER, A5. refine (conj eq_refl (conj eq_refl (conj _ _))).
      * eapply Forall_impl; [|exact C5]. cbn. intros; lia.
      * lia.
  - inversion L; subst q3 o3. refine (conj Q2 (conj _ (conj _ (conj eq_refl (conj eq_refl _))))).
    + rewrite app_nil_r. exact A3.
    + exact A8.
    + exists []. rewrite !app_nil_r. cbn. repeat split; try assumption; try constructor; lia.
Qed.

Lemma NoDup_filter_map {A B} (f : A -> B) g l : NoDup (map f l) -> NoDup (map f (filter g l)).
Proof.
  induction l as [|x l IH]; cbn; intros N; [constructor|]. inversion N; subst.
  destruct (g x); cbn; [|auto]. constructor; [|auto]. intros X. apply H1.
  apply in_map_iff in X. destruct X as (y & Y1 & Y2). apply filter_In in Y2. apply in_map_iff. exists y. tauto.
Qed.

Lemma Forall_filter' {A} (P : A -> Prop) g l : Forall P l -> Forall P (filter g l).
Proof. intros F. apply Forall_forall. intros x Hx. apply filter_In in Hx. rewrite Forall_forall in F. apply F. tauto. Qed.

Lemma step_ok own e q q' out fin b : 5 <= b -> q_inv b q -> step own e q = (q', out, fin) ->
  q_inv b q' /\ q_used q' = q_used q ++ out /\ q_peers q' = q_peers q.
Proof.
  intros Hb I H. destruct e as [h body|]; cbn [step] in H.
  - destruct (List.find _ (q_pending q)) as [p|] eqn:F.
    2:{ inversion H; subst. rewrite app_nil_r. auto. }
    apply find_some in F. destruct F as (F1 & F2). apply Nat.eqb_eq in F2.
    set (ps := filter _ (q_pending q)) in *.
    destruct (onResponse own (setPending q ps) p body) as [[[q1 ok] o1] f1] eqn:R.
    inversion H; subst q' out fin. clear H.
    pose proof I as (I1 & I2 & I3 & I4 & I5 & I6).
    assert (I' : q_inv b (setPending q ps)).
    { unfold q_inv, setPending. cbn. refine (conj I1 (conj I2 (conj I3 (conj I4 (conj _ _))))).
      - apply NoDup_filter_map. exact I5.
      - apply Forall_filter'. exact I6. }
    apply (onResponse_ok own (setPending q ps) p body q1 ok o1 f1 b Hb I') in R.
    destruct R as (R1 & R2 & R3 & R4 & R5 & (new & N1 & N2 & N3 & N4)).
    assert (PB : q_inv b (setPending q1 (q_pending q1 ++ [p]))).
    { destruct R1 as (J1 & J2 & J3 & J4 & J5 & J6). unfold q_inv, setPending. cbn.
      refine (conj J1 (conj J2 (conj J3 (conj J4 (conj _ _))))).
      - rewrite map_app. apply NoDup_app_intro; [exact J5|cbn; constructor; [intros []|constructor]|].
        intros x Hx [<-|[]]. rewrite N2 in Hx. cbn in Hx. rewrite map_app in Hx. apply in_app_or in Hx.
        destruct Hx as [Hx|Hx]; apply in_map_iff in Hx; destruct Hx as (y & Y1 & Y2).
        + unfold ps in Y2. apply filter_In in Y2. destruct Y2 as (_ & Y2).
          apply negb_true_iff, Nat.eqb_neq in Y2. congruence.
        + rewrite Forall_forall in N3, I6. specialize (N3 y Y2). specialize (I6 p F1). cbn in N3. lia.
      - apply Forall_app. split; [exact J6|]. constructor; [|constructor].
        rewrite Forall_forall in I6. specialize (I6 p F1). cbn in N4. lia. }
    destruct body as [r|]; [destruct ok|]; cbn; auto.
  - inversion H; subst. rewrite app_nil_r. destruct I as (I1 & I2 & I3 & I4 & I5 & I6).
    refine (conj _ (conj eq_refl eq_refl)). unfold q_inv, stop. cbn.
    refine (conj I1 (conj I2 (conj _ (conj _ (conj _ _))))).
    + unfold zlen; cbn; lia.
    + lia.
    + apply NoDup_filter_map. exact I5.
    + apply Forall_filter'. exact I6.
Qed.

Lemma run_inv own b es : forall q q' out f, 5 <= b -> q_inv b q -> run own es q = (q', out, f) ->
  q_inv b q' /\ q_used q' = q_used q ++ out /\ q_peers q' = q_peers q.
Proof.
  induction es as [|e es IH]; intros q q' out f Hb I H; cbn [run] in H.
  - inversion H; subst. rewrite app_nil_r. auto.
  - destruct (step own e q) as [[q1 o1] f1] eqn:S1. destruct (run own es q1) as [[q2 o2] f2] eqn:R.
    inversion H; subst. clear H.
    destruct (step_ok _ _ _ _ _ _ _ Hb I S1) as (A1 & A2 & A3).
    destruct (IH _ _ _ _ Hb A1 R) as (B1 & B2 & B3).
    split; [exact B1|]. split; [rewrite B2, A2, app_assoc; reflexivity|congruence].
Qed.

Lemma start_ok peers target nodes q f : start peers target nodes = (q, f) ->
  q_inv (Z.max 5 (zlen nodes)) q /\ q_used q = [] /\ q_received q = [] /\ q_peers q = peers /\
  q_requests q = q_pending q /\ length (q_pending q) = length nodes /\
  f = match nodes with [] => true | _ => false end.
Proof.
  intros H. unfold start in H. inversion H; subst. clear H.
  set (q0 := {| q_peers := peers |}).
  assert (G : forall ns q, q_requests q = q_pending q -> q_used q = [] -> q_received q = [] -> q_max q = 5 ->
     NoDup (map p_handle (q_pending q)) -> Forall (fun p => (p_handle p < q_next q)%nat) (q_pending q) ->
     let q' := fold_left (fun q n => sendRequest n 160 q) ns q in
     q_requests q' = q_pending q' /\ q_used q' = [] /\ q_received q' = [] /\ q_max q' = 5 /\
     NoDup (map p_handle (q_pending q')) /\ Forall (fun p => (p_handle p < q_next q')%nat) (q_pending q') /\
     length (q_pending q') = (length (q_pending q) + length ns)%nat /\ q_peers q' = q_peers q).
  { clear. induction ns as [|n ns IH]; intros q H1 H2 H3 H4 H5 H6; cbn [fold_left].
    - cbn. repeat split; try assumption. lia.
    - destruct (IH (sendRequest n 160 q)) as (A1 & A2 & A3 & A4 & A5 & A6 & A7 & A8);
        unfold sendRequest; cbn; try assumption.
      + rewrite H1. reflexivity.
      + rewrite map_app. apply NoDup_app_intro; [exact H5|cbn; constructor; [intros []|constructor]|].
        intros x Hx [<-|[]]. cbn in Hx. apply in_map_iff in Hx. destruct Hx as (y & Y1 & Y2).
        rewrite Forall_forall in H6. specialize (H6 y Y2). lia.
      + apply Forall_app. split; [eapply Forall_impl; [|exact H6]; cbn; intros; lia|].
        constructor; [cbn; lia|constructor].
      + refine (conj A1 (conj A2 (conj A3 (conj A4 (conj A5 (conj A6 (conj _ A8))))))).
        etransitivity; [exact A7|]. unfold sendRequest. cbn. rewrite app_length. cbn. lia. }
  destruct (G nodes q0) as (A1 & A2 & A3 & A4 & A5 & A6 & A7 & A8); try reflexivity.
  - constructor.
  - constructor.
  - refine (conj _ (conj A2 (conj A3 (conj A8 (conj A1 (conj A7 eq_refl)))))).
    unfold q_inv. rewrite A2, A3. cbn [app map]. refine (conj (NoDup_nil _) (conj _ (conj _ (conj _ (conj A5 A6))))).
    + unfold zlen; cbn; lia.
    + rewrite A1. unfold zlen. rewrite A7. cbn [q0 q_pending length]. lia.
    + lia.
Qed.

(** Proper replies keep the list of requests in step with the callbacks. *)
Definition in_step (q : query) : Prop :=
  q_peers q = true /\ Permutation (map endpoint (q_requests q)) (map endpoint (q_pending q)).

Lemma sameEndpoint_spec a b : sameEndpoint a b = true <-> endpoint a = endpoint b.
Proof.
  unfold sameEndpoint, endpoint. rewrite andb_true_iff, Z.eqb_eq, list_eqb_spec. split.
  - intros (-> & ->). reflexivity.
  - intros H. inversion H. auto.
Qed.

Lemma eraseFirst_perm p l : In (endpoint p) (map endpoint l) ->
  Permutation (map endpoint l) (endpoint p :: map endpoint (eraseFirst (fun x => sameEndpoint x p) l)).
Proof.
  induction l as [|x l IH]; intros H; [destruct H|]. cbn [eraseFirst].
  destruct (sameEndpoint x p) eqn:E.
  - apply sameEndpoint_spec in E. cbn [map]. rewrite E. reflexivity.
  - cbn [map] in *. destruct H as [H|H].
    + apply sameEndpoint_spec in H. congruence.
    + etransitivity; [apply perm_skip; apply IH; exact H|]. apply perm_swap.
Qed.

Lemma filter_perm (l : list pending) p : NoDup (map p_handle l) -> In p l ->
  Permutation l (p :: filter (fun x => negb (Nat.eqb (p_handle x) (p_handle p))) l).
Proof.
  induction l as [|x l IH]; intros N H; [destruct H|]. cbn [map] in N. inversion N; subst. cbn [filter].
  destruct H as [->|H].
  - rewrite Nat.eqb_refl. cbn [negb]. apply perm_skip.
    assert (E : filter (fun x => negb (Nat.eqb (p_handle x) (p_handle p))) l = l).
    { clear - H2. induction l as [|y l IH]; [reflexivity|]. cbn [filter].
      destruct (Nat.eqb (p_handle y) (p_handle p)) eqn:E.
      - apply Nat.eqb_eq in E. exfalso. apply H2. left. exact E.
      - cbn [negb]. f_equal. apply IH. intros X. apply H2. right. exact X. }
    rewrite E. reflexivity.
  - destruct (Nat.eqb (p_handle x) (p_handle p)) eqn:E.
    + apply Nat.eqb_eq in E. exfalso. apply H2. rewrite E. apply in_map. exact H.
    + cbn [negb]. etransitivity; [apply perm_skip; apply IH; assumption|]. apply perm_swap.
Qed.

Lemma step_in_step own e q q' out fin b : 5 <= b -> q_inv b q -> in_step q ->
  match e with Stop => False | Reply h None => True
  | Reply h (Some r) => forall p, In p (q_pending q) -> p_handle p = h -> r_trans r = p_trans p end ->
  step own e q = (q', out, fin) ->
  in_step q' /\
  (q_pending q = [] -> q' = q /\ fin = false) /\
  (q_pending q <> [] -> match e with Reply h _ => In h (map p_handle (q_pending q)) | Stop => False end ->
     (fin = true <-> q_pending q' = [])) /\
  (match e with Reply h _ => ~ In h (map p_handle (q_pending q)) | Stop => False end -> q' = q /\ fin = false).
Proof.
  intros Hb I (P1 & P2) Pr H. destruct e as [h body|]; [|destruct Pr]. cbn [step] in H.
  destruct (List.find _ (q_pending q)) as [p|] eqn:F.
  2:{ inversion H; subst. refine (conj (conj P1 P2) (conj _ (conj _ _))); auto.
      intros _ Hi. exfalso. apply in_map_iff in Hi. destruct Hi as (y & Y1 & Y2).
      pose proof (find_none _ _ F y Y2) as X. cbn in X. apply Nat.eqb_neq in X. congruence. }
  apply find_some in F. destruct F as (F1 & F2). apply Nat.eqb_eq in F2. subst h.
  assert (OK : match body with Some r => r_trans r = p_trans p | None => True end).
  { destruct body; [apply Pr; auto|exact Logic.I]. }
  set (ps := filter _ (q_pending q)) in *.
  destruct (onResponse own (setPending q ps) p body) as [[[q1 ok] o1] f1] eqn:R.
  pose proof I as (I1 & I2 & I3 & I4 & I5 & I6).
  assert (I' : q_inv b (setPending q ps)).
  { unfold q_inv, setPending. cbn. refine (conj I1 (conj I2 (conj I3 (conj I4 (conj _ _))))).
    - apply NoDup_filter_map. exact I5.
    - apply Forall_filter'. exact I6. }
  apply (onResponse_ok own (setPending q ps) p body q1 ok o1 f1 b Hb I') in R.
  destruct R as (R1 & R2 & R3 & R4 & R5 & (new & N1 & N2 & N3 & N4)).
  cbn [setPending q_peers q_requests q_pending] in R3, R5, N1, N2. rewrite P1 in *.
  assert (E : q' = q1 /\ fin = f1).
  { inversion H; subst. destruct body as [r|]; [|auto]. rewrite OK, Z.eqb_refl. auto. }
  destruct E as (-> & ->). clear H.
  assert (PP : Permutation (map endpoint (q_pending q)) (endpoint p :: map endpoint ps)).
  { change (endpoint p :: map endpoint ps) with (map endpoint (p :: ps)). apply Permutation_map.
    apply filter_perm; assumption. }
  assert (PR : Permutation (map endpoint (eraseFirst (fun x => sameEndpoint x p) (q_requests q))) (map endpoint ps)).
  { apply (Permutation_cons_inv (a := endpoint p)).
    etransitivity; [symmetry; apply eraseFirst_perm|].
    - eapply Permutation_in; [symmetry; exact P2|]. apply in_map. exact F1.
    - etransitivity; [exact P2|exact PP]. }
  assert (S1 : in_step q1).
  { split; [exact R3|]. rewrite N1, N2, !map_app. apply Permutation_app_tail. exact PR. }
  refine (conj S1 (conj _ (conj _ _))).
  - intros E. rewrite E in F1. destruct F1.
  - intros _ _. rewrite R5. destruct S1 as (_ & S1). cbn [andb]. split.
    + intros X. destruct (q_requests q1); [|discriminate]. cbn [map] in S1.
      apply Permutation_nil in S1. destruct (q_pending q1); [reflexivity|discriminate].
    + intros X. rewrite X in S1. cbn [map] in S1. symmetry in S1. apply Permutation_nil in S1.
      destruct (q_requests q1); [reflexivity|discriminate].
  - intros X. exfalso. apply X. apply in_map. exact F1.
Qed.

Lemma run_done own es : forall q, q_pending q = [] -> proper own es q -> run own es q = (q, [], 0).
Proof.
  induction es as [|e es IH]; intros q E P; [reflexivity|]. cbn [run proper] in *.
  destruct P as (P1 & P2). destruct e as [h body|]; [|destruct P1].
  assert (S1 : step own (Reply h body) q = (q, [], false)).
  { cbn [step]. rewrite E. reflexivity. }
  rewrite S1 in *. cbn [fst] in P2. rewrite IH by assumption. reflexivity.
Qed.

Lemma run_end own b es : forall q q' out f, 5 <= b -> q_inv b q -> in_step q -> q_pending q <> [] ->
  proper own es q -> run own es q = (q', out, f) ->
  f = match q_pending q' with [] => 1 | _ => 0 end.
Proof.
  induction es as [|e es IH]; intros q q' out f Hb I S1 Ne P R; cbn [run proper] in *.
  - inversion R; subst. destruct (q_pending q'); [contradiction|reflexivity].
  - destruct P as (P1 & P2).
    destruct (step own e q) as [[q1 o1] f1] eqn:St. destruct (run own es q1) as [[q2 o2] f2] eqn:R2.
    inversion R; subst. clear R. cbn [fst] in P2.
    destruct (step_ok _ _ _ _ _ _ _ Hb I St) as (A1 & _).
    destruct (step_in_step own e q q1 o1 f1 b Hb I S1 P1 St) as (B1 & _ & B3 & B4).
    destruct e as [h body|]; [|destruct P1].
    destruct (in_dec Nat.eq_dec h (map p_handle (q_pending q))) as [Hi|Hi].
    + specialize (B3 Ne Hi). destruct (q_pending q1) as [|x l] eqn:Q1.
      * rewrite run_done in R2 by assumption. inversion R2; subst. rewrite Q1.
        destruct B3 as (_ & B3). rewrite B3 by reflexivity. reflexivity.
      * assert (f1 = false) as -> by (destruct f1; [destruct B3 as (B3 & _); specialize (B3 eq_refl); discriminate|reflexivity]).
        assert (Ne1 : q_pending q1 <> []) by (rewrite Q1; discriminate).
        rewrite (IH q1 q' o2 f2 Hb A1 B1 Ne1 P2 R2). lia.
    + destruct (B4 Hi) as (-> & ->). rewrite (IH q q' o2 f2 Hb I S1 Ne P2 R2). lia.
Qed.
