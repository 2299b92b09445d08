(** Proofs about the downloader: the other events and whole histories *)
From Verif Require Import Base BaseLemmas LayoutModel ProgressModel ProgressSpec ProgressProofs Assoc DlModel DlSpec DlProofs DlProofs2 DlProofs3.

Lemma KeepM_refl d : KeepM d d.
Proof. intros i X. now right. Qed.

(** ** Evaluating one peer after a change *)
Lemma eval_after t n (H : Z -> Z -> Prop) vs exc d d4 p : plain t n -> (forall p idx, has (vs p) idx = true -> H p idx) -> Good t n H d4 -> Pre vs exc d d4 -> KeepM d d4 ->
  exists d' new, evaluateNextRequests t (vs p) p d4 = Ok d' /\ Good t n H d' /\ Out t n H vs exc d d' new /\ Same d4 d' /\ KeepM d d' /\ fully_used t (vs p) d' p.
Proof.
  intros P HH G4 P4 M4. destruct (eval_out t n H vs p d4 P (HH p) G4) as (d' & new & E & G' & SM & KY & MK & _ & NF & _ & O & IDL).
  exists d', new. split; [exact E|]. split; [exact G'|]. split; [|split; [exact SM|split; [eapply KeepM_keys; eassumption|eapply used_after; eassumption]]]. eapply Out_pre; [exact P4|exact KY| |exact O].
  destruct O as (_ & _ & O3 & _). rewrite Forall_forall in *. intros q Q. destruct (NF q Q) as (N1 & N2). split; [exact N2|]. destruct (O3 q Q) as (_ & _ & _ & _ & (inf & Y & _) & _).
  apply aget_In_fst. rewrite <- MK. apply aget_In_fst. congruence.
Qed.

Lemma unchoke_ok t n (H : Z -> Z -> Prop) vs d p : plain t n -> (forall p idx, has (vs p) idx = true -> H p idx) -> Good t n H d ->
  exists d' new, unchokePeer t (vs p) p d = Ok d' /\ Good t n H d' /\ Out t n H vs (again (MUnchoke p)) d d' new /\ Same d d' /\ KeepM d d' /\ (aget p (dPeers d) = None \/ fully_used t (vs p) d' p).
Proof.
  intros P HH G. unfold unchokePeer. destruct (aget p (dPeers d)) as [info|] eqn:E.
  2: { exists d, []. split; [reflexivity|]. split; [exact G|]. split; [apply Out_none; [reflexivity|auto|intros; lia]|]. split; [repeat split|split; [apply KeepM_refl|now left]]. }
  set (es := map (fun e => {| rIdx := rIdx e; rActive := 0; rBlocks := repeat false (length (rBlocks e)) |}) (cur info)).
  fold (with_ d p (setCur es info)). pose proof (g_inv _ _ _ _ G) as I.
  assert (A0 : activeOf es = 0). { unfold es, activeOf. clear. induction (cur info) as [|x l IH]; [reflexivity|]. cbn in *. lia. }
  assert (Z0 : forall l : list reqPiece, fold_right (fun e s => ones (rBlocks e) + s) 0 (map (fun e => {| rIdx := rIdx e; rActive := 0; rBlocks := repeat false (length (rBlocks e)) |}) l) = 0).
  { induction l as [|x l IH]; [reflexivity|]. cbn. rewrite ones_none, IH. reflexivity. }
  assert (G1 : Good t n H (with_ d p (setCur es info))).
  { apply Good_cur; [exact G|exact E| | |lia].
    - unfold es. rewrite map_map. reflexivity.
    - apply Forall_forall. intros x X. apply in_map_iff in X. destruct X as (y & <- & Y). destruct (i_entry _ _ _ _ I p info y E Y) as ((E1 & E2) & _). split; cbn; [unfold zlen in *; now rewrite repeat_length|now rewrite ones_none]. }
  assert (NF : forall i k, ~ flagged (setCur es info) i k).
  { intros i k (x & X1 & X2 & X3 & X4). cbn [cur setCur] in X1. apply in_map_iff in X1. destruct X1 as (y & <- & _). cbn in X4. revert X4. generalize (length (rBlocks y)). intros m. revert m. generalize (Z.to_nat k). induction n0 as [|j IH]; intros [|m]; cbn; try discriminate. apply IH. }
  destruct (eval_after t n H vs (again (MUnchoke p)) d (with_ d p (setCur es info)) p P HH G1) as (d' & new & A & B & C & D & F & U).
  - split; [reflexivity|]. split.
    + intros q i k (inf & Y & Z). rewrite with_get in Y. destruct (Z.eqb_spec q p) as [->|N]; [injection Y as <-; now apply NF in Z|]. exists inf. auto.
    + split.
      * intros q i k (inf & Y & Z). destruct (Z.eq_dec q p) as [->|N]; [right; left; reflexivity|]. left. exists inf. split; [|exact Z]. rewrite with_get. now destruct (Z.eqb_spec q p).
      * intros q. unfold load. rewrite with_get. destruct (Z.eqb_spec q p) as [->|N]; [|lia]. cbn [cur setCur]. unfold es. rewrite Z0. pose proof (limit_bounds (vs p)). lia.
  - intros i X. right. split; [exact X|reflexivity].
  - exists d', new. split; [exact A|]. split; [exact B|]. split; [exact C|]. split; [exact D|]. split; [exact F|]. right. exact U.
Qed.

(** ** A peer announces pieces *)
Lemma Good_entry t n H d p : Good t n H d -> Good t n H (withEntry p d).
Proof.
  intros G. unfold withEntry. destruct (aget p (dPeers d)) as [i|] eqn:E; [exact G|]. destruct G as [I A S F X]. fold (with_ d p noInfo).
  split; [| |exact S|exact F|exact X].
  - split.
    + exact (i_len _ _ _ _ I).
    + exact (i_keys _ _ _ _ I).
    + cbn. apply NoDup_aset. exact (i_pkeys _ _ _ _ I).
    + exact (i_req _ _ _ _ I).
    + exact (i_unf _ _ _ _ I).
    + intros q inf. rewrite with_get. destruct (q =? p); [intros Y; injection Y as <-; constructor|apply (i_nodup _ _ _ _ I)].
    + intros q inf x. rewrite with_get. destruct (q =? p); [intros Y; injection Y as <-; contradiction|apply (i_entry _ _ _ _ I)].
    + intros q inf. rewrite with_get. destruct (q =? p); [intros Y; injection Y as <-; cbn; lia|apply (i_active _ _ _ _ I)].
    + intros i r q Y K. destruct (i_peers _ _ _ _ I i r q Y K) as (inf & Z1 & Z2). exists inf. rewrite with_get. destruct (Z.eqb_spec q p); [congruence|auto].
    + exact (i_sorted _ _ _ _ I).
  - intros q inf i. rewrite with_get. destruct (q =? p); [intros Y; injection Y as <-; intros [[]|[]]|apply A].
Qed.

Lemma Pre_entry vs exc d p : Pre vs exc d (withEntry p d).
Proof.
  unfold withEntry. destruct (aget p (dPeers d)) as [i|] eqn:E; [apply Pre_refl|]. fold (with_ d p noInfo). split; [reflexivity|]. split.
  - intros q i k (inf & Y & Z). rewrite with_get in Y. destruct (q =? p); [injection Y as <-; destruct Z as (x & [] & _)|exists inf; auto].
  - split.
    + intros q i k (inf & Y & Z). left. exists inf. split; [|exact Z]. rewrite with_get. destruct (Z.eqb_spec q p); [congruence|exact Y].
    + intros q. unfold load. rewrite with_get. destruct (Z.eqb_spec q p) as [->|N]; [|lia]. rewrite E. cbn. lia.
Qed.

Lemma withEntry_same p d : Same d (withEntry p d) /\ dReqs (withEntry p d) = dReqs d.
Proof. unfold withEntry. destruct (aget p (dPeers d)); repeat split. Qed.

Lemma Same_trans a b c : Same a b -> Same b c -> Same a c.
Proof. unfold Same. intuition congruence. Qed.

Lemma announce_ok t n (H : Z -> Z -> Prop) vs d p : plain t n -> (forall p idx, has (vs p) idx = true -> H p idx) -> Good t n H d ->
  exists d' new, evaluateNextRequests t (vs p) p (withEntry p d) = Ok d' /\ Good t n H d' /\ Out t n H vs (fun _ _ _ => False) d d' new /\ Same d d' /\ KeepM d d' /\ fully_used t (vs p) d' p.
Proof.
  intros P HH G. destruct (withEntry_same p d) as (S1 & R1).
  destruct (eval_after t n H vs (fun _ _ _ => False) d (withEntry p d) p P HH (Good_entry _ _ _ _ p G) (Pre_entry _ _ _ _)) as (d' & new & A & B & C & D & F & U).
  - intros i X. right. rewrite R1 in X. split; [exact X|]. now apply Same_missing.
  - exists d', new. split; [exact A|]. split; [exact B|]. split; [exact C|]. split; [eapply Same_trans; eassumption|]. split; [exact F|exact U].
Qed.

(** ** A connection closes *)
Lemma closed_ok t n H vs exc d p : Good t n H d -> Good t n H (connectionClosed p d) /\ Out t n H vs exc d (connectionClosed p d) [] /\ KeepM d (connectionClosed p d) /\
  dProg (connectionClosed p d) = dProg d /\ dChecking (connectionClosed p d) = dChecking d /\ dFresh (connectionClosed p d) = dFresh d /\ dAnnounced (connectionClosed p d) = dAnnounced d /\
  dStored (connectionClosed p d) = dStored d.
Proof.
  intros G. unfold connectionClosed. destruct (aget p (dPeers d)) as [info|] eqn:E.
  2: { split; [exact G|]. split; [apply Out_none; [reflexivity|auto|intros; lia]|]. split; [apply KeepM_refl|]. repeat split. }
  set (f := fun i r => if existsb (fun e => rIdx e =? i) (cur info) then removePeer p r else r).
  assert (RM : forall i, aget i (map (fun ir : Z * reqInfo => (fst ir, if existsb (fun e => rIdx e =? fst ir) (cur info) then removePeer p (snd ir) else snd ir)) (dReqs d)) = option_map (f i) (aget i (dReqs d))).
  { intros i. exact (aget_map f i (dReqs d)). }
  set (rq := map (fun ir : Z * reqInfo => (fst ir, if existsb (fun e => rIdx e =? fst ir) (cur info) then removePeer p (snd ir) else snd ir)) (dReqs d)) in *.
  set (d' := setPeers (adel p (dPeers d)) (setReqs rq d)).
  assert (PG : forall q inf, aget q (dPeers d') = Some inf -> q <> p /\ aget q (dPeers d) = Some inf).
  { intros q inf Y. cbn in Y. destruct (Z.eq_dec q p) as [->|N]; [rewrite aget_del_same in Y; discriminate|]. rewrite aget_del_other in Y by assumption. auto. }
  assert (FP : forall i r, rPiece (f i r) = rPiece r /\ (forall q, In q (rPeers (f i r)) <-> In q (rPeers r) /\ (q <> p \/ ~ In i (map rIdx (cur info))))).
  { intros i r. unfold f. destruct (existsb (fun e => rIdx e =? i) (cur info)) eqn:X.
    - split; [reflexivity|]. intros q. cbn. rewrite filter_In, negb_true_iff, Z.eqb_neq. apply existsb_exists in X. destruct X as (e & X1 & X2). apply Z.eqb_eq in X2.
      assert (In i (map rIdx (cur info))) by (rewrite <- X2; now apply in_map). tauto.
    - split; [reflexivity|]. intros q. split; [|tauto]. intros Y. split; [exact Y|]. right. intros K. apply in_map_iff in K. destruct K as (e & K1 & K2).
      assert (existsb (fun e => rIdx e =? i) (cur info) = true) by (apply existsb_exists; exists e; split; [assumption|now apply Z.eqb_eq]). congruence. }
  destruct G as [I A [S1 [S2 S3]] F X].
  assert (G' : Good t n H d').
  { split; [| |split; [|split; [exact S2|exact S3]]|exact F|exact X].
    - split.
      + exact (i_len _ _ _ _ I).
      + cbn. unfold rq. rewrite map_map. cbn. exact (i_keys _ _ _ _ I).
      + cbn. apply NoDup_adel. exact (i_pkeys _ _ _ _ I).
      + cbn. intros i r Y. rewrite RM in Y. destruct (aget i (dReqs d)) as [r0|] eqn:R0; [|discriminate]. injection Y as <-. rewrite (proj1 (FP i r0)). exact (i_req _ _ _ _ I i r0 R0).
      + exact (i_unf _ _ _ _ I).
      + intros q inf Y. destruct (PG q inf Y) as (N & Z). exact (i_nodup _ _ _ _ I q inf Z).
      + intros q inf x Y K. destruct (PG q inf Y) as (N & Z). destruct (i_entry _ _ _ _ I q inf x Z K) as (W1 & (r & W2 & W3) & W4). split; [exact W1|]. split; [|exact W4].
        exists (f (rIdx x) r). cbn. rewrite RM, W2. split; [reflexivity|]. apply FP. auto.
      + intros q inf Y. destruct (PG q inf Y) as (N & Z). exact (i_active _ _ _ _ I q inf Z).
      + cbn. intros i r q Y K. rewrite RM in Y. destruct (aget i (dReqs d)) as [r0|] eqn:R0; [|discriminate]. injection Y as <-. apply FP in K. destruct K as (K1 & K2).
        destruct (i_peers _ _ _ _ I i r0 q R0 K1) as (inf & Z1 & Z2). destruct (Z.eq_dec q p) as [->|N].
        * rewrite E in Z1. injection Z1 as <-. tauto.
        * exists inf. rewrite aget_del_other by assumption. auto.
      + exact (i_sorted _ _ _ _ I).
    - intros q inf i Y K. destruct (PG q inf Y) as (N & Z). exact (A q inf i Z K).
    - cbn. intros i r k Y. rewrite RM in Y. destruct (aget i (dReqs d)) as [r0|] eqn:R0; [|discriminate]. injection Y as <-. rewrite (proj1 (FP i r0)). exact (S1 i r0 k R0). }
  split; [exact G'|]. split.
  { apply Out_none; [reflexivity| |].
    - intros q i k (inf & Y & Z). destruct (PG q inf Y) as (N & W). exists inf. auto.
    - intros q. unfold load. destruct (aget q (dPeers d')) as [inf|] eqn:Y.
      + destruct (PG q inf Y) as (N & W). rewrite W. lia.
      + pose proof (limit_bounds (vs q)). lia. }
  split. { intros i Y. right. cbn in Y. rewrite RM in Y. split; [destruct (aget i (dReqs d)); [discriminate|exact Y]|reflexivity]. }
  repeat split.
Qed.

(** ** A check ends *)
Lemma refreshSource_keeps s n g P p : map fst (refreshSource s n g P p) = map fst P /\
  forall q, option_map (fun i => (cur i, asked i)) (aget q (refreshSource s n g P p)) = option_map (fun i => (cur i, asked i)) (aget q P).
Proof.
  unfold refreshSource. destruct (aget p P) as [i|] eqn:E; [|auto].
  assert (One : forall i', cur i' = cur i -> asked i' = asked i -> map fst (aset p i' P) = map fst P /\
    forall q, option_map (fun i => (cur i, asked i)) (aget q (aset p i' P)) = option_map (fun i => (cur i, asked i)) (aget q P)).
  { intros i' C A. split; [apply aset_mapfst; congruence|]. intros q. destruct (Z.eq_dec q p) as [->|N]; [rewrite aget_set_same, E; cbn; now rewrite C, A|now rewrite aget_set_other]. }
  destruct s; [now apply One| |auto].
  set (i1 := {| cur := cur i; asked := asked i; suspGroup := suspGroup i; suspicion := u32 (suspicion i + 1) |}).
  destruct ((n =? 1)%nat || (suspicion i1 >? 2)); [|now apply One].
  destruct (One i1 eq_refl eq_refl) as (O1 & O2). destruct (suspGroup i =? 0); [auto|]. split.
  - rewrite map_map. exact O1.
  - intros q. rewrite <- O2.
    rewrite (aget_map (fun _ inf => if suspGroup inf =? suspGroup i then {| cur := cur inf; asked := asked inf; suspGroup := 0; suspicion := suspicion inf |} else inf) q (aset p i1 P)).
    destruct (aget q (aset p i1 P)) as [a|]; [|reflexivity]. cbn. now destruct (suspGroup a =? suspGroup i).
Qed.

Lemma refreshSources_keeps s n g : forall l P, map fst (fold_left (refreshSource s n g) l P) = map fst P /\
  forall q, option_map (fun i => (cur i, asked i)) (aget q (fold_left (refreshSource s n g) l P)) = option_map (fun i => (cur i, asked i)) (aget q P).
Proof.
  induction l as [|p l IH]; intros P; cbn [fold_left]; [auto|]. destruct (IH (refreshSource s n g P p)) as (A & B). destruct (refreshSource_keeps s n g P p) as (C & D).
  split; [congruence|]. intros q. now rewrite B, D.
Qed.

Lemma removed_missing p q i : same_but p q i -> zlen (pieces q) = zlen (pieces p) -> forall j, j <> i -> 
  (0 <=? j) && (nth (Z.to_nat j) (pieces q) 1 =? 0) = (0 <=? j) && (nth (Z.to_nat j) (pieces p) 1 =? 0).
Proof.
  intros S L j N. destruct (Z.leb_spec 0 j); [|reflexivity]. cbn [andb]. destruct (Nat.ltb_spec (Z.to_nat j) (length (pieces p))) as [Lj|Lj].
  - rewrite (nth_indep _ 1 0) by (unfold zlen in L; lia). rewrite (nth_indep (pieces p) 1 0 Lj). now rewrite (S j).
  - rewrite !nth_overflow by (unfold zlen in L; lia). reflexivity.
Qed.

Lemma checked_ok t n H vs exc d k s idx r : Good t n H d -> nth_error (dChecking d) k = Some (idx, r) ->
  exists d', pieceChecked idx s r (setChecking (firstn k (dChecking d) ++ skipn (S k) (dChecking d)) d) = Ok d' /\ Good t n H d' /\ Out t n H vs exc d d' [] /\ dStored d' = dStored d /\
    dReqs d' = dReqs d /\ dAnnounced d' = dAnnounced d /\ dChecking d' = firstn k (dChecking d) ++ skipn (S k) (dChecking d) /\
    match s with
    | CSuccess => dProg d' = dProg d /\ dFresh d' = dFresh d ++ [idx]
    | _ => dFresh d' = dFresh d /\ forall i, 0 <= i -> is_received (dProg d') i = is_received (dProg d) i && negb (i =? idx) /\ is_chosen (dProg d') i = is_chosen (dProg d) i
    end /\ (forall i, i <> idx -> isMissing d' i = isMissing d i) /\ (s <> CSuccess -> is_chosen (dProg d) idx = true -> isMissing d' idx = true).
Proof.
  intros G E. set (ck := firstn k (dChecking d) ++ skipn (S k) (dChecking d)).
  assert (Sub : forall x, In x ck -> In x (dChecking d)).
  { intros x X. unfold ck in X. apply in_app_or in X. rewrite <- (firstn_skipn k (dChecking d)). apply in_or_app. destruct X as [X|X]; [now left|right].
    destruct (skipn k (dChecking d)) as [|y l] eqn:Q; [|].
    - assert (length (dChecking d) <= k)%nat. { pose proof (skipn_length k (dChecking d)) as W. rewrite Q in W. cbn in W. lia. } rewrite skipn_all2 in X by lia. contradiction.
    - assert (W : skipn (S k) (dChecking d) = l). { clear - Q. revert k Q. induction (dChecking d) as [|z m IH]; intros [|k] Q; cbn in *; try discriminate; [now injection Q|]. now apply IH. } rewrite W in X. now right. }
  assert (Rng : 0 <= idx < n) by (apply nth_error_In in E; now destruct (proj2 (proj2 (g_stored _ _ _ _ G)) idx r E)).
  assert (G0 : Good t n H (setChecking ck d)).
  { apply Good_checking; [exact G|]. intros i r0 K. exact (proj2 (proj2 (g_stored _ _ _ _ G)) i r0 (Sub _ K)). }
  assert (Len := i_len _ _ _ _ (g_inv _ _ _ _ G)).
  assert (Ref : forall d1, Good t n H d1 -> dSent d1 = dSent d -> dPeers d1 = dPeers d -> Good t n H (refreshPieceSources s r d1) /\ Out t n H vs exc d (refreshPieceSources s r d1) []).
  { intros d1 G1 Q1 Q2. unfold refreshPieceSources. set (g := match s with CMismatch => u32 (dGroup d1 + 1) | _ => dGroup d1 end).
    destruct (refreshSources_keeps s (length (rSources r)) g (rSources r) (dPeers d1)) as (K1 & K2).
    split; [apply Good_group, Good_peers; [exact G1|exact K1|exact K2]|]. apply Out_none; [exact Q1| |].
    - intros p i kk Y. change (outstanding (setPeers (fold_left (refreshSource s (length (rSources r)) g) (rSources r) (dPeers d1)) d1) p i kk) in Y.
      apply (same_cur_outstanding d1) in Y; [|exact K2]. unfold outstanding in *. now rewrite <- Q2.
    - intros p. change (load (setGroup g (setPeers (fold_left (refreshSource s (length (rSources r)) g) (rSources r) (dPeers d1)) d1)) p) with (load (setPeers (fold_left (refreshSource s (length (rSources r)) g) (rSources r) (dPeers d1)) d1) p).
      rewrite same_cur_load by exact K2. unfold load. rewrite Q2. lia. }
  unfold pieceChecked. destruct s.
  - cbn [bind]. destruct (Ref (setFresh (dFresh (setChecking ck d) ++ [idx]) (setChecking ck d))) as (R1 & R2); [now apply Good_fresh|reflexivity|reflexivity|].
    eexists. split; [reflexivity|]. split; [exact R1|]. split; [exact R2|]. repeat (split; [reflexivity|]). split; [split; reflexivity|]. split; [reflexivity|congruence].
  - destruct (removePiece_ok (dProg d) idx (g_flags _ _ _ _ G) (g_exact _ _ _ _ G) ltac:(lia)) as (pr & Q & Q1 & Q2 & Q3 & Q4 & Q5 & Q6).
    change (dProg (setChecking ck d)) with (dProg d). rewrite Q. cbn [bind].
    destruct (Ref (setProg pr (setChecking ck d))) as (R1 & R2); [apply Good_prog; [exact G0|lia|exact Q1|exact Q2]|reflexivity|reflexivity|].
    eexists. split; [reflexivity|]. split; [exact R1|]. split; [exact R2|]. repeat (split; [reflexivity|]). split; [split; [reflexivity|]|].
    + intros i Hi. cbn [dProg refreshPieceSources setGroup setPeers setProg]. unfold is_received, is_chosen. rewrite Q3. destruct (Z.leb_spec 0 i); [|lia]. cbn [andb].
      destruct (Z.eqb_spec i idx) as [->|N]; [rewrite Q5, Q6, andb_false_r; auto|]. rewrite (Q4 i Hi N), andb_true_r. auto.
    + split.
      * intros i N. exact (removed_missing _ _ _ Q4 Q3 i N).
      * intros _ C. unfold isMissing. cbn [dProg refreshPieceSources setGroup setPeers setProg]. destruct (Z.leb_spec 0 idx); [|lia]. cbn [andb]. apply Z.eqb_eq.
        unfold is_chosen in C. apply andb_true_iff in C. destruct C as [_ C]. rewrite <- Q6 in C. destruct Q1 as [Q1 _]. rewrite Forall_forall in Q1.
        assert (Li : (Z.to_nat idx < length (pieces pr))%nat) by (unfold zlen in *; lia). rewrite (nth_indep _ 1 0 Li).
        destruct (Q1 (nth (Z.to_nat idx) (pieces pr) 0) (nth_In _ _ Li)) as [W|[W|[W|W]]]; rewrite W in *; try reflexivity; discriminate.
  - destruct (removePiece_ok (dProg d) idx (g_flags _ _ _ _ G) (g_exact _ _ _ _ G) ltac:(lia)) as (pr & Q & Q1 & Q2 & Q3 & Q4 & Q5 & Q6).
    change (dProg (setChecking ck d)) with (dProg d). rewrite Q. cbn [bind].
    destruct (Ref (setProg pr (setChecking ck d))) as (R1 & R2); [apply Good_prog; [exact G0|lia|exact Q1|exact Q2]|reflexivity|reflexivity|].
    eexists. split; [reflexivity|]. split; [exact R1|]. split; [exact R2|]. repeat (split; [reflexivity|]). split; [split; [reflexivity|]|].
    + intros i Hi. cbn [dProg refreshPieceSources setGroup setPeers setProg]. unfold is_received, is_chosen. rewrite Q3. destruct (Z.leb_spec 0 i); [|lia]. cbn [andb].
      destruct (Z.eqb_spec i idx) as [->|N]; [rewrite Q5, Q6, andb_false_r; auto|]. rewrite (Q4 i Hi N), andb_true_r. auto.
    + split.
      * intros i N. exact (removed_missing _ _ _ Q4 Q3 i N).
      * intros _ C. unfold isMissing. cbn [dProg refreshPieceSources setGroup setPeers setProg]. destruct (Z.leb_spec 0 idx); [|lia]. cbn [andb]. apply Z.eqb_eq.
        unfold is_chosen in C. apply andb_true_iff in C. destruct C as [_ C]. rewrite <- Q6 in C. destruct Q1 as [Q1 _]. rewrite Forall_forall in Q1.
        assert (Li : (Z.to_nat idx < length (pieces pr))%nat) by (unfold zlen in *; lia). rewrite (nth_indep _ 1 0 Li).
        destruct (Q1 (nth (Z.to_nat idx) (pieces pr) 0) (nth_In _ _ Li)) as [W|[W|[W|W]]]; rewrite W in *; try reflexivity; discriminate.
Qed.

(** ** The selection changes *)
Lemma drops_ok t n (H : Z -> Z -> Prop) vs exc d : forall gone d1, Good t n H d1 -> Pre vs exc d d1 -> Forall (fun i => isMissing d1 i = false) gone ->
  let d2 := fold_left (fun d idx => setReqs (adel idx (dReqs d)) (eraseAll idx d)) gone d1 in
  Good t n H d2 /\ Pre vs exc d d2 /\ Same d1 d2 /\ map fst (dPeers d2) = map fst (dPeers d1) /\ (forall i, aget i (dReqs d2) <> None <-> aget i (dReqs d1) <> None /\ ~ In i gone).
Proof.
  induction gone as [|idx gone IH]; intros d1 G P F; cbn [fold_left].
  - cbn zeta. split; [exact G|]. split; [exact P|]. split; [repeat split|]. split; [reflexivity|]. intros i. cbn. tauto.
  - inversion F; subst. assert (Q : setReqs (adel idx (dReqs d1)) (eraseAll idx d1) = drop idx d1) by reflexivity. rewrite Q.
    destruct (IH (drop idx d1)) as (A & B & C & D & E).
    + now apply Good_drop.
    + apply (Pre_drop t n H); [apply G|exact P|assumption].
    + exact H3.
    + split; [exact A|]. split; [exact B|]. split; [eapply Same_trans; [|exact C]; repeat split|]. split; [now rewrite D, drop_keys|].
      intros i. rewrite (E i). change (dReqs (drop idx d1)) with (adel idx (dReqs d1)). destruct (Z.eq_dec i idx) as [->|N].
      * rewrite aget_del_same. cbn. split; [tauto|]. intros (_ & W). exfalso. apply W. now left.
      * rewrite aget_del_other by assumption. cbn. split; [intros (W1 & W2); split; [exact W1|]; intros [W|W]; [congruence|contradiction]|tauto].
Qed.

Lemma evals_ok t n (H : Z -> Z -> Prop) vs : plain t n -> (forall p idx, has (vs p) idx = true -> H p idx) -> forall ps d, NoDup ps -> Good t n H d ->
  exists d' new, fold_left (fun r p => bind r (evaluateNextRequests t (vs p) p)) ps (Ok d) = Ok d' /\ Good t n H d' /\ Same d d' /\ Keys d d' /\
    map fst (dPeers d') = map fst (dPeers d) /\ (forall q, ~ In q ps -> aget q (dPeers d') = aget q (dPeers d)) /\
    Forall (fun q => In (fst q) ps /\ aget (fst (snd q)) (dReqs d') <> None) new /\ (forall i, aget i (dReqs d) <> None -> aget i (dReqs d') <> None) /\
    Out t n H vs (fun _ _ _ => False) d d' new.
Proof.
  intros P HH. induction ps as [|p ps IH]; intros d ND G; cbn [fold_left].
  - exists d, []. split; [reflexivity|]. split; [exact G|]. split; [repeat split|]. split; [intros i X; now left|]. split; [reflexivity|]. split; [reflexivity|]. split; [constructor|]. split; [auto|].
    apply Out_none; [reflexivity|auto|intros; lia].
  - inversion ND; subst. destruct (eval_out t n H vs p d P (HH p) G) as (d1 & n1 & E1 & G1 & S1 & K1 & M1 & Q1 & F1 & R1 & O1 & _).
    cbn [bind]. rewrite E1. destruct (IH d1 H3 G1) as (d2 & n2 & E2 & G2 & S2 & K2 & M2 & Q2 & F2 & R2 & O2).
    exists d2, (n1 ++ n2). split; [exact E2|]. split; [exact G2|]. split; [eapply Same_trans; eassumption|]. split.
    { intros i X. destruct (K2 i X) as [Y|Y]; [exact (K1 i Y)|]. right. now rewrite <- (Same_missing d d1). }
    split; [congruence|]. split. { intros q X. rewrite Q2, Q1; [reflexivity| |]; intros Y; apply X; [left; congruence|now right]. }
    split. { apply Forall_app. split; (eapply Forall_impl; [|eassumption]); cbn; intros q (W1 & W2); (split; [|auto]); [left; congruence|now right]. }
    split; [auto|].
    destruct O1 as (A1 & A2 & A3 & A4 & A5), O2 as (B1 & B2 & B3 & B4 & B5).
    assert (Np : forall q, In q n1 -> fst q = p) by (intros q Y; rewrite Forall_forall in F1; now destruct (F1 q Y)).
    assert (Nq : forall q, In q n2 -> In (fst q) ps) by (intros q Y; rewrite Forall_forall in F2; now destruct (F2 q Y)).
    split; [rewrite B1, A1, map_app, app_assoc; reflexivity|]. split.
    { apply NoDup_app_i; [exact A2|exact B2|]. intros q Y1 Y2. apply H2. rewrite <- (Np q Y1). now apply Nq. }
    split.
    { apply Forall_app. rewrite Forall_forall in A3, B3. split; apply Forall_forall; intros q Y.
      - destruct (A3 q Y) as (C1 & C2 & C3 & C4 & C5 & C6). repeat (split; [assumption|]). split; [|exact C6]. destruct C5 as (inf & D1 & D2). exists inf. split; [|exact D2]. rewrite Q2; [exact D1|]. now rewrite (Np q Y).
      - destruct (B3 q Y) as (C1 & C2 & C3 & C4 & C5 & C6). repeat (split; [assumption|]). intros (inf & D1 & D2). apply C6. exists inf. split; [|exact D2].
        rewrite Q1; [exact D1|]. intros X. apply H2. rewrite <- X. now apply Nq. }
    split.
    { intros q i k X. destruct (B4 q i k X) as [Y|Y]; [|right; apply in_or_app; now right]. destruct (A4 q i k Y) as [Z|Z]; [now left|right; apply in_or_app; now left]. }
    intros q. specialize (A5 q). specialize (B5 q). lia.
Qed.

Lemma select_ok t n (H : Z -> Z -> Prop) vs d pr sorted : plain t n -> (forall p idx, has (vs p) idx = true -> H p idx) -> Good t n H d ->
  zlen (pieces pr) = n -> flags_ok pr -> exact pr -> in_range n sorted ->
  exists d' new, refreshSelection t vs pr sorted d = Ok d' /\ Good t n H d' /\ Out t n H vs (fun _ _ _ => False) d d' new /\
    dProg d' = pr /\ dChecking d' = dChecking d /\ dFresh d' = dFresh d /\ dAnnounced d' = dAnnounced d /\ dStored d' = dStored d /\
    (forall i, aget i (dReqs d') <> None -> isMissing d' i = true).
Proof.
  intros P HH G L F X R. unfold refreshSelection. set (d1 := setSorted sorted (setProg pr d)).
  assert (G1 : Good t n H d1) by (apply Good_sorted; [apply Good_prog; assumption|exact R]).
  set (gone := map fst (filter (fun ir => negb (isMissing d1 (fst ir))) (dReqs d1))).
  assert (Gn : forall i, In i gone <-> aget i (dReqs d) <> None /\ isMissing d1 i = false).
  { intros i. unfold gone. rewrite in_map_iff. rewrite aget_In_fst. split.
    - intros (ir & <- & K). apply filter_In in K. destruct K as (K1 & K2). apply negb_true_iff in K2. split; [now apply in_map|exact K2].
    - intros (K & M). apply in_map_iff in K. destruct K as (ir & <- & K). exists ir. split; [reflexivity|]. apply filter_In. split; [exact K|]. now rewrite M. }
  destruct (drops_ok t n H vs (fun _ _ _ => False) d gone d1 G1) as (G2 & P2 & S2 & M2 & R2).
  { split; [reflexivity|]. split; [intros p i k Y; exact Y|]. split; [intros p i k Y; left; exact Y|]. intros p. change (load d1 p) with (load d p). lia. }
  { apply Forall_forall. intros i Y. now apply Gn in Y. }
  set (d2 := fold_left (fun d idx => setReqs (adel idx (dReqs d)) (eraseAll idx d)) gone d1) in *.
  assert (MM : forall i, aget i (dReqs d2) <> None -> isMissing d2 i = true).
  { intros i Y. apply R2 in Y. destruct Y as (Y1 & Y2). rewrite (Same_missing d1 d2) by exact S2. destruct (isMissing d1 i) eqn:W; [reflexivity|]. exfalso. apply Y2, Gn. auto. }
  destruct (selectedFinished pr) eqn:SF.
  - exists d2, []. split; [reflexivity|]. split; [exact G2|]. split; [destruct P2 as (Q1 & Q2 & Q3 & Q4); now apply Out_none|]. destruct S2 as (T1 & T2 & T3 & T4 & T5 & T6 & T7).
    refine (conj _ (conj _ (conj _ (conj _ (conj _ MM))))); assumption.
  - destruct (evals_ok t n H vs P HH (map fst (dPeers d2)) d2) as (d' & new & E & G' & S' & K' & M' & Q' & F' & RR & O'); [apply (i_pkeys _ _ _ _ (g_inv _ _ _ _ G2))|exact G2|].
    exists d', new. split; [exact E|]. split; [exact G'|]. split.
    + eapply Out_pre; [exact P2|exact K'| |exact O']. eapply Forall_impl; [|exact F']. cbn. intros q (W1 & W2). split; [exact W2|]. apply aget_In_fst. exact W1.
    + assert (ST : Same d1 d') by (eapply Same_trans; eassumption). destruct ST as (T1 & T2 & T3 & T4 & T5 & T6 & T7).
      refine (conj _ (conj _ (conj _ (conj _ (conj _ _))))); try assumption. intros i Y. rewrite (Same_missing d2 d') by exact S'. destruct (K' i Y) as [Z|Z]; [now apply MM|exact Z].
Qed.
