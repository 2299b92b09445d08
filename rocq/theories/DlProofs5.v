(** Proofs about the downloader: every step, whole histories *)
From Verif Require Import Base BaseLemmas LayoutModel ProgressModel ProgressSpec ProgressProofs Assoc DlModel DlSpec DlProofs DlProofs2 DlProofs3 DlProofs4.

Lemma stop_good t n H d : Good t n H d -> Good t n H (stop d).
Proof.
  intros [I A [S1 [S2 S3]] F X]. split; [| |split; [|split]|exact F|exact X].
  - split; cbn.
    + exact (i_len _ _ _ _ I).
    + constructor.
    + constructor.
    + discriminate.
    + intros u U. apply in_app_or in U. destruct U as [U|U]; [exact (i_unf _ _ _ _ I u U)|]. apply filter_In in U. destruct U as (U & _). apply in_map_iff in U. destruct U as ((i & r) & <- & U). cbn.
      destruct (i_req _ _ _ _ I i r) as (_ & W); [apply In_aget; [exact (i_keys _ _ _ _ I)|exact U]|]. right. assert (W0 := proj1 W). rewrite W0. exact W.
    + discriminate.
    + discriminate.
    + discriminate.
    + discriminate.
    + exact (i_sorted _ _ _ _ I).
  - intros p info i Y. cbn in Y. discriminate.
  - cbn. discriminate.
  - cbn. intros u k U. apply in_app_or in U. destruct U as [U|U]; [exact (S2 u k U)|]. apply filter_In in U. destruct U as (U & _). apply in_map_iff in U. destruct U as ((i & r) & <- & U). cbn.
    assert (E : aget i (dReqs d) = Some r) by (apply In_aget; [exact (i_keys _ _ _ _ I)|exact U]). destruct (i_req _ _ _ _ I i r E) as (_ & W). rewrite (proj1 W). exact (S1 i r k E).
  - exact S3.
Qed.

(** ** One step *)
Definition step_fact (t : torrentInfo) (vs : Z -> view) (d : dl) (e : devent) (d' : dl) : Prop :=
  match e with
  | MBlock p b =>
    (d' = d \/ fully_used t (vs p) d' p) /\ KeepM d d' /\ dFresh d' = dFresh d /\ dAnnounced d' = dAnnounced d /\
    (dStored d' = dStored d \/ (dStored d' = dStored d ++ [b] /\ aget (bindex b) (dReqs d) <> None /\
       exists k, 0 <= k < getPieceBlocksCount t (bindex b) /\ In (p, getPieceBlockInfo t (bindex b) k) (dSent d))) /\
    ((dProg d' = dProg d /\ dChecking d' = dChecking d) \/
     ((forall i, 0 <= i -> is_received (dProg d') i = is_received (dProg d) i || (i =? bindex b)) /\ aget (bindex b) (dReqs d) <> None /\
      exists r', dChecking d' = if isMissing d (bindex b) then dChecking d ++ [(bindex b, r')] else dChecking d))
  | MUnchoke p => (selectedFinished (dProg d) = false -> aget p (dPeers d) = None \/ fully_used t (vs p) d' p) /\ KeepM d d' /\ Same d d'
  | MHave p idx => (selectedFinished (dProg d) = false -> isMissing d idx = true -> fully_used t (vs p) d' p) /\ KeepM d d' /\ Same d d'
  | MBitfield p => (selectedFinished (dProg d) = false -> hasWantedPieces (vs p) d = true -> fully_used t (vs p) d' p) /\ KeepM d d' /\ Same d d'
  | MClosed p => KeepM d d' /\ dProg d' = dProg d /\ dChecking d' = dChecking d /\ dFresh d' = dFresh d /\ dAnnounced d' = dAnnounced d /\ dStored d' = dStored d
  | MChecked k s =>
    dAnnounced d' = dAnnounced d /\ dStored d' = dStored d /\ dReqs d' = dReqs d /\
    match nth_error (dChecking d) k with
    | None => d' = d
    | Some (idx, r) => 0 <= idx /\ dChecking d' = firstn k (dChecking d) ++ skipn (S k) (dChecking d) /\
       match s with
       | CSuccess => dProg d' = dProg d /\ dFresh d' = dFresh d ++ [idx]
       | _ => dFresh d' = dFresh d /\ forall i, 0 <= i -> is_received (dProg d') i = is_received (dProg d) i && negb (i =? idx) /\ is_chosen (dProg d') i = is_chosen (dProg d) i
       end /\ (forall i, i <> idx -> isMissing d' i = isMissing d i) /\ (s <> CSuccess -> is_chosen (dProg d) idx = true -> isMissing d' idx = true)
    end
  | MSelect pr _ => dProg d' = pr /\ dChecking d' = dChecking d /\ dFresh d' = dFresh d /\ dAnnounced d' = dAnnounced d /\ dStored d' = dStored d /\
      (forall i, aget i (dReqs d') <> None -> isMissing d' i = true)
  | MSort l => d' = setSorted l d
  | MFlags pr => d' = setProg pr d
  | MPop => d' = setFresh [] (addAnnounced (dFresh d) d)
  | MStop => d' = stop d
  end.

Lemma Out_same t n H vs exc d d' : dSent d' = dSent d -> dPeers d' = dPeers d -> Out t n H vs exc d d' [].
Proof.
  intros S P. apply Out_none; [exact S| |].
  - intros p i k Y. unfold outstanding in *. now rewrite <- P.
  - intros p. unfold load. rewrite P. lia.
Qed.

Lemma Same_refl d : Same d d.
Proof. repeat split. Qed.

Lemma Out_weaken t n H vs (e1 e2 : Z -> Z -> Z -> Prop) d d' new : (forall p i k, e1 p i k -> e2 p i k) -> Out t n H vs e1 d d' new -> Out t n H vs e2 d d' new.
Proof.
  intros W (A & B & C & D). split; [exact A|]. split; [exact B|]. split; [|exact D]. eapply Forall_impl; [|exact C]. cbn. intros q (Q1 & Q2 & Q3 & Q4 & Q5 & Q6). repeat (split; [assumption|]). intros X. apply W. now apply Q6.
Qed.

Lemma wanted_missing d idx n : zlen (pieces (dProg d)) = n -> 0 <= idx < n -> wantedPiece (dProg d) idx = Ok (isMissing d idx).
Proof.
  intros L R. unfold wantedPiece, piece, isMissing. destruct (Z.leb_spec 0 idx); [|lia]. cbn [andb]. unfold zlen in L.
  destruct (Z.ltb_spec idx (zlen (pieces (dProg d)))); [|unfold zlen in *; lia]. cbn [andb bind]. do 2 f_equal. apply nth_indep. lia.
Qed.

Lemma step_ok t n (H : Z -> Z -> Prop) vs d e : plain t n -> n < 4294967296 -> (forall p idx, has (vs p) idx = true -> H p idx) -> Good t n H d -> possible n e -> begins_inside t e ->
  exists d' new, dstep t vs d e = Ok d' /\ Good t n H d' /\ Out t n H vs (again e) d d' new /\ step_fact t vs d e d'.
Proof.
  intros P Hn HH G PO BI. destruct e as [p b|p|p idx|p|p|k s|pr sorted|sorted|pr| |]; cbn [dstep step_fact].
  - cbn in PO, BI. destruct (selectedFinished (dProg d)).
    + exists d, []. split; [reflexivity|]. split; [exact G|]. split; [now apply Out_same|]. split; [now left|]. split; [apply KeepM_refl|]. repeat (split; [reflexivity|]). split; [now left|]. now left.
    + destruct (block_ok t n H vs d p b P HH G PO BI Hn) as (d' & new & A & B & C & D & E & F & (K & U) & X). exists d', new. split; [exact A|]. split; [exact B|]. split; [exact C|].
      split; [exact U|]. split; [exact K|]. split; [exact E|]. split; [exact F|]. split; [exact D|]. destruct X as [X|(X1 & X2 & r & s & (X3 & X4 & X5) & X6)]; [now left|]. right. split; [exact X1|]. split; [congruence|]. eauto.
  - destruct (selectedFinished (dProg d)).
    + exists d, []. split; [reflexivity|]. split; [exact G|]. split; [now apply Out_same|]. split; [discriminate|]. split; [apply KeepM_refl|apply Same_refl].
    + destruct (unchoke_ok t n H vs d p P HH G) as (d' & new & A & B & C & D & E & F). exists d', new. split; [exact A|]. split; [exact B|]. split; [exact C|]. split; [intros _; exact F|]. split; assumption.
  - cbn in PO. destruct (selectedFinished (dProg d)).
    + exists d, []. split; [reflexivity|]. split; [exact G|]. split; [now apply Out_same|]. split; [discriminate|]. split; [apply KeepM_refl|apply Same_refl].
    + rewrite (wanted_missing d idx n (i_len _ _ _ _ (g_inv _ _ _ _ G)) PO). cbn [bind]. destruct (isMissing d idx).
      * destruct (announce_ok t n H vs d p P HH G) as (d' & new & A & B & C & D & E & F). exists d', new. split; [exact A|]. split; [exact B|]. split; [eapply Out_weaken; [|exact C]; tauto|]. split; [intros _ _; exact F|]. split; assumption.
      * exists d, []. split; [reflexivity|]. split; [exact G|]. split; [now apply Out_same|]. split; [discriminate|]. split; [apply KeepM_refl|apply Same_refl].
  - destruct (selectedFinished (dProg d)).
    + exists d, []. split; [reflexivity|]. split; [exact G|]. split; [now apply Out_same|]. split; [discriminate|]. split; [apply KeepM_refl|apply Same_refl].
    + destruct (hasWantedPieces (vs p) d).
      * destruct (announce_ok t n H vs d p P HH G) as (d' & new & A & B & C & D & E & F). exists d', new. split; [exact A|]. split; [exact B|]. split; [eapply Out_weaken; [|exact C]; tauto|]. split; [intros _ _; exact F|]. split; assumption.
      * exists d, []. split; [reflexivity|]. split; [exact G|]. split; [now apply Out_same|]. split; [discriminate|]. split; [apply KeepM_refl|apply Same_refl].
  - destruct (closed_ok t n H vs (again (MClosed p)) d p G) as (A & B & C & D). exists (connectionClosed p d), []. split; [reflexivity|]. split; [exact A|]. split; [exact B|]. split; [exact C|exact D].
  - destruct (nth_error (dChecking d) k) as [[idx r]|] eqn:E.
    + destruct (checked_ok t n H vs (again (MChecked k s)) d k s idx r G E) as (d' & A & B & C & D & F & K & L & M).
      assert (0 <= idx) by (apply nth_error_In in E; destruct (proj2 (proj2 (g_stored _ _ _ _ G)) idx r E); lia).
      exists d', []. split; [exact A|]. split; [exact B|]. split; [exact C|]. split; [exact K|]. split; [exact D|]. split; [exact F|]. split; [assumption|]. split; [exact L|]. exact M.
    + exists d, []. split; [reflexivity|]. split; [exact G|]. split; [now apply Out_same|]. repeat split.
  - cbn in PO. destruct PO as (O1 & O2 & O3 & O4). destruct (select_ok t n H vs d pr sorted P HH G O1 O2 O3 O4) as (d' & new & A & B & C & D). exists d', new. split; [exact A|]. split; [exact B|]. split; [eapply Out_weaken; [|exact C]; tauto|]. exact D.
  - exists (setSorted sorted d), []. split; [reflexivity|]. split; [now apply Good_sorted|]. split; [now apply Out_same|]. reflexivity.
  - cbn in PO. destruct PO as (O1 & O2 & O3). exists (setProg pr d), []. split; [reflexivity|]. split; [now apply Good_prog|]. split; [now apply Out_same|]. reflexivity.
  - exists (setFresh [] (addAnnounced (dFresh d) d)), []. split; [reflexivity|]. split; [apply Good_fresh, Good_announced, G|]. split; [now apply Out_same|]. reflexivity.
  - exists (stop d), []. split; [reflexivity|]. split; [now apply stop_good|]. split; [|reflexivity]. apply Out_none; [reflexivity| |].
    + intros p i k (info & Y & _). cbn in Y. discriminate.
    + intros p. unfold load at 1. cbn. pose proof (limit_bounds (vs p)). lia.
Qed.

(** ** The beginning *)
Lemma start_good t n H pr unf stored : start_ok t n pr unf stored -> Good t n H (newDl pr unf stored).
Proof.
  intros (A & B & C & D & E). rewrite Forall_forall in E. split; [| |split; [|split]|exact B|exact C].
  - split; cbn; try discriminate.
    + exact A.
    + constructor.
    + constructor.
    + intros u U. destruct (E u U) as [K|[K _]]; [now left|right]. exact K.
    + constructor.
  - intros p info i Y. cbn in Y. discriminate.
  - cbn. discriminate.
  - cbn. intros u k U K N. destruct (E u U) as [W|[_ W]]; [rewrite W in K; cbn in K; unfold zlen in K; cbn in K; lia|]. now apply W.
  - cbn. contradiction.
Qed.

(** ** Histories *)
Lemma drun_app t : forall es es2 d, drun t d (es ++ es2) = bind (drun t d es) (fun d' => drun t d' es2).
Proof. induction es as [|[vs e] es IH]; intros es2 d; cbn; [reflexivity|]. destruct (dstep t vs d e); cbn; [apply IH|reflexivity]. Qed.

Lemma history_run t n d0 es d : history t n d0 es d -> drun t d0 es = Ok d.
Proof.
  induction 1; [reflexivity|]. rewrite drun_app, IHhistory. cbn. now rewrite H3.
Qed.

Lemma claimed_app es es2 p i : claimed es p i -> claimed (es ++ es2) p i.
Proof. intros (vs & e & A & B). exists vs, e. split; [apply in_or_app; now left|exact B]. Qed.

Lemma Good_mono t n (H H2 : Z -> Z -> Prop) d : (forall p i, H p i -> H2 p i) -> Good t n H d -> Good t n H2 d.
Proof.
  intros W [I A S F X]. split; try assumption. destruct I as [I1 I2 I3 I4 I5 I6 I7 I8 I9 I10]; split; try assumption. intros p info e0 Y Z. destruct (I7 p info e0 Y Z) as (Q1 & Q2 & Q3). auto.
Qed.

Lemma history_good t n pr unf stored : start_ok t n pr unf stored -> n < 4294967296 -> forall es d, history t n (newDl pr unf stored) es d -> Good t n (claimed es) d.
Proof.
  intros ST Hn es d HI. induction HI as [|es d vs e d' HI IH PO BI KE SE]; [now apply start_good|].
  assert (G : Good t n (claimed (es ++ [(vs, e)])) d) by (eapply Good_mono; [|exact IH]; intros; now apply claimed_app).
  destruct (step_ok t n (claimed (es ++ [(vs, e)])) vs d e (proj1 (proj2 (proj2 (proj2 ST)))) Hn) as (d2 & new & A & B & _); [|exact G|exact PO|exact BI|].
  - intros p i Hh. exists vs, e. split; [apply in_or_app; right; now left|exact Hh].
  - rewrite SE in A. injection A as <-. exact B.
Qed.

Lemma history_step t n pr unf stored : start_ok t n pr unf stored -> n < 4294967296 -> forall es d vs e, history t n (newDl pr unf stored) es d -> possible n e -> begins_inside t e ->
  exists d' new, dstep t vs d e = Ok d' /\ Good t n (claimed (es ++ [(vs, e)])) d' /\ Out t n (claimed (es ++ [(vs, e)])) vs (again e) d d' new /\ step_fact t vs d e d'.
Proof.
  intros ST Hn es d vs e HI PO BI. apply step_ok; [apply ST|exact Hn| | |exact PO|exact BI].
  - intros p i Hh. exists vs, e. split; [apply in_or_app; right; now left|exact Hh].
  - eapply Good_mono; [|eapply history_good; eassumption]. intros. now apply claimed_app.
Qed.

Lemma history_load t n pr unf stored : start_ok t n pr unf stored -> n < 4294967296 -> forall es d, history t n (newDl pr unf stored) es d -> forall p, load d p <= 100.
Proof.
  intros ST Hn es d HI p. pose proof (history_good _ _ _ _ _ ST Hn _ _ HI) as G. destruct (aget p (dPeers d)) as [info|] eqn:E.
  - rewrite (load_active t n _ d p info (g_inv _ _ _ _ G) E). exact (i_active _ _ _ _ (g_inv _ _ _ _ G) p info E).
  - unfold load. rewrite E. lia.
Qed.

(** ** Checked pieces *)
Lemma verified_app t d0 es es2 i : verified t d0 es i -> verified t d0 (es ++ es2) i.
Proof. intros (e1 & vs & k & e2 & d1 & r & A & B). exists e1, vs, k, (e2 ++ es2), d1, r. split; [|exact B]. rewrite A, <- app_assoc. reflexivity. Qed.

Definition noFlags (es : list ((Z -> view) * devent)) : Prop := forall vs pr, ~ In (vs, MFlags pr) es.

Lemma nth_error_split' {A} (l : list A) k x : nth_error l k = Some x -> l = firstn k l ++ x :: skipn (S k) l.
Proof. revert k. induction l as [|y l IH]; intros [|k] H; cbn in *; try discriminate; [now injection H as ->|]. f_equal. now apply IH. Qed.

Lemma missing_chosen d i : isMissing d i = true -> (Z.to_nat i < length (pieces (dProg d)))%nat -> is_chosen (dProg d) i = true.
Proof.
  unfold isMissing, is_chosen. intros M L. apply andb_true_iff in M. destruct M as (M1 & M2). apply Z.leb_le in M1. apply Z.eqb_eq in M2. rewrite (nth_indep _ 1 0 L) in M2. unfold chosen. rewrite M2.
  destruct (Z.leb_spec 0 i); [|lia]. destruct (Z.ltb_spec i (zlen (pieces (dProg d)))); [reflexivity|unfold zlen in *; lia].
Qed.

Lemma history_checked t n pr unf stored : start_ok t n pr unf stored -> n < 4294967296 -> forall es d, history t n (newDl pr unf stored) es d ->
  (forall i, In i (dFresh d) \/ In i (dAnnounced d) -> verified t (newDl pr unf stored) es i) /\
  (noFlags es -> (forall i, aget i (dReqs d) <> None -> isMissing d i = true) /\
    forall i, 0 <= i -> is_received (dProg d) i = true -> is_received pr i = true \/ In i (map fst (dChecking d)) \/ verified t (newDl pr unf stored) es i).
Proof.
  intros ST Hn es d HI. set (d0 := newDl pr unf stored) in *. induction HI as [|es d vs e d' HI IH PO BI KE SE].
  - split; [intros i [[]|[]]|]. intros _. split; [cbn; tauto|]. intros i _ R. now left.
  - destruct (history_step _ _ _ _ _ ST Hn es d vs e HI PO BI) as (d2 & new & A & _ & _ & F). rewrite SE in A. injection A as <-.
    pose proof (history_good _ _ _ _ _ ST Hn _ _ HI) as G. fold d0 in G.
    destruct IH as (IH1 & IH2). pose proof (history_run _ _ _ _ _ HI) as RUN.
    assert (OLD : forall i, verified t d0 es i -> verified t d0 (es ++ [(vs, e)]) i) by (intros; now apply verified_app).
    assert (NF : noFlags (es ++ [(vs, e)]) -> noFlags es) by (intros N w q W; apply (N w q), in_or_app; now left).
    (* events which change neither the progress nor the checks *)
    assert (Plain : dFresh d' = dFresh d -> dAnnounced d' = dAnnounced d -> dProg d' = dProg d -> dChecking d' = dChecking d -> KeepM d d' ->
      (forall i, In i (dFresh d') \/ In i (dAnnounced d') -> verified t d0 (es ++ [(vs, e)]) i) /\
      (noFlags (es ++ [(vs, e)]) -> (forall i, aget i (dReqs d') <> None -> isMissing d' i = true) /\
      forall i, 0 <= i -> is_received (dProg d') i = true -> is_received pr i = true \/ In i (map fst (dChecking d')) \/ verified t d0 (es ++ [(vs, e)]) i)).
    { intros E1 E2 E3 E4 K. split; [rewrite E1, E2; auto|]. intros N. destruct (IH2 (NF N)) as (M & R). split.
      - intros i Y. destruct (K i Y) as [Z|(Z1 & Z2)]; [exact Z|]. rewrite Z2. now apply M.
      - intros i Hi Y. rewrite E3 in Y. rewrite E4. destruct (R i Hi Y) as [W|[W|W]]; auto. }
    destruct e as [p b|p|p idx|p|p|k s|pr' sorted|sorted|pr'| |]; cbn [step_fact] in F.
    + destruct F as (_ & K & E1 & E2 & _ & [(E3 & E4)|(R1 & Q1 & r' & Q2)]); [now apply Plain|]. split; [rewrite E1, E2; auto|]. intros N. destruct (IH2 (NF N)) as (M & R). split.
      * intros i Y. destruct (K i Y) as [Z|(Z1 & Z2)]; [exact Z|]. rewrite Z2. now apply M.
      * rewrite (M _ Q1) in Q2. intros i Hi Y. rewrite (R1 i Hi) in Y. rewrite Q2, map_app. apply orb_true_iff in Y. destruct Y as [Y|Y].
        -- destruct (R i Hi Y) as [W|[W|W]]; [now left|right; left; apply in_or_app; now left|right; right; auto].
        -- apply Z.eqb_eq in Y. subst i. right. left. apply in_or_app. right. now left.
    + destruct F as (_ & K & (S1 & S2 & S3 & S4 & S5 & S6 & S7)). now apply Plain.
    + destruct F as (_ & K & (S1 & S2 & S3 & S4 & S5 & S6 & S7)). now apply Plain.
    + destruct F as (_ & K & (S1 & S2 & S3 & S4 & S5 & S6 & S7)). now apply Plain.
    + destruct F as (K & E1 & E2 & E3 & E4 & E5). now apply Plain.
    + destruct F as (E1 & E2 & E3 & F). destruct (nth_error (dChecking d) k) as [[idx r]|] eqn:E; [|subst d'; apply Plain; auto; apply KeepM_refl].
      destruct F as (Hidx & F1 & F2 & F3 & F4). pose proof (nth_error_split' _ _ _ E) as SP.
      assert (CH : forall i, In i (map fst (dChecking d)) -> i = idx \/ In i (map fst (dChecking d'))).
      { intros i Y. rewrite SP, map_app in Y. rewrite F1, map_app. cbn in Y. apply in_app_or in Y. destruct Y as [Y|[Y|Y]]; [right; apply in_or_app; now left|left; congruence|right; apply in_or_app; now right]. }
      destruct s.
      * destruct F2 as (F5 & F6).
        assert (NEW : verified t d0 (es ++ [(vs, MChecked k CSuccess)]) idx) by (exists es, vs, k, [], d, r; split; [reflexivity|]; split; [exact RUN|exact E]).
        split; [rewrite F6, E1; intros i [Y|Y]; [apply in_app_or in Y; destruct Y as [Y|[<-|[]]]; auto|auto]|]. intros N. destruct (IH2 (NF N)) as (M & R). split.
        -- intros i Y. rewrite E3 in Y. specialize (M i Y). unfold isMissing in *. now rewrite F5.
        -- intros i Hi Y. rewrite F5 in Y. destruct (R i Hi Y) as [W|[W|W]]; [now left| |right; right; auto]. destruct (CH i W) as [->|W']; [right; right; exact NEW|auto].
      * destruct F2 as (F5 & F6). split; [rewrite F5, E1; auto|]. intros N. destruct (IH2 (NF N)) as (M & R). split.
        -- intros i Y. rewrite E3 in Y. destruct (Z.eq_dec i idx) as [->|Ni]; [|rewrite F3 by assumption; now apply M].
           apply F4; [discriminate|]. apply missing_chosen; [now apply M|]. destruct (aget idx (dReqs d)) as [r0|] eqn:W; [|congruence].
           destruct (i_req _ _ _ _ (g_inv _ _ _ _ G) idx r0 W) as (W1 & _). pose proof (i_len _ _ _ _ (g_inv _ _ _ _ G)) as L. unfold zlen in L. lia.
        -- intros i Hi Y. rewrite (proj1 (F6 i Hi)) in Y. apply andb_true_iff in Y. destruct Y as (Y1 & Y2). apply negb_true_iff, Z.eqb_neq in Y2.
           destruct (R i Hi Y1) as [W|[W|W]]; [now left| |right; right; auto]. destruct (CH i W) as [->|W']; [congruence|auto].
      * destruct F2 as (F5 & F6). split; [rewrite F5, E1; auto|]. intros N. destruct (IH2 (NF N)) as (M & R). split.
        -- intros i Y. rewrite E3 in Y. destruct (Z.eq_dec i idx) as [->|Ni]; [|rewrite F3 by assumption; now apply M].
           apply F4; [discriminate|]. apply missing_chosen; [now apply M|]. destruct (aget idx (dReqs d)) as [r0|] eqn:W; [|congruence].
           destruct (i_req _ _ _ _ (g_inv _ _ _ _ G) idx r0 W) as (W1 & _). pose proof (i_len _ _ _ _ (g_inv _ _ _ _ G)) as L. unfold zlen in L. lia.
        -- intros i Hi Y. rewrite (proj1 (F6 i Hi)) in Y. apply andb_true_iff in Y. destruct Y as (Y1 & Y2). apply negb_true_iff, Z.eqb_neq in Y2.
           destruct (R i Hi Y1) as [W|[W|W]]; [now left| |right; right; auto]. destruct (CH i W) as [->|W']; [congruence|auto].
    + destruct F as (E1 & E2 & E3 & E4 & E5 & E6). split; [rewrite E3, E4; auto|]. intros N. destruct (IH2 (NF N)) as (M & R). split; [exact E6|].
      intros i Hi Y. rewrite E1 in Y. cbn in KE. rewrite KE in Y by exact Hi. rewrite E2. destruct (R i Hi Y) as [W|[W|W]]; auto.
    + subst d'. apply Plain; try reflexivity. intros i Y. right. split; [exact Y|reflexivity].
    + subst d'. split; [cbn; auto|]. intros N. exfalso. apply (N vs pr'), in_or_app. right. now left.
    + subst d'. split; [cbn; intros i [[]|Y]; apply in_app_or in Y; destruct Y; auto|]. intros N. destruct (IH2 (NF N)) as (M & R). split; [exact M|]. intros i Hi Y. destruct (R i Hi Y) as [W|[W|W]]; auto.
    + subst d'. apply Plain; try reflexivity. intros i Y. cbn in Y. congruence.
Qed.
